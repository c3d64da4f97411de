(** * Model of crates/tofas/src/common.rs *)

From Coq Require Import ZArith Bool List.
From Verif Require Import Outcome Arith.
Import ListNotations.
Open Scope Z_scope.

Section Common.
Context {A : arith}.
Local Open Scope num_scope.
Local Notation num := (num A).
Local Notation lit := (lit A).

(** common.rs:8 [sq] *)
Definition sq (x : num) : num := x * x.

(** common.rs:21 [DEGREE] *)
Definition DEGREE : num := c_pi A / lit 180 0.
(** common.rs:26 [MAS2R] = AS2R / 1e3 *)
Definition MAS2R : num := c_as2r A / lit 1 3.
(** common.rs:27 [TURNAS] *)
Definition TURNAS : num := lit 1296000 0.

(** common.rs:29-36 [anp] *)
Definition anp (a : num) : num :=
  let w := a %% c_two_pi A in
  if w <? lit 0 0 then w + c_two_pi A else w.

(** ** Vectors: [type Vec3 = [R;3]] (common.rs:4)

    A Rust array [R;3] indexed by loop variables in 0..3 or by literals: the
    index type [idx] has exactly the three in-range values, so these accesses
    cannot be out of bounds.  The one function with a run-time index coming
    from the caller, [rotation], checks it explicitly. *)
Inductive idx : Type := I0 | I1 | I2.
Definition idx_all : list idx := [I0; I1; I2].       (* 0..3 *)
Definition idx_of_nat (n : nat) : option idx :=
  match n with
  | 0%nat => Some I0
  | 1%nat => Some I1
  | 2%nat => Some I2
  | _ => None
  end.

Record vec3 : Type := V3 { v0 : num; v1 : num; v2 : num }.

Definition vget (v : vec3) (i : idx) : num :=
  match i with I0 => v0 v | I1 => v1 v | I2 => v2 v end.
Definition vset (v : vec3) (i : idx) (x : num) : vec3 :=
  match i with
  | I0 => V3 x (v1 v) (v2 v)
  | I1 => V3 (v0 v) x (v2 v)
  | I2 => V3 (v0 v) (v1 v) x
  end.

(** common.rs:50-54 [neg] *)
Definition vneg (a : vec3) : vec3 := V3 (- v0 a) (- v1 a) (- v2 a).
(** common.rs:56-60 [scale] *)
Definition vscale (a : vec3) (c : num) : vec3 := V3 (c * v0 a) (c * v1 a) (c * v2 a).
(** common.rs:62-66 [add] *)
Definition vadd (a b : vec3) : vec3 := V3 (v0 a + v0 b) (v1 a + v1 b) (v2 a + v2 b).
(** common.rs:68-72 [sub] *)
Definition vsub (a b : vec3) : vec3 := V3 (v0 a - v0 b) (v1 a - v1 b) (v2 a - v2 b).
(** common.rs:74-76 [norm] *)
Definition vnorm (a : vec3) : num := nsqrt A (sq (v0 a) + sq (v1 a) + sq (v2 a)).
(** common.rs:78-80 [normalize] *)
Definition vnormalize (a : vec3) : vec3 := vscale a (lit 1 0 / vnorm a).
(** common.rs:82-84 [dot] *)
Definition vdot (a b : vec3) : num := v0 a * v0 b + v1 a * v1 b + v2 a * v2 b.
(** common.rs:86-88 [angle] *)
Definition vangle (a b : vec3) : num := nacos A (vdot (vnormalize a) (vnormalize b)).

(** ** Matrices: [type Mat3 = [Vec3;3]] (common.rs:5), [m[i][j]] = row i, column j *)

Record mat3 : Type := M3 { r0 : vec3; r1 : vec3; r2 : vec3 }.

Definition mrow (m : mat3) (i : idx) : vec3 :=
  match i with I0 => r0 m | I1 => r1 m | I2 => r2 m end.
Definition mget (m : mat3) (i j : idx) : num := vget (mrow m i) j.
Definition mset (m : mat3) (i j : idx) (x : num) : mat3 :=
  match i with
  | I0 => M3 (vset (r0 m) j x) (r1 m) (r2 m)
  | I1 => M3 (r0 m) (vset (r1 m) j x) (r2 m)
  | I2 => M3 (r0 m) (r1 m) (vset (r2 m) j x)
  end.

(** common.rs:104-108 [zero] *)
Definition mzero : mat3 :=
  let o := lit 0 0 in M3 (V3 o o o) (V3 o o o) (V3 o o o).

(** common.rs:110-114 [identity] *)
Definition midentity : mat3 :=
  let o := lit 0 0 in let l := lit 1 0 in
  M3 (V3 l o o) (V3 o l o) (V3 o o l).

(** common.rs:116-120 [apply] (note the index order self[j][i]) *)
Definition mapply (m : mat3) (x : vec3) : vec3 :=
  V3 (mget m I0 I0 * v0 x + mget m I1 I0 * v1 x + mget m I2 I0 * v2 x)
     (mget m I0 I1 * v0 x + mget m I1 I1 * v1 x + mget m I2 I1 * v2 x)
     (mget m I0 I2 * v0 x + mget m I1 I2 * v1 x + mget m I2 I2 * v2 x).

(** common.rs:122-134 [compose]: the three nested loops, as folds *)
Definition mcompose (a b : mat3) : mat3 :=
  fold_left (fun c i =>
    fold_left (fun c j =>
      let s := fold_left (fun s k => s + mget a i k * mget b k j) idx_all (lit 0 0) in
      mset c i j s) idx_all c) idx_all mzero.

(** common.rs:136-144 [transpose] *)
Definition mtranspose (a : mat3) : mat3 :=
  fold_left (fun c i =>
    fold_left (fun c j => mset c i j (mget a j i)) idx_all c) idx_all mzero.

(** common.rs:160-172 [rotation].  [axis] is a [usize]: the indices i0 and i1
    are always below 3 and [r[axis][axis]] panics when axis >= 3.  (At
    axis = usize::MAX, [axis + 1] or [axis + 2] overflows: a debug build panics
    there already and a release build panics at [r[axis]].) *)
Definition rotation (axis : nat) (theta : num) : outcome mat3 :=
  let c := ncos A theta in
  let s := nsin A theta in
  match idx_of_nat ((axis + 1) mod 3), idx_of_nat ((axis + 2) mod 3) with
  | Some i0, Some i1 =>
      let r := mzero in
      let r := mset r i0 i0 c in
      let r := mset r i0 i1 s in
      let r := mset r i1 i0 (- s) in
      let r := mset r i1 i1 c in
      match idx_of_nat axis with
      | Some ax => Val (mset r ax ax (lit 1 0))
      | None => Panic
      end
  | _, _ => Panic
  end.

End Common.
Arguments vec3 : clear implicits.
Arguments mat3 : clear implicits.
