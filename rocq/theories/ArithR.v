(** * Exact real arithmetic *)

From Coq Require Import ZArith Reals.
From Flocq Require Import Core.
From Verif Require Import Outcome Arith.
Open Scope R_scope.

(** Decimal literal m * 10^e as a rational number. *)
Definition Rlit (m e : Z) : R :=
  match e with
  | Zneg p => IZR m / IZR (Z.pow_pos 10 p)
  | _ => IZR (m * Z.pow 10 e)
  end.

(** Truncated remainder. *)
Definition Rrem (x y : R) : R := x - y * IZR (Ztrunc (x / y)).

(** Nearest integer, ties away from zero. *)
Definition Rround (x : R) : R := IZR (ZnearestA x).

Definition clampZ (lo hi z : Z) : Z := Z.max lo (Z.min hi z).

(** The principal argument of the point (x,y). *)
Definition Ratan2 (y x : R) : R :=
  if Rlt_bool 0 x then atan (y / x)
  else if Rlt_bool x 0 then
    (if Rle_bool 0 y then atan (y / x) + PI else atan (y / x) - PI)
  else if Rlt_bool 0 y then PI / 2
  else if Rlt_bool y 0 then - (PI / 2)
  else 0.

Definition realA : arith := {|
  num := R;
  lit := Rlit;
  of_int := IZR;
  add := Rplus;
  sub := Rminus;
  mul := Rmult;
  div := Rdiv;
  rem := Rrem;
  neg := Ropp;
  nabs := Rabs;
  nsqrt := R_sqrt.sqrt;
  nround := Rround;
  ntrunc := fun x => IZR (Ztrunc x);
  ltb := Rlt_bool;
  leb := Rle_bool;
  to_i32 := fun x => clampZ i32_min i32_max (Ztrunc x);
  to_u32 := fun x => clampZ 0 4294967295 (Ztrunc x);
  nsin := sin;
  ncos := cos;
  nacos := acos;
  natan := atan;
  natan2 := Ratan2;
  c_pi := PI;
  c_two_pi := 2 * PI;
  c_as2r := PI / 648000
|}.
