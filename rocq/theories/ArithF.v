(** * IEEE-754 binary64 arithmetic

    Built on Flocq's [BinarySingleNaN] (one NaN: Rust does not specify NaN
    payloads).  Rounding is to nearest, ties to even, as Rust guarantees. *)

From Coq Require Import ZArith Reals Bool.
From Flocq Require Import Core BinarySingleNaN.
From Verif Require Import Outcome Arith.
Open Scope Z_scope.

Notation b64 := (binary_float 53 1024).

#[global] Instance prec53_gt_0 : Prec_gt_0 53 := eq_refl.
#[global] Instance prec53_lt_emax : Prec_lt_emax 53 1024 := eq_refl.

Definition Fadd : b64 -> b64 -> b64 := Bplus mode_NE.
Definition Fsub : b64 -> b64 -> b64 := Bminus mode_NE.
Definition Fmul : b64 -> b64 -> b64 := Bmult mode_NE.
Definition Fdiv : b64 -> b64 -> b64 := Bdiv mode_NE.
Definition Fsqrt : b64 -> b64 := Bsqrt mode_NE.
Definition Fround : b64 -> b64 := Bnearbyint mode_NA.
Definition Ftrunc : b64 -> b64 := Bnearbyint mode_ZR.

(** Nearest binary64 to m * 2^e. *)
Definition Fof (m e : Z) : b64 := binary_normalize 53 1024 _ _ mode_NE m e false.

Definition FofZ (z : Z) : b64 := Fof z 0.

(** Nearest binary64 to the quotient m / d of two integers, d > 0
    (correctly rounded, for arbitrary integers). *)
Definition Fquot (m : Z) (d : positive) : b64 :=
  match m with
  | Z0 => B754_zero false
  | Zpos p =>
      SF2B _ (proj1 (Bdiv_correct_aux 53 1024 _ _ mode_NE false p 0 false d 0))
  | Zneg p =>
      SF2B _ (proj1 (Bdiv_correct_aux 53 1024 _ _ mode_NE true p 0 false d 0))
  end.

(** Decimal literal, correctly rounded. *)
Definition Flit (m e : Z) : b64 :=
  match e with
  | Zneg p => Fquot m (Pos.pow 10 p)
  | _ => FofZ (m * Z.pow 10 e)
  end.

(** C fmod / Rust [%]: exact truncated remainder; the sign of a zero result is
    that of the dividend. *)
Definition Frem (x y : b64) : b64 :=
  match x, y with
  | B754_nan, _ | _, B754_nan => B754_nan
  | B754_infinity _, _ => B754_nan
  | _, B754_zero _ => B754_nan
  | _, B754_infinity _ => x
  | B754_zero _, _ => x
  | B754_finite sx mx ex _, B754_finite _ my ey _ =>
      let e := Z.min ex ey in
      let ax := Zpos mx * 2 ^ (ex - e) in
      let ay := Zpos my * 2 ^ (ey - e) in
      let r := Z.rem ax ay in
      binary_normalize 53 1024 _ _ mode_NE (if sx then - r else r) e sx
  end.

(** [x as i32], [x as u32]: truncation, saturation, NaN to 0. *)
Definition Fto_int (lo hi : Z) (x : b64) : Z :=
  match x with
  | B754_nan => 0
  | B754_infinity s => if s then lo else hi
  | _ => Z.max lo (Z.min hi (Btrunc x))
  end.

(** The platform's libm: any functions at all. *)
Record libm : Type := MkLibm {
  lm_sin : b64 -> b64;
  lm_cos : b64 -> b64;
  lm_acos : b64 -> b64;
  lm_atan : b64 -> b64;
  lm_atan2 : b64 -> b64 -> b64
}.

Definition b64A (lm : libm) : arith := {|
  num := b64;
  lit := Flit;
  of_int := FofZ;
  add := Fadd;
  sub := Fsub;
  mul := Fmul;
  div := Fdiv;
  rem := Frem;
  neg := Bopp;
  nabs := Babs;
  nsqrt := Fsqrt;
  nround := Fround;
  ntrunc := Ftrunc;
  ltb := Bltb;
  leb := Bleb;
  to_i32 := Fto_int i32_min i32_max;
  to_u32 := Fto_int 0 4294967295;
  nsin := lm_sin lm;
  ncos := lm_cos lm;
  nacos := lm_acos lm;
  natan := lm_atan lm;
  natan2 := lm_atan2 lm;
  (* std::f64::consts::PI = 3.14159265358979323846264338327950288_f64 *)
  c_pi := Flit 314159265358979323846264338327950288 (-35);
  (* common.rs:24 *)
  c_two_pi := Flit 6283185307179586476925287 (-24);
  (* common.rs:25 *)
  c_as2r := Flit 4848136811095359935899141 (-30)
|}.

(** For reading results of computations: (sign, mantissa, exponent). *)
Definition Fshow (x : b64) := B2SF x.
