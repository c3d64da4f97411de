(** * Properties: Angles

    Statements only; proofs are in L_PAngles.v. *)

From Coq Require Import ZArith Reals Lra Lia Bool.
From Flocq Require Import Core BinarySingleNaN.
From Verif Require Import Outcome Arith ArithR ArithF Spec_Float M_Common M_Time M_Earth.
Open Scope R_scope.
From Verif Require L_PAngles.

(** C28.  Exact arithmetic: in [0, 2 pi), a whole number of turns away. *)
Theorem C28_anp : forall a, 0 <= anp (A := realA) a < 2 * PI /\
  exists k : Z, a = anp (A := realA) a + IZR k * (2 * PI).
Proof. exact L_PAngles.C28_anp_pf. Qed.
Print Assumptions C28_anp.

(** The result is the only such angle, so C28 determines [anp]. *)
Theorem C28_anp_unique : forall a w, 0 <= w < 2 * PI -> (exists k : Z, a = w + IZR k * (2 * PI)) ->
  anp (A := realA) a = w.
Proof. exact L_PAngles.C28_anp_unique_pf. Qed.
Print Assumptions C28_anp_unique.

(** C28, binary64: every finite angle gives a finite number in [0, TWO_PI],
    within 2^-51 of a whole number of (binary64) turns from the input. *)
Theorem C28_anp_b64 : forall lm a, fin a = true ->
  let T := B2R (c_two_pi (b64A lm)) in
  fin (anp (A := b64A lm) a) = true /\ 0 <= B2R (anp (A := b64A lm) a) <= T /\
  exists k : Z, Rabs (B2R a - (B2R (anp (A := b64A lm) a) + IZR k * T)) <= bpow radix2 (-51).
Proof. exact L_PAngles.C28_anp_b64_pf. Qed.
Print Assumptions C28_anp_b64.

(** In binary64 the upper end can be reached: anp(-1e-20) = TWO_PI. *)
Theorem C28_anp_b64_reaches_two_pi : forall lm,
  anp (A := b64A lm) (Flit (-1) (-20)) = c_two_pi (b64A lm).
Proof. exact L_PAngles.C28_anp_b64_reaches_two_pi_pf. Qed.
Print Assumptions C28_anp_b64_reaches_two_pi.

(** C28, binary64: NaN and the infinities give NaN. *)
Theorem C28_anp_b64_not_finite : forall lm a, fin a = false -> is_nan (anp (A := b64A lm) a) = true.
Proof. exact L_PAngles.C28_anp_b64_not_finite_pf. Qed.
Print Assumptions C28_anp_b64_not_finite.

(** C28 on concrete angles: three quarters of a turn backwards, and ten radians. *)
Example C28_example : anp (A := realA) (- (3 * PI / 2)) = PI / 2 /\ anp (A := realA) 10 = 10 - 2 * PI.
Proof. exact L_PAngles.C28_example_pf. Qed.

(** C29.  Exact arithmetic: 2 pi times the fractional part of the IAU 2000
    Earth rotation angle, a function of the total date only. *)
Theorem C29_era_total : forall dj1 dj2,
  let th := 0.7790572732640 + 1.00273781191135448 * (dj1 + dj2 - 2451545) in
  rotation_angle (A := realA) (MkUT1 (A := realA) dj1 dj2) = 2 * PI * (th - IZR (Zfloor th)) /\
  0 <= rotation_angle (A := realA) (MkUT1 (A := realA) dj1 dj2) < 2 * PI.
Proof. exact L_PAngles.C29_era_total_pf. Qed.
Print Assumptions C29_era_total.

(** C29, in particular: any two splits of the same date give the same angle. *)
Theorem C29_era_split : forall dj1 dj2 dj1' dj2', dj1 + dj2 = dj1' + dj2' ->
  rotation_angle (A := realA) (MkUT1 (A := realA) dj1 dj2) =
  rotation_angle (A := realA) (MkUT1 (A := realA) dj1' dj2').
Proof. exact L_PAngles.C29_era_split_pf. Qed.
Print Assumptions C29_era_split.

(** C30.  Bit-identical when the two parts are exchanged, for all binary64 values. *)
Theorem C30_era_symmetric : forall lm a b,
  rotation_angle (A := b64A lm) (MkUT1 (A := b64A lm) a b) =
  rotation_angle (A := b64A lm) (MkUT1 (A := b64A lm) b a).
Proof. exact L_PAngles.C30_era_symmetric_pf. Qed.
Print Assumptions C30_era_symmetric.

(** C29 at 2000-01-01 12:00 UT1, for two splits of the date. *)
Example C29_example :
  rotation_angle (A := realA) (MkUT1 (A := realA) 2451545 0) = 2 * PI * 0.7790572732640 /\
  rotation_angle (A := realA) (MkUT1 (A := realA) 2400000.5 51544.5) = 2 * PI * 0.7790572732640.
Proof. exact L_PAngles.C29_example_pf. Qed.

(** C30 on a quarter of a day after the epoch. *)
Example C30_example : forall lm,
  B2SF (rotation_angle (A := b64A lm) (MkUT1 (A := b64A lm) (Flit 2451545 0) (Flit 25 (-2)))) =
    SpecFloat.S754_finite false 6732801362896320 (-55) /\
  B2SF (rotation_angle (A := b64A lm) (MkUT1 (A := b64A lm) (Flit 25 (-2)) (Flit 2451545 0))) =
    SpecFloat.S754_finite false 6732801362896320 (-55).
Proof. exact L_PAngles.C30_example_pf. Qed.
