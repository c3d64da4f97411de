(** * Properties: Step

    Statements only; proofs are in L_PStep.v. *)

From Coq Require Import ZArith Reals Lra Lia Bool List.
From Flocq Require Import Core BinarySingleNaN.
From Verif Require Import Outcome Arith ArithR ArithF Spec_Float Spec_Accuracy M_Common M_Time M_Earth Spec_Matrix Spec_Frames Spec_Series Spec_Orbit Spec_Gravity.
From Verif Require Import Spec_Accuracy.
Import ListNotations.
Open Scope R_scope.
From Verif Require L_PStep.

(** C40 over a finite time: after [h] days the Earth is at its position plus [h] times
    its velocity, within 0.000156 [h]^2 astronomical units in each coordinate, and
    each component of its velocity has changed by at most 0.000311 [h], for any two dates within a century of J2000. *)
Theorem C40_step : forall d d', Rabs (years d) <= 100 -> Rabs (years d') <= 100 ->
  let h := 365.25 * (years d' - years d) in
  exists r r', earth_pos_vel (A := realA) d = Val r /\ earth_pos_vel (A := realA) d' = Val r' /\
  forall i, let p r := coord (pv_p (A := realA) (heliocentric (A := realA) r)) i in
            let v r := coord (pv_v (A := realA) (heliocentric (A := realA) r)) i in
  Rabs (p r' - p r - h * v r) <= 0.000156 * (h * h) /\ Rabs (v r' - v r) <= 0.000311 * Rabs h.
Proof. exact L_PStep.C40_step_pf. Qed.
Print Assumptions C40_step.

(** C40 in binary64: the velocity returned for one date carries the position returned
    for it to the position returned for another, for every pair of dates within a century of J2000 split in
    any way into parts up to 2^22 days. *)
Theorem C40_step_b64 : forall lm, good_libm lm -> forall a b a' b' : b64,
  fin a = true -> fin b = true -> fin a' = true -> fin b' = true ->
  Rabs (B2R a) <= 4194304 -> Rabs (B2R b) <= 4194304 -> Rabs (B2R a') <= 4194304 -> Rabs (B2R b') <= 4194304 ->
  Rabs (years (MkTDB (A := realA) (B2R a) (B2R b))) <= 100 -> Rabs (years (MkTDB (A := realA) (B2R a') (B2R b'))) <= 100 ->
  let h := (B2R a' + B2R b') - (B2R a + B2R b) in
  exists r r', earth_pos_vel (A := b64A lm) (MkTDB (A := b64A lm) a b) = Val r /\ earth_pos_vel (A := b64A lm) (MkTDB (A := b64A lm) a' b') = Val r' /\
  forall i, let p r := vget (A := b64A lm) (pv_p (A := b64A lm) (heliocentric (A := b64A lm) r)) i in
            let v r := vget (A := b64A lm) (pv_v (A := b64A lm) (heliocentric (A := b64A lm) r)) i in
  near (p r') (B2R (p r) + h * B2R (v r)) (0.000156 * (h * h) + 1.54 / 10 ^ 10 + 1.4 / 10 ^ 12 * Rabs h) /\
  near (v r') (B2R (v r)) (0.000311 * Rabs h + 2.8 / 10 ^ 12).
Proof. exact L_PStep.C40_step_b64_pf. Qed.
Print Assumptions C40_step_b64.

(** With both dates given as modified Julian dates the rounding errors are below 2.6e-12
    astronomical units (40 cm) plus 2.3e-14 per day. *)
Theorem C40_step_b64_mjd : forall lm, good_libm lm -> forall a b b' : b64,
  fin a = true -> fin b = true -> fin b' = true -> B2R a = 2400000.5 ->
  Rabs (years (MkTDB (A := realA) (B2R a) (B2R b))) <= 100 -> Rabs (years (MkTDB (A := realA) (B2R a) (B2R b'))) <= 100 ->
  let h := B2R b' - B2R b in
  exists r r', earth_pos_vel (A := b64A lm) (MkTDB (A := b64A lm) a b) = Val r /\ earth_pos_vel (A := b64A lm) (MkTDB (A := b64A lm) a b') = Val r' /\
  forall i, let p r := vget (A := b64A lm) (pv_p (A := b64A lm) (heliocentric (A := b64A lm) r)) i in
            let v r := vget (A := b64A lm) (pv_v (A := b64A lm) (heliocentric (A := b64A lm) r)) i in
  near (p r') (B2R (p r) + h * B2R (v r)) (0.000156 * (h * h) + 2.6 / 10 ^ 12 + 2.3 / 10 ^ 14 * Rabs h) /\
  near (v r') (B2R (v r)) (0.000311 * Rabs h + 4.6 / 10 ^ 14).
Proof. exact L_PStep.C40_step_b64_mjd_pf. Qed.
Print Assumptions C40_step_b64_mjd.

(** C108 in binary64, over a finite time: between two dates within a century of J2000 each
    component of the velocity returned changes by the time in days times the pull of the Sun and
    the Moon at some moment in between, within 0.00000154 per day and the rounding error. *)
Theorem C108_newton_b64 : forall lm, good_libm lm -> forall a b a' b' : b64,
  fin a = true -> fin b = true -> fin a' = true -> fin b' = true ->
  Rabs (B2R a) <= 4194304 -> Rabs (B2R b) <= 4194304 -> Rabs (B2R a') <= 4194304 -> Rabs (B2R b') <= 4194304 ->
  Rabs (years (MkTDB (A := realA) (B2R a) (B2R b))) <= 100 -> Rabs (years (MkTDB (A := realA) (B2R a') (B2R b'))) <= 100 ->
  let h := (B2R a' + B2R b') - (B2R a + B2R b) in
  exists r r', earth_pos_vel (A := b64A lm) (MkTDB (A := b64A lm) a b) = Val r /\ earth_pos_vel (A := b64A lm) (MkTDB (A := b64A lm) a' b') = Val r' /\
  forall i, let v r := vget (A := b64A lm) (pv_v (A := b64A lm) (heliocentric (A := b64A lm) r)) i in
  exists m, Rmin (B2R a + B2R b) (B2R a' + B2R b') <= m <= Rmax (B2R a + B2R b) (B2R a' + B2R b') /\
  let t := years (MkTDB (A := realA) m 0) in
  near (v r') (B2R (v r) + h * (sun_pull (icrf (fun k => helio_ecl k t)) i + moon_pull (t / 100) i)) (0.00000154 * Rabs h + 2.8 / 10 ^ 12).
Proof. exact L_PStep.C108_newton_b64_pf. Qed.
Print Assumptions C108_newton_b64.

(** C40 over one day, from modified Julian date 53411 to 53412: the velocity carries each
    coordinate to within 0.0001561 astronomical units. *)
Example C40_step_example : forall lm, good_libm lm -> exists r r',
  earth_pos_vel (A := b64A lm) (MkTDB (A := b64A lm) (Flit 24000005 (-1)) (Flit 53411 0)) = Val r /\
  earth_pos_vel (A := b64A lm) (MkTDB (A := b64A lm) (Flit 24000005 (-1)) (Flit 53412 0)) = Val r' /\
  forall i, near (vget (A := b64A lm) (pv_p (A := b64A lm) (heliocentric (A := b64A lm) r')) i)
    (B2R (vget (A := b64A lm) (pv_p (A := b64A lm) (heliocentric (A := b64A lm) r)) i) + B2R (vget (A := b64A lm) (pv_v (A := b64A lm) (heliocentric (A := b64A lm) r)) i)) 0.0001561.
Proof. exact L_PStep.C40_step_example_pf. Qed.
