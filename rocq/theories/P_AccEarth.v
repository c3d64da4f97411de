(** * Properties: AccEarth

    Statements only; proofs are in L_PAccEarth.v. *)

From Coq Require Import ZArith Reals Lra Lia Bool List.
From Flocq Require Import Core BinarySingleNaN.
From Verif Require Import Outcome Arith ArithR ArithF Spec_Float Spec_Accuracy M_Common M_Time M_Earth Spec_Matrix Spec_Frames Spec_Series.
Import ListNotations.
Open Scope R_scope.
From Verif Require L_PAccEarth.

(** For every split of every date within 100 Julian years of J2000 with parts up to
    2^22 days, the binary64 positions are within 7.7e-11 AU (11.5 m) of the series,
    and the velocities within 1.4e-12 AU per day of its derivative. *)
Theorem C67_earth_accuracy : forall lm, good_libm lm -> forall a b : b64, fin a = true -> fin b = true ->
  Rabs (B2R a) <= 4194304 -> Rabs (B2R b) <= 4194304 ->
  let t x := years (MkTDB (A := realA) x (B2R b)) in
  Rabs (t (B2R a)) <= 100 ->
  exists r, earth_pos_vel (A := b64A lm) (MkTDB (A := b64A lm) a b) = Val r /\
  forall i,
  near (vget (A := b64A lm) (pv_p (A := b64A lm) (heliocentric (A := b64A lm) r)) i) (icrf (fun k => helio_ecl k (t (B2R a))) i) (7.7 / 10 ^ 11) /\
  near (vget (A := b64A lm) (pv_p (A := b64A lm) (barycentric (A := b64A lm) r)) i) (icrf (fun k => bary_ecl k (t (B2R a))) i) (7.7 / 10 ^ 11) /\
  (exists v, derivable_pt_lim (fun x => icrf (fun k => helio_ecl k (t x)) i) (B2R a) v /\
     near (vget (A := b64A lm) (pv_v (A := b64A lm) (heliocentric (A := b64A lm) r)) i) v (1.4 / 10 ^ 12)) /\
  (exists v, derivable_pt_lim (fun x => icrf (fun k => bary_ecl k (t x)) i) (B2R a) v /\
     near (vget (A := b64A lm) (pv_v (A := b64A lm) (barycentric (A := b64A lm) r)) i) v (1.4 / 10 ^ 12)).
Proof. exact L_PAccEarth.C67_earth_accuracy_pf. Qed.
Print Assumptions C67_earth_accuracy.

(** With the date split as a modified Julian date the errors are below 1.3e-12 AU
    (20 cm) and 2.3e-14 AU per day (0.04 micrometres per second). *)
Theorem C67_earth_accuracy_mjd : forall lm, good_libm lm -> forall a b : b64, fin a = true -> fin b = true ->
  B2R a = 2400000.5 ->
  let t x := years (MkTDB (A := realA) x (B2R b)) in
  Rabs (t (B2R a)) <= 100 ->
  exists r, earth_pos_vel (A := b64A lm) (MkTDB (A := b64A lm) a b) = Val r /\
  forall i,
  near (vget (A := b64A lm) (pv_p (A := b64A lm) (heliocentric (A := b64A lm) r)) i) (icrf (fun k => helio_ecl k (t (B2R a))) i) (1.3 / 10 ^ 12) /\
  near (vget (A := b64A lm) (pv_p (A := b64A lm) (barycentric (A := b64A lm) r)) i) (icrf (fun k => bary_ecl k (t (B2R a))) i) (1.3 / 10 ^ 12) /\
  (exists v, derivable_pt_lim (fun x => icrf (fun k => helio_ecl k (t x)) i) (B2R a) v /\
     near (vget (A := b64A lm) (pv_v (A := b64A lm) (heliocentric (A := b64A lm) r)) i) v (2.3 / 10 ^ 14)) /\
  (exists v, derivable_pt_lim (fun x => icrf (fun k => bary_ecl k (t x)) i) (B2R a) v /\
     near (vget (A := b64A lm) (pv_v (A := b64A lm) (barycentric (A := b64A lm) r)) i) v (2.3 / 10 ^ 14)).
Proof. exact L_PAccEarth.C67_earth_accuracy_mjd_pf. Qed.
Print Assumptions C67_earth_accuracy_mjd.

(** C67 at TDB 2400000.5 + 53411.52501161 (the date of the IAU SOFA test) rounded to a
    whole day: the heliocentric x coordinate. *)
Example C67_example : forall lm, good_libm lm -> exists r,
  earth_pos_vel (A := b64A lm) (MkTDB (A := b64A lm) (Flit 24000005 (-1)) (Flit 53411 0)) = Val r /\
  near (vget (A := b64A lm) (pv_p (A := b64A lm) (heliocentric (A := b64A lm) r)) I0)
    (icrf (fun k => helio_ecl k (1866.5 / 365.25)) I0) (1.3 / 10 ^ 12).
Proof. exact L_PAccEarth.C67_example_pf. Qed.
