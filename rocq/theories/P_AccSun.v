(** * Properties: AccSun

    Statements only; proofs are in L_PAccSun.v. *)

From Coq Require Import ZArith Reals Lra Lia Bool List Psatz.
From Flocq Require Import Core BinarySingleNaN.
From Verif Require Import Outcome Arith ArithR ArithF Spec_Float Spec_Accuracy M_Common M_Calendar M_Time M_DeltaAt M_Earth M_Frames M_Ellipsoid M_SunAngle.
From Verif Require Import Spec_Calendar Spec_Api Spec_Matrix Spec_Frames Spec_Series Spec_Sun Spec_SunAcc.
Import ListNotations.
Open Scope R_scope.
From Verif Require L_PAccSun.

(** C72: for a date from 1901 to 2098, any time of day, any place up to 10000 km
    from the ellipsoid and any offset up to 360 days, with a libm of one unit in
    the last place, the calculator and its result exist in binary64 and exactly,
    and each reported quantity agrees: days to a few 1e-11 (one to three
    microseconds), TAI-UTC to 1.7e-14 s, the rotation angle to 1.3e-10, the Earth
    vector to 1.9e-12 AU, the place to 2e-7 m, the Sun vector to 42 m, and the
    number given to acos to 5.9e-10 of the cosine of the exact zenith angle. *)
Theorem C72_sun_accuracy : forall lm, good_libm lm -> forall p g h m s lo la ht ds, usual_inputs g h m s lo la ht ds ->
  exists c r c' r', sun_new (A := b64A lm) p (parF lm g h m s lo la ht) = Val c /\ sun_compute (A := b64A lm) c ds = Val r /\
  sun_new (A := realA) p (parR g h m s lo la ht) = Val c' /\ sun_compute (A := realA) c' (B2R ds) = Val r' /\
  near (sr_jd0 (A := b64A lm) r) (sr_jd0 (A := realA) r') 0 /\
  near (sr_jd1 (A := b64A lm) r) (sr_jd1 (A := realA) r') (1 / 10 ^ 11) /\
  sr_utc (A := b64A lm) r = MkUTC (A := b64A lm) (sr_jd0 (A := b64A lm) r) (sr_jd1 (A := b64A lm) r) /\
  sr_delta_s (A := b64A lm) r = ds /\
  near (sr_dat (A := b64A lm) r) (sr_dat (A := realA) r') (1.7 / 10 ^ 14) /\
  near (tai_1 (A := b64A lm) (sr_tai (A := b64A lm) r)) (tai_1 (A := realA) (sr_tai (A := realA) r')) 0 /\
  near (tai_2 (A := b64A lm) (sr_tai (A := b64A lm) r)) (tai_2 (A := realA) (sr_tai (A := realA) r')) (2 / 10 ^ 11) /\
  near (tt_1 (A := b64A lm) (sr_tt (A := b64A lm) r)) (tt_1 (A := realA) (sr_tt (A := realA) r')) 0 /\
  near (tt_2 (A := b64A lm) (sr_tt (A := b64A lm) r)) (tt_2 (A := realA) (sr_tt (A := realA) r')) (3 / 10 ^ 11) /\
  near (ut1_1 (A := b64A lm) (sr_ut1 (A := b64A lm) r)) (ut1_1 (A := realA) (sr_ut1 (A := realA) r')) 0 /\
  near (ut1_2 (A := b64A lm) (sr_ut1 (A := b64A lm) r)) (ut1_2 (A := realA) (sr_ut1 (A := realA) r')) (2 / 10 ^ 11) /\
  near_angle (sr_era (A := b64A lm) r) (sr_era (A := realA) r') (1.3 / 10 ^ 10) /\
  (forall i, near (vget (A := b64A lm) (sr_earth (A := b64A lm) r) i) (coord (sr_earth (A := realA) r') i) (1.9 / 10 ^ 12)) /\
  (forall i, near (vget (A := b64A lm) (sr_p (A := b64A lm) r) i) (coord (sr_p (A := realA) r') i) (2 / 10 ^ 7)) /\
  (forall i, near (vget (A := b64A lm) (sr_sun_e (A := b64A lm) r) i) (coord (sr_sun_e (A := realA) r') i) 42) /\
  exists x, sr_sza (A := b64A lm) r = lm_acos lm x /\ near x (cos (sr_sza (A := realA) r')) (5.9 / 10 ^ 10).
Proof. exact L_PAccSun.C72_sun_accuracy_pf. Qed.
Print Assumptions C72_sun_accuracy.

(** C72, the angle itself: between 0.01 rad and pi - 0.01 rad it is finite, within
    9.1e-8 rad of the exact angle, and within 6e-10 rad divided by its sine; at any
    angle it is within 4.3e-5 rad unless rounding has pushed the number given to
    acos outside [-1, 1]. *)
Theorem C72_zenith_angle : forall lm, good_libm lm -> forall p g h m s lo la ht ds, usual_inputs g h m s lo la ht ds ->
  forall c r c' r', sun_new (A := b64A lm) p (parF lm g h m s lo la ht) = Val c -> sun_compute (A := b64A lm) c ds = Val r ->
  sun_new (A := realA) p (parR g h m s lo la ht) = Val c' -> sun_compute (A := realA) c' (B2R ds) = Val r' ->
  (0.01 <= sr_sza (A := realA) r' <= PI - 0.01 ->
     near (sr_sza (A := b64A lm) r) (sr_sza (A := realA) r') (9.1 / 10 ^ 8) /\
     Rabs (B2R (sr_sza (A := b64A lm) r) - sr_sza (A := realA) r') * sin (sr_sza (A := realA) r') <= 6 / 10 ^ 10) /\
  exists x, sr_sza (A := b64A lm) r = lm_acos lm x /\ fin x = true /\ Rabs (B2R x) <= 1 + 6 / 10 ^ 10 /\
    (-1 <= B2R x <= 1 -> near (sr_sza (A := b64A lm) r) (sr_sza (A := realA) r') (4.3 / 10 ^ 5)).
Proof. exact L_PAccSun.C72_zenith_angle_pf. Qed.
Print Assumptions C72_zenith_angle.

(** C72 on the default parameters (2007-04-05 00:00, 120 degrees west on the
    equator): TAI-UTC is 33 s and the second part of the date is 54195. *)
Example C72_example : forall lm, good_libm lm -> forall p, exists c r,
  sun_new (A := b64A lm) p (sun_default (A := b64A lm)) = Val c /\ sun_compute (A := b64A lm) c (Flit 0 0) = Val r /\
  near (sr_dat (A := b64A lm) r) 33 (1.7 / 10 ^ 14) /\ near (sr_jd1 (A := b64A lm) r) 54195 (1 / 10 ^ 11).
Proof. exact L_PAccSun.C72_example_pf. Qed.
