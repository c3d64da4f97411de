(** * Properties: Almanac

    Statements only; proofs are in L_PAlmanac.v. *)

From Coq Require Import ZArith Reals Lra Lia Bool List Psatz.
From Flocq Require Import Core BinarySingleNaN.
From Verif Require Import Outcome Arith ArithR ArithF M_Common M_Calendar M_Time M_Ellipsoid M_Locator M_Frames M_Earth M_SunAngle Spec_Calendar Spec_Api Spec_Accuracy Spec_Matrix Spec_Frames Spec_Series Spec_C2t Spec_Sun Spec_SunAcc Spec_Pole Spec_Orbit Spec_Almanac.
Import ListNotations.
Open Scope R_scope.
From Verif Require L_PAlmanac.

(** C34.  The angle between non-zero vectors satisfies the triangle inequality. *)
Theorem C34_angle_triangle : forall a b c, ~ zero_vec a -> ~ zero_vec b -> ~ zero_vec c ->
  vangle (A := realA) a c <= vangle (A := realA) a b + vangle (A := realA) b c.
Proof. exact L_PAlmanac.C34_angle_triangle_pf. Qed.
Print Assumptions C34_angle_triangle.

(** C86.  The locator of the celestial intermediate origin is -xy/2 plus the
    leading terms of the IERS Conventions, within a thousandth of an arcsecond. *)
Theorem C86_locator : forall d x y, Rabs (centuries d) <= 1 -> exists s, cio (A := realA) d x y = Val s /\
  Rabs (s - (arcsec (low_s (centuries d)) - x * y / 2)) <= arcsec 0.001.
Proof. exact L_PAlmanac.C86_locator_pf. Qed.
Print Assumptions C86_locator.

(** C87.  The zenith angle of the Sun is that of the Astronomical Almanac's
    low-precision formulas within 0.143 degrees, for every place and instant from
    1900 to 2100. *)
Theorem C87_almanac : forall p par c ds k, sun_new (A := realA) p par = Val c ->
  accepted (sp_date (A := realA) par) -> (year (sp_date (A := realA) par) <= 1465072)%Z -> day_count mjd_epoch (of_date (sp_date (A := realA) par)) k ->
  let n := ut_days k (clock (sp_time (A := realA) par) + ds) in Rabs n <= 36524 ->
  exists r, sun_compute (A := realA) c ds = Val r /\
  Rabs (sr_sza (A := realA) r - acos (alm_cos_zenith n (lat (A := realA) (sp_position (A := realA) par)) (lon (A := realA) (sp_position (A := realA) par)))) <= degrees 0.143.
Proof. exact L_PAlmanac.C87_almanac_pf. Qed.
Print Assumptions C87_almanac.

(** C87.  The same for the binary64 program with any accurate libm, whenever the
    Sun is not within 1.2 degrees of zenith or nadir. *)
Theorem C87_almanac_b64 : forall lm, good_libm lm -> forall p g h m s lo la ht ds k, usual_inputs g h m s lo la ht ds -> day_count mjd_epoch (of_date g) k ->
  let n := ut_days k (3600 * IZR h + 60 * IZR m + B2R s + B2R ds) in
  let z := acos (alm_cos_zenith n (B2R la) (B2R lo)) in 0.02 <= z <= PI - 0.02 ->
  exists c r, sun_new (A := b64A lm) p (parF lm g h m s lo la ht) = Val c /\ sun_compute (A := b64A lm) c ds = Val r /\
  Spec_Accuracy.near (sr_sza (A := b64A lm) r) z (degrees 0.143).
Proof. exact L_PAlmanac.C87_almanac_b64_pf. Qed.
Print Assumptions C87_almanac_b64.

(** C87 at noon UT of 2000 January 1, latitude and longitude 0: the zenith angle
    computed in binary64 lies between 22.7 and 23.4 degrees. *)
Example C87_example : forall lm, good_libm lm -> forall p, exists c r,
  sun_new (A := b64A lm) p (parF lm (MkDate 2000 1 1) 12 0 (Flit 0 0) (Flit 0 0) (Flit 0 0) (Flit 0 0)) = Val c /\ sun_compute (A := b64A lm) c (Flit 0 0) = Val r /\
  degrees 22.7 <= B2R (sr_sza (A := b64A lm) r) <= degrees 23.4.
Proof. exact L_PAlmanac.C87_example_pf. Qed.
