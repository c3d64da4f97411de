(** * Properties: Smooth

    Statements only; proofs are in L_PSmooth.v. *)

From Coq Require Import ZArith Reals Lra Lia Bool List Psatz.
From Flocq Require Import Core BinarySingleNaN.
From Verif Require Import Outcome Arith ArithR ArithF M_Common M_Calendar M_Time M_Ellipsoid M_Locator M_Frames M_Earth M_SunAngle Spec_Calendar Spec_Api Spec_Accuracy Spec_Matrix Spec_Frames Spec_Series Spec_C2t Spec_Sun Spec_SunAcc Spec_Almanac.
Import ListNotations.
Open Scope R_scope.
From Verif Require L_PSmooth.

(** C90.  Let the request be accepted and let two moments given as seconds after the
    request's time lie within 36524 days of noon UT of 2000 January 1.  compute
    succeeds for both, and the two solar zenith angles differ by at most 0.0042
    degrees for each second between the moments. *)
Theorem C90_rate : forall p par c ds ds' k, sun_new (A := realA) p par = Val c ->
  accepted (sp_date (A := realA) par) -> (year (sp_date (A := realA) par) <= 1465072)%Z -> day_count mjd_epoch (of_date (sp_date (A := realA) par)) k ->
  Rabs (ut_days k (clock (sp_time (A := realA) par) + ds)) <= 36524 -> Rabs (ut_days k (clock (sp_time (A := realA) par) + ds')) <= 36524 ->
  exists r r', sun_compute (A := realA) c ds = Val r /\ sun_compute (A := realA) c ds' = Val r' /\
  Rabs (sr_sza (A := realA) r - sr_sza (A := realA) r') <= degrees 0.0042 * Rabs (ds - ds').
Proof. exact L_PSmooth.C90_rate_pf. Qed.
Print Assumptions C90_rate.

(** C90 in binary64: for the usual inputs, a latitude of at least 25 degrees north
    or south and any two offsets, compute succeeds and the two binary64 zenith
    angles are finite and differ by at most 0.0042 degrees per second between the
    offsets plus 0.2 microradians. *)
Theorem C90_rate_b64 : forall lm, good_libm lm -> forall p g h m s lo la ht ds ds',
  usual_inputs g h m s lo la ht ds -> usual_inputs g h m s lo la ht ds' -> 25 <= Rabs (B2R la) <= 90 ->
  exists c r r', sun_new (A := b64A lm) p (parF lm g h m s lo la ht) = Val c /\ sun_compute (A := b64A lm) c ds = Val r /\ sun_compute (A := b64A lm) c ds' = Val r' /\
  is_finite (sr_sza (A := b64A lm) r) = true /\ is_finite (sr_sza (A := b64A lm) r') = true /\
  Rabs (B2R (sr_sza (A := b64A lm) r) - B2R (sr_sza (A := b64A lm) r')) <= degrees 0.0042 * Rabs (B2R ds - B2R ds') + 2 / 10 ^ 7.
Proof. exact L_PSmooth.C90_rate_b64_pf. Qed.
Print Assumptions C90_rate_b64.

(** C90 at 45 degrees north and 0 degrees east on 2000 January 1: between 12h and
    13h the binary64 zenith angle changes by at most 15.2 degrees. *)
Example C90_example : forall lm, good_libm lm -> forall p, exists c r r',
  sun_new (A := b64A lm) p (parF lm (MkDate 2000 1 1) 12 0 (Flit 0 0) (Flit 0 0) (Flit 45 0) (Flit 0 0)) = Val c /\
  sun_compute (A := b64A lm) c (Flit 0 0) = Val r /\ sun_compute (A := b64A lm) c (Flit 3600 0) = Val r' /\
  Rabs (B2R (sr_sza (A := b64A lm) r) - B2R (sr_sza (A := b64A lm) r')) <= degrees 15.2.
Proof. exact L_PSmooth.C90_example_pf. Qed.
