(** * Properties: Tropics

    Statements only; proofs are in L_PTropics.v. *)

From Coq Require Import ZArith Reals Lra Lia Bool List Psatz.
From Flocq Require Import Core BinarySingleNaN.
From Verif Require Import Outcome Arith ArithR ArithF M_Common M_Calendar M_Time M_Ellipsoid M_Locator M_Frames M_Earth M_SunAngle Spec_Calendar Spec_Api Spec_Accuracy Spec_Matrix Spec_Sun Spec_SunAcc Spec_Almanac.
Open Scope R_scope.
From Verif Require L_PTropics.

(** C88. Let the request be accepted and let its moment lie within 36524 days of
    noon UT of 2000 January 1.  For a latitude between -90 and 90 degrees the solar
    zenith angle that compute returns is at least the absolute latitude minus 23.6
    degrees and at most 180 degrees minus the absolute latitude plus 23.6 degrees:
    outside the tropics the Sun never stands overhead. *)
Theorem C88_tropics : forall p par c ds k, sun_new (A := realA) p par = Val c ->
  accepted (sp_date (A := realA) par) -> (year (sp_date (A := realA) par) <= 1465072)%Z -> day_count mjd_epoch (of_date (sp_date (A := realA) par)) k ->
  Rabs (ut_days k (clock (sp_time (A := realA) par) + ds)) <= 36524 -> -90 <= lat (A := realA) (sp_position (A := realA) par) <= 90 ->
  exists r, sun_compute (A := realA) c ds = Val r /\
  degrees (Rabs (lat (A := realA) (sp_position (A := realA) par)) - 23.6) <= sr_sza (A := realA) r <= degrees (180 - Rabs (lat (A := realA) (sp_position (A := realA) par)) + 23.6).
Proof. exact L_PTropics.C88_tropics_pf. Qed.
Print Assumptions C88_tropics.

(** C88 in binary64: for the usual inputs and a latitude of at least 25 degrees,
    north or south, compute succeeds and the zenith angle it returns is finite and
    obeys the same two bounds. *)
Theorem C88_tropics_b64 : forall lm, good_libm lm -> forall p g h m s lo la ht ds k,
  usual_inputs g h m s lo la ht ds -> day_count mjd_epoch (of_date g) k -> 25 <= Rabs (B2R la) <= 90 ->
  exists c r, sun_new (A := b64A lm) p (parF lm g h m s lo la ht) = Val c /\ sun_compute (A := b64A lm) c ds = Val r /\
  is_finite (sr_sza (A := b64A lm) r) = true /\
  degrees (Rabs (B2R la) - 23.6) <= B2R (sr_sza (A := b64A lm) r) <= degrees (180 - Rabs (B2R la) + 23.6).
Proof. exact L_PTropics.C88_tropics_b64_pf. Qed.
Print Assumptions C88_tropics_b64.

(** C88 at the north pole at noon UT of 2000 January 1: the binary64 zenith angle
    lies between 66.4 and 113.6 degrees. *)
Example C88_example : forall lm, good_libm lm -> forall p, exists c r,
  sun_new (A := b64A lm) p (parF lm (MkDate 2000 1 1) 12 0 (Flit 0 0) (Flit 0 0) (Flit 90 0) (Flit 0 0)) = Val c /\ sun_compute (A := b64A lm) c (Flit 0 0) = Val r /\
  degrees 66.4 <= B2R (sr_sza (A := b64A lm) r) <= degrees 113.6.
Proof. exact L_PTropics.C88_example_pf. Qed.
