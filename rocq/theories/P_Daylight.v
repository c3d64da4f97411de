(** * Properties: Daylight

    Statements only; proofs are in L_PDaylight.v. *)

From Coq Require Import ZArith Reals Lra Lia Bool List Psatz.
From Flocq Require Import Core BinarySingleNaN.
From Verif Require Import Outcome Arith ArithR ArithF M_Common M_Calendar M_Time M_Ellipsoid M_Locator M_Frames M_Earth M_SunAngle Spec_Calendar Spec_Api Spec_Accuracy Spec_Matrix Spec_Sun Spec_SunAcc Spec_Almanac.
Open Scope R_scope.
From Verif Require L_PDaylight.

(** C91.  Let the request be accepted, let the latitude lie between -65 and 65
    degrees, and let the 24 hours after an offset lie within 36524 days of noon UT of
    2000 January 1.  Within these 24 hours there is a moment at which compute returns
    a solar zenith angle of at most 89.7 degrees, and one at which it returns at
    least 90.3 degrees. *)
Theorem C91_day_night : forall p par c ds k, sun_new (A := realA) p par = Val c ->
  accepted (sp_date (A := realA) par) -> (year (sp_date (A := realA) par) <= 1465072)%Z -> day_count mjd_epoch (of_date (sp_date (A := realA) par)) k ->
  Rabs (ut_days k (clock (sp_time (A := realA) par) + ds)) <= 36523 -> -65 <= lat (A := realA) (sp_position (A := realA) par) <= 65 ->
  exists d d' r r', ds <= d <= ds + 86400 /\ ds <= d' <= ds + 86400 /\ sun_compute (A := realA) c d = Val r /\ sun_compute (A := realA) c d' = Val r' /\
  sr_sza (A := realA) r <= degrees 89.7 /\ degrees 90.3 <= sr_sza (A := realA) r'.
Proof. exact L_PDaylight.C91_day_night_pf. Qed.
Print Assumptions C91_day_night.

(** C91.  Under the same conditions there is, within the 24 hours, a moment of
    sunrise or sunset: a zenith angle of exactly 90 degrees. *)
Theorem C91_horizon : forall p par c ds k, sun_new (A := realA) p par = Val c ->
  accepted (sp_date (A := realA) par) -> (year (sp_date (A := realA) par) <= 1465072)%Z -> day_count mjd_epoch (of_date (sp_date (A := realA) par)) k ->
  Rabs (ut_days k (clock (sp_time (A := realA) par) + ds)) <= 36523 -> -65 <= lat (A := realA) (sp_position (A := realA) par) <= 65 ->
  exists d r, ds <= d <= ds + 86400 /\ sun_compute (A := realA) c d = Val r /\ sr_sza (A := realA) r = degrees 90.
Proof. exact L_PDaylight.C91_horizon_pf. Qed.
Print Assumptions C91_horizon.

(** C91 in binary64: for the usual inputs and a latitude between -65 and 65 degrees
    there are whole numbers of seconds within 86401 seconds of the
    offset at which compute returns a finite zenith angle of at most 89.75 degrees
    and of at least 90.25 degrees. *)
Theorem C91_day_night_b64 : forall lm, good_libm lm -> forall p g h m s lo la ht ds,
  usual_inputs g h m s lo la ht ds -> B2R ds <= 31017599 -> -65 <= B2R la <= 65 ->
  exists c z z' r r', sun_new (A := b64A lm) p (parF lm g h m s lo la ht) = Val c /\
  B2R ds <= IZR z <= B2R ds + 86401 /\ B2R ds <= IZR z' <= B2R ds + 86401 /\
  sun_compute (A := b64A lm) c (FofZ z) = Val r /\ sun_compute (A := b64A lm) c (FofZ z') = Val r' /\
  is_finite (sr_sza (A := b64A lm) r) = true /\ B2R (sr_sza (A := b64A lm) r) <= degrees 89.75 /\
  is_finite (sr_sza (A := b64A lm) r') = true /\ degrees 90.25 <= B2R (sr_sza (A := b64A lm) r').
Proof. exact L_PDaylight.C91_day_night_b64_pf. Qed.
Print Assumptions C91_day_night_b64.

(** C91 at 45 degrees north on 2000 January 1: the binary64 program sees day and
    night within one day and a second. *)
Example C91_example : forall lm, good_libm lm -> forall p, exists c z z' r r',
  sun_new (A := b64A lm) p (parF lm (MkDate 2000 1 1) 12 0 (Flit 0 0) (Flit 0 0) (Flit 45 0) (Flit 0 0)) = Val c /\
  (0 <= z <= 86401)%Z /\ (0 <= z' <= 86401)%Z /\ sun_compute (A := b64A lm) c (FofZ z) = Val r /\ sun_compute (A := b64A lm) c (FofZ z') = Val r' /\
  B2R (sr_sza (A := b64A lm) r) < degrees 90 < B2R (sr_sza (A := b64A lm) r').
Proof. exact L_PDaylight.C91_example_pf. Qed.
