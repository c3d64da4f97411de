(** * Properties: Sunrise

    Statements only; proofs are in L_PSunrise.v. *)

From Coq Require Import ZArith Reals Lra Lia Bool List Psatz.
From Flocq Require Import Core BinarySingleNaN.
From Verif Require Import Outcome Arith ArithR ArithF M_Common M_Calendar M_Time M_Ellipsoid M_SunAngle Spec_Calendar Spec_Api Spec_Accuracy Spec_Matrix Spec_Sun Spec_SunAcc Spec_Almanac.
Open Scope R_scope.
From Verif Require L_PSunrise.

(** C109.  Between 65 degrees south and 65 degrees north, from 1900 to 2100, each day
    has one sunrise and one sunset: let noon be the offset at which local mean time
    (Universal Time plus four minutes per degree of east longitude) is 12h.  There is
    a moment of sunrise in the twelve hours before noon and a moment of sunset in the
    twelve hours after noon, and through the 24 hours compute returns a zenith angle
    below 90 degrees exactly between the two, and of 90 degrees exactly at the two. *)
Theorem C109_sunrise : forall p par c k j noon, sun_new (A := realA) p par = Val c ->
  accepted (sp_date (A := realA) par) -> (year (sp_date (A := realA) par) <= 1465072)%Z -> day_count mjd_epoch (of_date (sp_date (A := realA) par)) k ->
  -65 <= lat (A := realA) (sp_position (A := realA) par) <= 65 ->
  clock (sp_time (A := realA) par) + noon + 240 * lon (A := realA) (sp_position (A := realA) par) = 43200 + 86400 * IZR j ->
  Rabs (ut_days k (clock (sp_time (A := realA) par) + noon)) <= 36523 ->
  exists rise set, noon - 43200 < rise < noon /\ noon < set < noon + 43200 /\
  forall ds, noon - 43200 <= ds <= noon + 43200 -> exists r, sun_compute (A := realA) c ds = Val r /\
    (sr_sza (A := realA) r < degrees 90 <-> rise < ds < set) /\ (sr_sza (A := realA) r = degrees 90 <-> ds = rise \/ ds = set).
Proof. exact L_PSunrise.C109_sunrise_pf. Qed.
Print Assumptions C109_sunrise.

(** C109 in binary64: for the usual inputs, a latitude of 25 to 65 degrees north or
    south and the day around a local mean noon within 360 days of the request, the
    binary64 program sees the Sun up from 0.02 seconds after this sunrise to 0.02
    seconds before this sunset, and down from midnight to 0.02 seconds before sunrise
    and from 0.02 seconds after sunset to midnight. *)
Theorem C109_sunrise_b64 : forall lm, good_libm lm -> forall p g h m s lo la ht j noon, usual_inputs g h m s lo la ht (Flit 0 0) -> 25 <= Rabs (B2R la) <= 65 ->
  3600 * IZR h + 60 * IZR m + B2R s + noon + 240 * B2R lo = 43200 + 86400 * IZR j -> Rabs noon <= 31104000 ->
  exists rise set, noon - 43200 < rise < noon /\ noon < set < noon + 43200 /\
  forall ds, usual_inputs g h m s lo la ht ds -> noon - 43200 <= B2R ds <= noon + 43200 ->
  exists c r, sun_new (A := b64A lm) p (parF lm g h m s lo la ht) = Val c /\ sun_compute (A := b64A lm) c ds = Val r /\ is_finite (sr_sza (A := b64A lm) r) = true /\
    (rise + 0.02 <= B2R ds <= set - 0.02 -> B2R (sr_sza (A := b64A lm) r) < degrees 90) /\
    (B2R ds <= rise - 0.02 \/ set + 0.02 <= B2R ds -> degrees 90 < B2R (sr_sza (A := b64A lm) r)).
Proof. exact L_PSunrise.C109_sunrise_b64_pf. Qed.
Print Assumptions C109_sunrise_b64.

(** C109 at 45 degrees north and 0 degrees east on 2000 February 29, from 12h UT: the
    binary64 program sees one sunrise and one sunset. *)
Example C109_example : forall lm, good_libm lm -> forall p, exists rise set, -43200 < rise < 0 /\ 0 < set < 43200 /\
  forall z, (-43200 <= z <= 43200)%Z -> exists c r,
  sun_new (A := b64A lm) p (parF lm (MkDate 2000 2 29) 12 0 (Flit 0 0) (Flit 0 0) (Flit 45 0) (Flit 0 0)) = Val c /\
  sun_compute (A := b64A lm) c (FofZ z) = Val r /\
  (rise + 0.02 <= IZR z <= set - 0.02 -> B2R (sr_sza (A := b64A lm) r) < degrees 90) /\
  (IZR z <= rise - 0.02 \/ set + 0.02 <= IZR z -> degrees 90 < B2R (sr_sza (A := b64A lm) r)).
Proof. exact L_PSunrise.C109_example_pf. Qed.
