(** * Properties: Climb

    Statements only; proofs are in L_PClimb.v. *)

From Coq Require Import ZArith Reals Lra Lia Bool List Psatz.
From Flocq Require Import Core BinarySingleNaN.
From Verif Require Import Outcome Arith ArithR ArithF M_Common M_Calendar M_Time M_Ellipsoid M_SunAngle Spec_Calendar Spec_Api Spec_Accuracy Spec_Matrix Spec_Sun Spec_SunAcc Spec_Almanac.
Open Scope R_scope.
From Verif Require L_PClimb.

(** C109.  Under the same conditions the Sun climbs all morning and sinks all
    afternoon: from half an hour after local mean midnight to half an hour before
    local mean noon the zenith angle that compute returns decreases, and from half an
    hour after noon to half an hour before midnight it increases, in both cases by at
    least 46 millionths of a degree a second. *)
Theorem C109_climb : forall p par c k j noon, sun_new (A := realA) p par = Val c ->
  accepted (sp_date (A := realA) par) -> (year (sp_date (A := realA) par) <= 1465072)%Z -> day_count mjd_epoch (of_date (sp_date (A := realA) par)) k ->
  -65 <= lat (A := realA) (sp_position (A := realA) par) <= 65 ->
  clock (sp_time (A := realA) par) + noon + 240 * lon (A := realA) (sp_position (A := realA) par) = 43200 + 86400 * IZR j ->
  Rabs (ut_days k (clock (sp_time (A := realA) par) + noon)) <= 36523 ->
  forall ds ds', ds <= ds' -> noon - 43200 <= ds -> ds' <= noon + 43200 ->
  exists r r', sun_compute (A := realA) c ds = Val r /\ sun_compute (A := realA) c ds' = Val r' /\
    (noon - 41400 <= ds -> ds' <= noon - 1800 -> sr_sza (A := realA) r' <= sr_sza (A := realA) r - degrees 0.000046 * (ds' - ds)) /\
    (noon + 1800 <= ds -> ds' <= noon + 41400 -> sr_sza (A := realA) r + degrees 0.000046 * (ds' - ds) <= sr_sza (A := realA) r').
Proof. exact L_PClimb.C109_climb_pf. Qed.
Print Assumptions C109_climb.

(** C109 in binary64: for the usual inputs and a latitude of 25 to 65 degrees north or
    south, the later of two offsets at least a quarter of a second apart has the
    smaller binary64 zenith angle in these hours of the morning and the larger one in
    these hours of the afternoon. *)
Theorem C109_climb_b64 : forall lm, good_libm lm -> forall p g h m s lo la ht j noon ds ds', usual_inputs g h m s lo la ht ds -> usual_inputs g h m s lo la ht ds' -> 25 <= Rabs (B2R la) <= 65 ->
  3600 * IZR h + 60 * IZR m + B2R s + noon + 240 * B2R lo = 43200 + 86400 * IZR j -> B2R ds + 0.25 <= B2R ds' ->
  exists c r r', sun_new (A := b64A lm) p (parF lm g h m s lo la ht) = Val c /\ sun_compute (A := b64A lm) c ds = Val r /\ sun_compute (A := b64A lm) c ds' = Val r' /\
    is_finite (sr_sza (A := b64A lm) r) = true /\ is_finite (sr_sza (A := b64A lm) r') = true /\
    (noon - 41400 <= B2R ds -> B2R ds' <= noon - 1800 -> B2R (sr_sza (A := b64A lm) r') < B2R (sr_sza (A := b64A lm) r)) /\
    (noon + 1800 <= B2R ds -> B2R ds' <= noon + 41400 -> B2R (sr_sza (A := b64A lm) r) < B2R (sr_sza (A := b64A lm) r')).
Proof. exact L_PClimb.C109_climb_b64_pf. Qed.
Print Assumptions C109_climb_b64.

(** C109 at 45 degrees north and 0 degrees east on 2000 February 29: the binary64
    zenith angle of the program decreases from 2h to 3h UT. *)
Example C109_climb_example : forall lm, good_libm lm -> forall p, exists c r r',
  sun_new (A := b64A lm) p (parF lm (MkDate 2000 2 29) 2 0 (Flit 0 0) (Flit 0 0) (Flit 45 0) (Flit 0 0)) = Val c /\
  sun_compute (A := b64A lm) c (Flit 0 0) = Val r /\ sun_compute (A := b64A lm) c (Flit 3600 0) = Val r' /\
  B2R (sr_sza (A := b64A lm) r') < B2R (sr_sza (A := b64A lm) r).
Proof. exact L_PClimb.C109_climb_example_pf. Qed.
