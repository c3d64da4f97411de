(** * Properties: Low

    Statements only; proofs are in L_PLow.v. *)

From Coq Require Import ZArith Reals Lra Lia Bool List Psatz.
From Flocq Require Import Core BinarySingleNaN.
From Verif Require Import Outcome Arith ArithR ArithF M_Common M_Calendar M_Time M_Ellipsoid M_SunAngle Spec_Calendar Spec_Api Spec_Accuracy Spec_Matrix Spec_Sun Spec_SunAcc Spec_Almanac.
Open Scope R_scope.
From Verif Require L_PLow.

(** C109.  Under the same conditions, from half an hour after local mean midnight to half
    an hour before local mean noon, and from half an hour after noon to half an hour
    before midnight, the Sun is at least 0.98 degrees from the zenith and from the
    nadir. *)
Theorem C109_clear : forall p par c k j noon, sun_new (A := realA) p par = Val c ->
  accepted (sp_date (A := realA) par) -> (year (sp_date (A := realA) par) <= 1465072)%Z -> day_count mjd_epoch (of_date (sp_date (A := realA) par)) k ->
  -65 <= lat (A := realA) (sp_position (A := realA) par) <= 65 ->
  clock (sp_time (A := realA) par) + noon + 240 * lon (A := realA) (sp_position (A := realA) par) = 43200 + 86400 * IZR j ->
  Rabs (ut_days k (clock (sp_time (A := realA) par) + noon)) <= 36523 ->
  forall ds, noon - 41400 <= ds <= noon - 1800 \/ noon + 1800 <= ds <= noon + 41400 ->
  exists r, sun_compute (A := realA) c ds = Val r /\ degrees 0.98 <= sr_sza (A := realA) r <= degrees 179.02.
Proof. exact L_PLow.C109_clear_pf. Qed.
Print Assumptions C109_clear.

(** C95 in binary64 at all latitudes from 65 south to 65 north: at local mean noon and
    midnight the angle is the library acos of a finite number, and unless rounding
    has pushed that number outside [-1, 1] the angle is finite and bounded as
    before. *)
Theorem C95_noon_low_b64 : forall lm, good_libm lm -> forall p g h m s lo la ht ds j,
  usual_inputs g h m s lo la ht ds -> -65 <= B2R la <= 65 ->
  let local := 3600 * IZR h + 60 * IZR m + B2R s + B2R ds + 240 * B2R lo in
  exists c r x, sun_new (A := b64A lm) p (parF lm g h m s lo la ht) = Val c /\ sun_compute (A := b64A lm) c ds = Val r /\
  sr_sza (A := b64A lm) r = lm_acos lm x /\ is_finite x = true /\ (-1 <= B2R x <= 1 -> is_finite (sr_sza (A := b64A lm) r) = true /\
  (local = 43200 + 86400 * IZR j -> B2R (sr_sza (A := b64A lm) r) <= degrees 88.81) /\ (local = 86400 * IZR j -> degrees 91.19 <= B2R (sr_sza (A := b64A lm) r))).
Proof. exact L_PLow.C95_noon_low_b64_pf. Qed.
Print Assumptions C95_noon_low_b64.

(** C109 in binary64 at all latitudes from 65 south to 65 north: the angle is the
    library acos of a finite number.  When that number is in [-1, 1], and in any case
    in the hours at least half an hour from local mean noon and midnight, the angle is
    finite, below 90 degrees from 0.02 seconds after sunrise to 0.02 seconds before
    sunset, and above it from midnight to 0.02 seconds before sunrise and from 0.02
    seconds after sunset to midnight. *)
Theorem C109_sunrise_low_b64 : forall lm, good_libm lm -> forall p g h m s lo la ht j noon, usual_inputs g h m s lo la ht (Flit 0 0) -> -65 <= B2R la <= 65 ->
  3600 * IZR h + 60 * IZR m + B2R s + noon + 240 * B2R lo = 43200 + 86400 * IZR j -> Rabs noon <= 31104000 ->
  exists rise set, noon - 43200 < rise < noon /\ noon < set < noon + 43200 /\
  forall ds, usual_inputs g h m s lo la ht ds -> noon - 43200 <= B2R ds <= noon + 43200 ->
  exists c r x, sun_new (A := b64A lm) p (parF lm g h m s lo la ht) = Val c /\ sun_compute (A := b64A lm) c ds = Val r /\
    sr_sza (A := b64A lm) r = lm_acos lm x /\ is_finite x = true /\
    (-1 <= B2R x <= 1 \/ noon - 41400 <= B2R ds <= noon - 1800 \/ noon + 1800 <= B2R ds <= noon + 41400 -> is_finite (sr_sza (A := b64A lm) r) = true /\
    (rise + 0.02 <= B2R ds <= set - 0.02 -> B2R (sr_sza (A := b64A lm) r) < degrees 90) /\
    (B2R ds <= rise - 0.02 \/ set + 0.02 <= B2R ds -> degrees 90 < B2R (sr_sza (A := b64A lm) r))).
Proof. exact L_PLow.C109_sunrise_low_b64_pf. Qed.
Print Assumptions C109_sunrise_low_b64.

(** C109 in binary64 at all latitudes from 65 south to 65 north: in the hours at least
    half an hour from local mean noon and midnight the angles are finite, and of two
    offsets at least a quarter of a second apart the later has the smaller angle in
    the morning and the larger one in the afternoon. *)
Theorem C109_climb_low_b64 : forall lm, good_libm lm -> forall p g h m s lo la ht j noon ds ds', usual_inputs g h m s lo la ht ds -> usual_inputs g h m s lo la ht ds' -> -65 <= B2R la <= 65 ->
  3600 * IZR h + 60 * IZR m + B2R s + noon + 240 * B2R lo = 43200 + 86400 * IZR j -> B2R ds + 0.25 <= B2R ds' ->
  exists c r r', sun_new (A := b64A lm) p (parF lm g h m s lo la ht) = Val c /\ sun_compute (A := b64A lm) c ds = Val r /\ sun_compute (A := b64A lm) c ds' = Val r' /\
    (noon - 41400 <= B2R ds -> B2R ds' <= noon - 1800 -> is_finite (sr_sza (A := b64A lm) r) = true /\ is_finite (sr_sza (A := b64A lm) r') = true /\ B2R (sr_sza (A := b64A lm) r') < B2R (sr_sza (A := b64A lm) r)) /\
    (noon + 1800 <= B2R ds -> B2R ds' <= noon + 41400 -> is_finite (sr_sza (A := b64A lm) r) = true /\ is_finite (sr_sza (A := b64A lm) r') = true /\ B2R (sr_sza (A := b64A lm) r) < B2R (sr_sza (A := b64A lm) r')).
Proof. exact L_PLow.C109_climb_low_b64_pf. Qed.
Print Assumptions C109_climb_low_b64.

(** C109 on the equator and the meridian of Greenwich on 2000 February 29, from 12h UT:
    the binary64 program sees the Sun sinking from 13h to 17h UT. *)
Example C109_low_example : forall lm, good_libm lm -> forall p, exists c r r',
  sun_new (A := b64A lm) p (parF lm (MkDate 2000 2 29) 12 0 (Flit 0 0) (Flit 0 0) (Flit 0 0) (Flit 0 0)) = Val c /\
  sun_compute (A := b64A lm) c (Flit 3600 0) = Val r /\ sun_compute (A := b64A lm) c (Flit 18000 0) = Val r' /\
  B2R (sr_sza (A := b64A lm) r) < B2R (sr_sza (A := b64A lm) r').
Proof. exact L_PLow.C109_low_example_pf. Qed.
