(** * Properties: Noon

    Statements only; proofs are in L_PNoon.v. *)

From Coq Require Import ZArith Reals Lra Lia Bool List Psatz.
From Flocq Require Import Core BinarySingleNaN.
From Verif Require Import Outcome Arith ArithR ArithF M_Common M_Calendar M_Time M_Ellipsoid M_Locator M_Frames M_Earth M_SunAngle Spec_Calendar Spec_Api Spec_Accuracy Spec_Matrix Spec_Frames Spec_Sun Spec_SunAcc Spec_Almanac.
Open Scope R_scope.
From Verif Require L_PNoon.

(** C95.  There are a declination and an equation of time, functions of the moment
    alone and at most 23.46 and 4.43 degrees in absolute value from 1900 to 2100, such
    that for every accepted request the zenith angle that compute returns is that of
    the spherical triangle with this declination and the hour angle of local mean
    time plus the equation of time, within 0.143 degrees. *)
Theorem C95_solar_time : exists decl eqt : R -> R, (forall n, Rabs n <= 36524 -> Rabs (decl n) <= 23.46 /\ Rabs (eqt n) <= 4.43) /\
  forall p par c ds k, sun_new (A := realA) p par = Val c ->
  accepted (sp_date (A := realA) par) -> (year (sp_date (A := realA) par) <= 1465072)%Z -> day_count mjd_epoch (of_date (sp_date (A := realA) par)) k ->
  let n := ut_days k (clock (sp_time (A := realA) par) + ds) in let la := degrees (lat (A := realA) (sp_position (A := realA) par)) in
  let de := degrees (decl n) in
  let ha := degrees ((clock (sp_time (A := realA) par) + ds - 43200) / 240 + lon (A := realA) (sp_position (A := realA) par) + eqt n) in
  Rabs n <= 36524 -> exists r, sun_compute (A := realA) c ds = Val r /\
  Rabs (sr_sza (A := realA) r - acos (sin la * sin de + cos la * cos de * cos ha)) <= degrees 0.143.
Proof. exact L_PNoon.C95_solar_time_pf. Qed.
Print Assumptions C95_solar_time.

(** C95.  Between 65 south and 65 north the Sun is up at local mean noon (Universal
    Time plus four minutes per degree of east longitude) with a zenith angle of at
    most 88.8 degrees, and down at local mean midnight with at least 91.2 degrees, on
    every day from 1900 to 2100. *)
Theorem C95_noon : forall p par c ds k j, sun_new (A := realA) p par = Val c ->
  accepted (sp_date (A := realA) par) -> (year (sp_date (A := realA) par) <= 1465072)%Z -> day_count mjd_epoch (of_date (sp_date (A := realA) par)) k ->
  Rabs (ut_days k (clock (sp_time (A := realA) par) + ds)) <= 36524 -> -65 <= lat (A := realA) (sp_position (A := realA) par) <= 65 ->
  let local := clock (sp_time (A := realA) par) + ds + 240 * lon (A := realA) (sp_position (A := realA) par) in
  exists r, sun_compute (A := realA) c ds = Val r /\
  (local = 43200 + 86400 * IZR j -> sr_sza (A := realA) r <= degrees 88.8) /\ (local = 86400 * IZR j -> degrees 91.2 <= sr_sza (A := realA) r).
Proof. exact L_PNoon.C95_noon_pf. Qed.
Print Assumptions C95_noon.

(** C95 in binary64, for the usual inputs and latitudes of 25 to 65 degrees north or
    south. *)
Theorem C95_noon_b64 : forall lm, good_libm lm -> forall p g h m s lo la ht ds j,
  usual_inputs g h m s lo la ht ds -> 25 <= Rabs (B2R la) <= 65 ->
  let local := 3600 * IZR h + 60 * IZR m + B2R s + B2R ds + 240 * B2R lo in
  exists c r, sun_new (A := b64A lm) p (parF lm g h m s lo la ht) = Val c /\ sun_compute (A := b64A lm) c ds = Val r /\
  is_finite (sr_sza (A := b64A lm) r) = true /\
  (local = 43200 + 86400 * IZR j -> B2R (sr_sza (A := b64A lm) r) <= degrees 88.8) /\ (local = 86400 * IZR j -> degrees 91.2 <= B2R (sr_sza (A := b64A lm) r)).
Proof. exact L_PNoon.C95_noon_b64_pf. Qed.
Print Assumptions C95_noon_b64.

(** C95 at 45 degrees north and 60 degrees east on 2000 February 29: at 8h UT, local
    noon, the binary64 zenith angle is below 90 degrees, and at 20h UT, local
    midnight, above. *)
Example C95_example : forall lm, good_libm lm -> forall p, exists c r c' r',
  sun_new (A := b64A lm) p (parF lm (MkDate 2000 2 29) 8 0 (Flit 0 0) (Flit 60 0) (Flit 45 0) (Flit 0 0)) = Val c /\ sun_compute (A := b64A lm) c (Flit 0 0) = Val r /\
  sun_new (A := b64A lm) p (parF lm (MkDate 2000 2 29) 20 0 (Flit 0 0) (Flit 60 0) (Flit 45 0) (Flit 0 0)) = Val c' /\ sun_compute (A := b64A lm) c' (Flit 0 0) = Val r' /\
  B2R (sr_sza (A := b64A lm) r) < degrees 90 < B2R (sr_sza (A := b64A lm) r').
Proof. exact L_PNoon.C95_example_pf. Qed.
