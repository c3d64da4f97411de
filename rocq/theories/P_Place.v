(** * Properties: Place

    Statements only; proofs are in L_PPlace.v. *)

From Coq Require Import ZArith Reals Lra Lia Bool List Psatz.
From Flocq Require Import Core BinarySingleNaN.
From Verif Require Import Outcome Arith ArithR ArithF M_Common M_Calendar M_Time M_Ellipsoid M_Locator M_Frames M_Earth M_SunAngle Spec_Calendar Spec_Api Spec_Accuracy Spec_Matrix Spec_Sun Spec_SunAcc Spec_Almanac.
Open Scope R_scope.
From Verif Require L_PPlace.

(** C94.  Over any arithmetic: two accepted requests for the same date and time have
    the same outcome of compute at every offset as far as times and the Sun are
    concerned; only the position and the zenith angle depend on the place.  The
    zenith angle does not depend on the height. *)
Theorem C94_same_sun : forall (A : arith) p par par' c c' ds r,
  sun_new (A := A) p par = Val c -> sun_new (A := A) p par' = Val c' ->
  sp_date (A := A) par = sp_date (A := A) par' -> sp_time (A := A) par = sp_time (A := A) par' ->
  sun_compute (A := A) c ds = Val r ->
  exists r', sun_compute (A := A) c' ds = Val r' /\
  sr_jd0 (A := A) r' = sr_jd0 (A := A) r /\ sr_jd1 (A := A) r' = sr_jd1 (A := A) r /\ sr_utc (A := A) r' = sr_utc (A := A) r /\
  sr_dat (A := A) r' = sr_dat (A := A) r /\ sr_tai (A := A) r' = sr_tai (A := A) r /\ sr_tt (A := A) r' = sr_tt (A := A) r /\ sr_ut1 (A := A) r' = sr_ut1 (A := A) r /\
  sr_era (A := A) r' = sr_era (A := A) r /\ sr_earth (A := A) r' = sr_earth (A := A) r /\ sr_sun_e (A := A) r' = sr_sun_e (A := A) r /\
  (lat (A := A) (sp_position (A := A) par) = lat (A := A) (sp_position (A := A) par') ->
   lon (A := A) (sp_position (A := A) par) = lon (A := A) (sp_position (A := A) par') -> sr_sza (A := A) r' = sr_sza (A := A) r).
Proof. exact L_PPlace.C94_same_sun_pf. Qed.
Print Assumptions C94_same_sun.

(** C94.  For two accepted requests with the same date and time, at a moment within
    36524 days of noon UT of 2000 January 1, the zenith angles differ by at most the
    angle between the verticals of the two places, and add up to at least the angle
    between them. *)
Theorem C94_moving : forall p par par' c c' k ds, sun_new (A := realA) p par = Val c -> sun_new (A := realA) p par' = Val c' ->
  sp_date (A := realA) par = sp_date (A := realA) par' -> sp_time (A := realA) par = sp_time (A := realA) par' ->
  accepted (sp_date (A := realA) par) -> (year (sp_date (A := realA) par) <= 1465072)%Z -> day_count mjd_epoch (of_date (sp_date (A := realA) par)) k ->
  Rabs (ut_days k (clock (sp_time (A := realA) par) + ds)) <= 36524 ->
  exists r r', sun_compute (A := realA) c ds = Val r /\ sun_compute (A := realA) c' ds = Val r' /\
  let moved := acos (sprod (zenith_of (sp_position (A := realA) par)) (zenith_of (sp_position (A := realA) par'))) in
  Rabs (sr_sza (A := realA) r - sr_sza (A := realA) r') <= moved <= sr_sza (A := realA) r + sr_sza (A := realA) r'.
Proof. exact L_PPlace.C94_moving_pf. Qed.
Print Assumptions C94_moving.

(** C94.  A latitude change at the same longitude changes the zenith angle by at
    most as many degrees. *)
Theorem C94_latitude : forall p par par' c c' k ds, sun_new (A := realA) p par = Val c -> sun_new (A := realA) p par' = Val c' ->
  sp_date (A := realA) par = sp_date (A := realA) par' -> sp_time (A := realA) par = sp_time (A := realA) par' ->
  accepted (sp_date (A := realA) par) -> (year (sp_date (A := realA) par) <= 1465072)%Z -> day_count mjd_epoch (of_date (sp_date (A := realA) par)) k ->
  Rabs (ut_days k (clock (sp_time (A := realA) par) + ds)) <= 36524 ->
  lon (A := realA) (sp_position (A := realA) par) = lon (A := realA) (sp_position (A := realA) par') ->
  exists r r', sun_compute (A := realA) c ds = Val r /\ sun_compute (A := realA) c' ds = Val r' /\
  Rabs (sr_sza (A := realA) r - sr_sza (A := realA) r') <= degrees (Rabs (lat (A := realA) (sp_position (A := realA) par) - lat (A := realA) (sp_position (A := realA) par'))).
Proof. exact L_PPlace.C94_latitude_pf. Qed.
Print Assumptions C94_latitude.

(** C94.  At the antipodes (opposite latitude, longitude 180 degrees away) the
    zenith angle is the supplement: where one place has day the other has night. *)
Theorem C94_antipodes : forall p par par' c c' k ds, sun_new (A := realA) p par = Val c -> sun_new (A := realA) p par' = Val c' ->
  sp_date (A := realA) par = sp_date (A := realA) par' -> sp_time (A := realA) par = sp_time (A := realA) par' ->
  accepted (sp_date (A := realA) par) -> (year (sp_date (A := realA) par) <= 1465072)%Z -> day_count mjd_epoch (of_date (sp_date (A := realA) par)) k ->
  Rabs (ut_days k (clock (sp_time (A := realA) par) + ds)) <= 36524 ->
  lat (A := realA) (sp_position (A := realA) par') = - lat (A := realA) (sp_position (A := realA) par) ->
  lon (A := realA) (sp_position (A := realA) par') = lon (A := realA) (sp_position (A := realA) par) + 180 ->
  exists r r', sun_compute (A := realA) c ds = Val r /\ sun_compute (A := realA) c' ds = Val r' /\ sr_sza (A := realA) r' = degrees 180 - sr_sza (A := realA) r.
Proof. exact L_PPlace.C94_antipodes_pf. Qed.
Print Assumptions C94_antipodes.

(** C94.  Going once around the Earth, or changing the height, leaves the zenith
    angle unchanged. *)
Theorem C94_turn : forall p par par' c c' k ds, sun_new (A := realA) p par = Val c -> sun_new (A := realA) p par' = Val c' ->
  sp_date (A := realA) par = sp_date (A := realA) par' -> sp_time (A := realA) par = sp_time (A := realA) par' ->
  accepted (sp_date (A := realA) par) -> (year (sp_date (A := realA) par) <= 1465072)%Z -> day_count mjd_epoch (of_date (sp_date (A := realA) par)) k ->
  Rabs (ut_days k (clock (sp_time (A := realA) par) + ds)) <= 36524 ->
  lat (A := realA) (sp_position (A := realA) par') = lat (A := realA) (sp_position (A := realA) par) ->
  (exists j : Z, lon (A := realA) (sp_position (A := realA) par') = lon (A := realA) (sp_position (A := realA) par) + 360 * IZR j) ->
  exists r r', sun_compute (A := realA) c ds = Val r /\ sun_compute (A := realA) c' ds = Val r' /\ sr_sza (A := realA) r' = sr_sza (A := realA) r.
Proof. exact L_PPlace.C94_turn_pf. Qed.
Print Assumptions C94_turn.

(** C94 at latitude 40 and longitude 20 and at its antipodes, at noon UT of 2000
    January 1: the exact zenith angles add up to 180 degrees. *)
Example C94_example : forall p, exists c c' r r',
  sun_new (A := realA) p (MkSAP (A := realA) (MkDate 2000 1 1) (MkHMS (A := realA) 12 0 0) (MkG360 (A := realA) 20 40 0)) = Val c /\
  sun_new (A := realA) p (MkSAP (A := realA) (MkDate 2000 1 1) (MkHMS (A := realA) 12 0 0) (MkG360 (A := realA) 200 (-40) 0)) = Val c' /\
  sun_compute (A := realA) c 0 = Val r /\ sun_compute (A := realA) c' 0 = Val r' /\ sr_sza (A := realA) r + sr_sza (A := realA) r' = degrees 180.
Proof. exact L_PPlace.C94_example_pf. Qed.
