(** * Properties: Seasons

    Statements only; proofs are in L_PSeasons.v. *)

From Coq Require Import ZArith Reals Lra Lia Bool List Psatz.
From Flocq Require Import Core BinarySingleNaN.
From Verif Require Import Outcome Arith ArithR ArithF M_Common M_Calendar M_Time M_Ellipsoid M_Locator M_Frames M_Earth M_SunAngle Spec_Calendar Spec_Api Spec_Accuracy Spec_Matrix Spec_Frames Spec_Series Spec_Orbit Spec_Sun Spec_SunAcc Spec_Almanac.
Open Scope R_scope.
From Verif Require L_PSeasons.

(** C92.  Let the request be accepted, its year lie from 1901 to 2098 and the moment
    (clock time plus offset) within its date.  In June the zenith angle that compute
    returns at latitude phi degrees is between 21.1 - phi and 158.9 - phi degrees; in
    December between 21.1 + phi and 158.9 + phi degrees.  So beyond latitude 70 the
    Sun does not set in summer and does not rise in winter. *)
Theorem C92_seasons : forall p par c ds, sun_new (A := realA) p par = Val c ->
  let g := sp_date (A := realA) par in let la := lat (A := realA) (sp_position (A := realA) par) in
  accepted g -> (1901 <= year g <= 2098)%Z -> 0 <= clock (sp_time (A := realA) par) + ds <= 86400 -> -90 <= la <= 90 ->
  exists r, sun_compute (A := realA) c ds = Val r /\
  (month g = 6%Z -> degrees (21.1 - la) <= sr_sza (A := realA) r <= degrees (158.9 - la)) /\
  (month g = 12%Z -> degrees (21.1 + la) <= sr_sza (A := realA) r <= degrees (158.9 + la)).
Proof. exact L_PSeasons.C92_seasons_pf. Qed.
Print Assumptions C92_seasons.

(** C92 in binary64: for the usual inputs, a moment within the date and a latitude
    of 25 to 90 degrees north or south, compute succeeds and the zenith angle it
    returns is finite and obeys the same bounds. *)
Theorem C92_seasons_b64 : forall lm, good_libm lm -> forall p g h m s lo la ht ds,
  usual_inputs g h m s lo la ht ds -> 0 <= 3600 * IZR h + 60 * IZR m + B2R s + B2R ds <= 86400 -> 25 <= Rabs (B2R la) <= 90 ->
  exists c r, sun_new (A := b64A lm) p (parF lm g h m s lo la ht) = Val c /\ sun_compute (A := b64A lm) c ds = Val r /\
  is_finite (sr_sza (A := b64A lm) r) = true /\
  (month g = 6%Z -> degrees (21.1 - B2R la) <= B2R (sr_sza (A := b64A lm) r) <= degrees (158.9 - B2R la)) /\
  (month g = 12%Z -> degrees (21.1 + B2R la) <= B2R (sr_sza (A := b64A lm) r) <= degrees (158.9 + B2R la)).
Proof. exact L_PSeasons.C92_seasons_b64_pf. Qed.
Print Assumptions C92_seasons_b64.

(** C92 at 80 degrees north: at any time of day on 2000 June 10 the binary64 zenith
    angle is below 79 degrees (the Sun is up), and on 2000 December 10 it is above
    101 degrees (the Sun is down). *)
Example C92_example : forall lm, good_libm lm -> forall p h m, (0 <= h < 24)%Z -> (0 <= m < 60)%Z -> exists c r c' r',
  sun_new (A := b64A lm) p (parF lm (MkDate 2000 6 10) h m (Flit 0 0) (Flit 0 0) (Flit 80 0) (Flit 0 0)) = Val c /\ sun_compute (A := b64A lm) c (Flit 0 0) = Val r /\
  B2R (sr_sza (A := b64A lm) r) <= degrees 79 /\
  sun_new (A := b64A lm) p (parF lm (MkDate 2000 12 10) h m (Flit 0 0) (Flit 0 0) (Flit 80 0) (Flit 0 0)) = Val c' /\ sun_compute (A := b64A lm) c' (Flit 0 0) = Val r' /\
  degrees 101 <= B2R (sr_sza (A := b64A lm) r').
Proof. exact L_PSeasons.C92_example_pf. Qed.

(** C92, the equinoxes.  Let the request be accepted, its year lie from 1901 to 2098
    and the moment within its date.  From 23 March to 20 September the zenith angle
    at latitude phi degrees is between -phi and 180 - phi degrees; from 25 September to
    18 March it is between phi and 180 + phi degrees.  So at the North Pole the Sun is
    never below the horizon in the former half of the year and never above it in the
    latter, and conversely at the South Pole. *)
Theorem C92_equinoxes : forall p par c ds, sun_new (A := realA) p par = Val c ->
  let g := sp_date (A := realA) par in let la := lat (A := realA) (sp_position (A := realA) par) in
  accepted g -> (1901 <= year g <= 2098)%Z -> 0 <= clock (sp_time (A := realA) par) + ds <= 86400 -> -90 <= la <= 90 ->
  let md := (100 * month g + day g)%Z in
  exists r, sun_compute (A := realA) c ds = Val r /\
  ((323 <= md <= 920)%Z -> degrees (- la) < sr_sza (A := realA) r < degrees (180 - la)) /\
  ((md <= 318 \/ 925 <= md)%Z -> degrees la < sr_sza (A := realA) r < degrees (180 + la)).
Proof. exact L_PSeasons.C92_equinoxes_pf. Qed.
Print Assumptions C92_equinoxes.

(** C92, the equinoxes in binary64: the same bounds for the usual inputs, a moment
    within the date and a latitude of 25 to 90 degrees north or south. *)
Theorem C92_equinoxes_b64 : forall lm, good_libm lm -> forall p g h m s lo la ht ds,
  usual_inputs g h m s lo la ht ds -> 0 <= 3600 * IZR h + 60 * IZR m + B2R s + B2R ds <= 86400 -> 25 <= Rabs (B2R la) <= 90 ->
  let md := (100 * month g + day g)%Z in
  exists c r, sun_new (A := b64A lm) p (parF lm g h m s lo la ht) = Val c /\ sun_compute (A := b64A lm) c ds = Val r /\
  is_finite (sr_sza (A := b64A lm) r) = true /\
  ((323 <= md <= 920)%Z -> degrees (- B2R la) < B2R (sr_sza (A := b64A lm) r) < degrees (180 - B2R la)) /\
  ((md <= 318 \/ 925 <= md)%Z -> degrees (B2R la) < B2R (sr_sza (A := b64A lm) r) < degrees (180 + B2R la)).
Proof. exact L_PSeasons.C92_equinoxes_b64_pf. Qed.
Print Assumptions C92_equinoxes_b64.

(** C92 at the North Pole in binary64: at any time of day the Sun is above the
    horizon on 2000 March 23, and below it on September 25. *)
Example C92_pole_example : forall lm, good_libm lm -> forall p h m, (0 <= h < 24)%Z -> (0 <= m < 60)%Z -> exists c r c' r',
  sun_new (A := b64A lm) p (parF lm (MkDate 2000 3 23) h m (Flit 0 0) (Flit 0 0) (Flit 90 0) (Flit 0 0)) = Val c /\ sun_compute (A := b64A lm) c (Flit 0 0) = Val r /\
  B2R (sr_sza (A := b64A lm) r) < degrees 90 /\
  sun_new (A := b64A lm) p (parF lm (MkDate 2000 9 25) h m (Flit 0 0) (Flit 0 0) (Flit 90 0) (Flit 0 0)) = Val c' /\ sun_compute (A := b64A lm) c' (Flit 0 0) = Val r' /\
  degrees 90 < B2R (sr_sza (A := b64A lm) r').
Proof. exact L_PSeasons.C92_pole_example_pf. Qed.

(** C93.  Let the request be accepted, its year lie from 1901 to 2098 and the moment
    within its date.  The Earth-Sun distance in the result is at most 0.987
    astronomical units in January and at least 1.0134 in July. *)
Theorem C93_distance : forall p par c ds, sun_new (A := realA) p par = Val c ->
  let g := sp_date (A := realA) par in accepted g -> (1901 <= year g <= 2098)%Z -> 0 <= clock (sp_time (A := realA) par) + ds <= 86400 ->
  exists r, sun_compute (A := realA) c ds = Val r /\
  (month g = 1%Z -> length3 (sr_earth (A := realA) r) <= 0.987) /\
  (month g = 7%Z -> 1.0134 <= length3 (sr_earth (A := realA) r)).
Proof. exact L_PSeasons.C93_distance_pf. Qed.
Print Assumptions C93_distance.

(** C93 in binary64: for the usual inputs and a moment within the date, compute
    succeeds, the Earth vector it returns is finite, and its length obeys the same
    bounds within one part in 10^5. *)
Theorem C93_distance_b64 : forall lm, good_libm lm -> forall p g h m s lo la ht ds,
  usual_inputs g h m s lo la ht ds -> 0 <= 3600 * IZR h + 60 * IZR m + B2R s + B2R ds <= 86400 ->
  exists c r, sun_new (A := b64A lm) p (parF lm g h m s lo la ht) = Val c /\ sun_compute (A := b64A lm) c ds = Val r /\
  (forall i, is_finite (vget (A := b64A lm) (sr_earth (A := b64A lm) r) i) = true) /\
  let x i := B2R (vget (A := b64A lm) (sr_earth (A := b64A lm) r) i) in
  let dist := R_sqrt.sqrt (x I0 * x I0 + x I1 * x I1 + x I2 * x I2) in
  (month g = 1%Z -> dist <= 0.98701) /\ (month g = 7%Z -> 1.01339 <= dist).
Proof. exact L_PSeasons.C93_distance_b64_pf. Qed.
Print Assumptions C93_distance_b64.

(** C93 on 2000 January 10 and July 10, at any time of day, with the binary64
    program: the July distance exceeds the January one by more than 0.026
    astronomical units. *)
Example C93_example : forall lm, good_libm lm -> forall p h m, (0 <= h < 24)%Z -> (0 <= m < 60)%Z -> exists c r c' r',
  sun_new (A := b64A lm) p (parF lm (MkDate 2000 1 10) h m (Flit 0 0) (Flit 0 0) (Flit 0 0) (Flit 0 0)) = Val c /\ sun_compute (A := b64A lm) c (Flit 0 0) = Val r /\
  sun_new (A := b64A lm) p (parF lm (MkDate 2000 7 10) h m (Flit 0 0) (Flit 0 0) (Flit 0 0) (Flit 0 0)) = Val c' /\ sun_compute (A := b64A lm) c' (Flit 0 0) = Val r' /\
  let dist q := let x i := B2R (vget (A := b64A lm) (sr_earth (A := b64A lm) q) i) in R_sqrt.sqrt (x I0 * x I0 + x I1 * x I1 + x I2 * x I2) in
  dist r + 0.026 <= dist r'.
Proof. exact L_PSeasons.C93_example_pf. Qed.
