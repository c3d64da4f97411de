(** * Properties: SunAngle

    Statements only; proofs are in L_PSunAngle.v. *)

From Coq Require Import ZArith Reals Lra Lia Bool List.
From Flocq Require Import Core BinarySingleNaN.
From Verif Require Import Outcome Arith ArithR ArithF Spec_Float M_Common M_Calendar M_Time M_DeltaAt M_Earth M_Frames M_Ellipsoid M_SunAngle.
From Verif Require Import Spec_Calendar Spec_Api Spec_Matrix Spec_Frames Spec_Series Spec_Sun.
Import ListNotations.
Open Scope R_scope.
From Verif Require L_PSunAngle.

(** C51, exact arithmetic, every parameter set and offset: [compute] returns;
    UTC is the Julian date plus the time of day plus the offset; TT - UTC =
    (dat + 32.184) s and UT1 - UTC = dut1 = -0.072073685 s; the Earth vector,
    the rotation angle and the celestial-to-terrestrial matrix are those of these
    times and of the polar motion (0.0349282", 0.4833163"). *)
Theorem C51_times : forall p par c ds, sun_new (A := realA) p par = Val c ->
  exists r j0 j1, sun_compute (A := realA) c ds = Val r /\
  to_julian (A := realA) p (sp_date (A := realA) par) = Val (j0, j1) /\
  utc_total (A := realA) (sr_utc (A := realA) r) = j0 + j1 + (clock (sp_time (A := realA) par) + ds) / 86400 /\
  tt_total (A := realA) (sr_tt (A := realA) r) - utc_total (A := realA) (sr_utc (A := realA) r) =
    (sr_dat (A := realA) r + 32.184) / 86400 /\
  tai_total (A := realA) (sr_tai (A := realA) r) - utc_total (A := realA) (sr_utc (A := realA) r) =
    sr_dat (A := realA) r / 86400 /\
  ut1_total (A := realA) (sr_ut1 (A := realA) r) - utc_total (A := realA) (sr_utc (A := realA) r) =
    - 0.072073685 / 86400 /\
  (exists o, delta_at (A := realA) p (sp_date (A := realA) par) (clock (sp_time (A := realA) par) / 86400) = Val (Ok o) /\
     sr_dat (A := realA) r = match o with Some d => d | None => 0 end) /\
  sr_era (A := realA) r = rotation_angle (A := realA) (sr_ut1 (A := realA) r) /\
  sr_delta_s (A := realA) r = ds.
Proof. exact L_PSunAngle.C51_times_pf. Qed.
Print Assumptions C51_times.

(** C51, the remaining fields: the two parts of the Julian date (the second
    carries the time of day and the offset), the two parts of UT1, and the WGS84
    position of the place. *)
Theorem C51_place : forall p par c ds, sun_new (A := realA) p par = Val c ->
  exists r j0 j1, sun_compute (A := realA) c ds = Val r /\
  to_julian (A := realA) p (sp_date (A := realA) par) = Val (j0, j1) /\
  sr_jd0 (A := realA) r = j0 /\
  sr_jd1 (A := realA) r = j1 + (clock (sp_time (A := realA) par) + ds) / 86400 /\
  sr_utc (A := realA) r = MkUTC (A := realA) (sr_jd0 (A := realA) r) (sr_jd1 (A := realA) r) /\
  ut1_1 (A := realA) (sr_ut1 (A := realA) r) = sr_jd0 (A := realA) r /\
  sr_p (A := realA) r = wgs84_point (sp_position (A := realA) par).
Proof. exact L_PSunAngle.C51_place_pf. Qed.
Print Assumptions C51_place.

(** C51: the Sun vector is the Earth vector of that TT, reversed, in metres and
    turned by the celestial-to-terrestrial matrix acting on columns; its length
    is AU |earth|; the angle is in [0, pi] and is the angle between the zenith
    (a unit vector, from the latitude and longitude in degrees) and the Sun. *)
Theorem C51_geometry : forall p par c ds, sun_new (A := realA) p par = Val c ->
  exists r e m, sun_compute (A := realA) c ds = Val r /\
  (exists d, earth_pos_vel (A := realA) d = Val e /\
     tdb_1 (A := realA) d + tdb_2 (A := realA) d = tt_total (A := realA) (sr_tt (A := realA) r)) /\
  sr_earth (A := realA) r = pv_p (A := realA) (heliocentric (A := realA) e) /\
  celestial_to_terrestrial (A := realA) (sr_tt (A := realA) r) (sr_ut1 (A := realA) r)
    (arcsec 0.0349282) (arcsec 0.4833163) = Val m /\
  is_column_image m (sun_of (sr_earth (A := realA) r)) (sr_sun_e (A := realA) r) /\
  length3 (sr_sun_e (A := realA) r) = 149597870700 * length3 (sr_earth (A := realA) r) /\
  length3 (zenith_of (sp_position (A := realA) par)) = 1 /\
  0 <= sr_sza (A := realA) r <= PI /\
  sprod (zenith_of (sp_position (A := realA) par)) (sr_sun_e (A := realA) r) =
    length3 (sr_sun_e (A := realA) r) * cos (sr_sza (A := realA) r).
Proof. exact L_PSunAngle.C51_geometry_pf. Qed.
Print Assumptions C51_geometry.

(** C51.  The default request is 2007-04-05 00:00:00 at 120 degrees west on the equator at
    height zero, in exact arithmetic and in binary64. *)
Theorem C51_default :
  sun_default (A := realA) = MkSAP (A := realA) (MkDate 2007 4 5) (MkHMS (A := realA) 0 0 0) (MkG360 (A := realA) (-120) 0 0) /\
  forall lm, exists s lo la h : b64,
    sun_default (A := b64A lm) = MkSAP (A := b64A lm) (MkDate 2007 4 5) (MkHMS (A := b64A lm) 0 0 s) (MkG360 (A := b64A lm) lo la h) /\
    fin s = true /\ fin lo = true /\ fin la = true /\ fin h = true /\ B2R s = 0 /\ B2R lo = -120 /\ B2R la = 0 /\ B2R h = 0.
Proof. exact L_PSunAngle.C51_default_pf. Qed.
Print Assumptions C51_default.

(** C51 covers the default parameters of the library; there dat = 33 s, and the
    Earth-Sun distance is about 1 AU, so there is a Sun direction. *)
Example C51_example : forall p, exists c, sun_new (A := realA) p (sun_default (A := realA)) = Val c /\
  forall ds, -86400 <= ds <= 86400 -> exists r, sun_compute (A := realA) c ds = Val r /\
  sr_dat (A := realA) r = 33 /\ 0.96 <= length3 (sr_earth (A := realA) r) <= 1.04.
Proof. exact L_PSunAngle.C51_example_pf. Qed.

(** C52 is false: an hour of 25 (HMS is not validated) panics, in both profiles
    and in exact and binary64 arithmetic; so does, in debug builds, any accepted date from
    1465073-03-01 on. *)
Theorem C52_new_no_panic_refuted :
  (forall p g pos, sun_new (A := realA) p (MkSAP (A := realA) g (MkHMS (A := realA) 25 0 0) pos) = Panic) /\
  (forall lm p g pos, sun_new (A := b64A lm) p
     (MkSAP (A := b64A lm) g (MkHMS (A := b64A lm) 25 0 (Flit 0 0)) pos) = Panic) /\
  (forall (A : arith) g t pos, accepted g -> (year g <= i32_max)%Z -> ~ civil_lt (of_date g) (1465073, 3, 1)%Z ->
     sun_new (A := A) Debug (MkSAP (A := A) g t pos) = Panic).
Proof. exact L_PSunAngle.C52_new_no_panic_refuted_pf. Qed.
Print Assumptions C52_new_no_panic_refuted.

(** C52, exact arithmetic, dates before 1465073-03-01, both profiles and any
    position: [new] panics exactly when the clock reads less than 0 or more than 24 h. *)
Theorem C52_new_panics_partial : forall p g t pos, accepted g -> civil_lt (of_date g) (1465073, 3, 1)%Z ->
  (sun_new (A := realA) p (MkSAP (A := realA) g t pos) = Panic <-> ~ (0 <= clock t <= 86400)).
Proof. exact L_PSunAngle.C52_new_panics_partial_pf. Qed.
Print Assumptions C52_new_panics_partial.

(** C52, binary64: no panic for accepted dates before 1465073-03-01, hours,
    minutes and seconds in their usual ranges, and any position at which the
    platform's sine and cosine of the latitude are sensible: finite, at most 1,
    and not both below 1/2. *)
Theorem C52_new_no_panic_b64_partial : forall lm p g h m s pos, accepted g -> civil_lt (of_date g) (1465073, 3, 1)%Z ->
  (0 <= h < 24)%Z -> (0 <= m < 60)%Z -> fin s = true -> 0 <= B2R s < 60 ->
  (let x := phi (A := b64A lm) (geodetic_of_360 (A := b64A lm) pos) in
   fin (lm_sin lm x) = true /\ fin (lm_cos lm x) = true /\
   Rabs (B2R (lm_sin lm x)) <= 1 /\ Rabs (B2R (lm_cos lm x)) <= 1 /\
   (1 / 2 <= Rabs (B2R (lm_cos lm x)) \/ 1 / 2 <= Rabs (B2R (lm_sin lm x)))) ->
  exists c, sun_new (A := b64A lm) p (MkSAP (A := b64A lm) g (MkHMS (A := b64A lm) h m s) pos) = Val c.
Proof. exact L_PSunAngle.C52_new_no_panic_b64_partial_pf. Qed.
Print Assumptions C52_new_no_panic_b64_partial.

(** The hypotheses of C52 hold for the default parameters; 24:00:00 is still
    accepted, 24:00:01 is not. *)
Example C52_example : accepted (MkDate 2007 4 5) /\ civil_lt (of_date (MkDate 2007 4 5)) (1465073, 3, 1)%Z /\
  (forall p pos, sun_new (A := realA) p (MkSAP (A := realA) (MkDate 2007 4 5) (MkHMS (A := realA) 24 0 0) pos) <> Panic) /\
  (forall p pos, sun_new (A := realA) p (MkSAP (A := realA) (MkDate 2007 4 5) (MkHMS (A := realA) 24 0 1) pos) = Panic).
Proof. exact L_PSunAngle.C52_example_pf. Qed.

(** C53, exact arithmetic: two calculators for the same date and place, with
    the same dat, whose clocks plus offsets agree, give the same result in every
    field but the offset itself.  (Taking ds' = 0: an offset of ds seconds is a
    clock ds seconds later.) *)
Theorem C53_offset_is_shift : forall p par par' c c' ds ds',
  sun_new (A := realA) p par = Val c -> sun_new (A := realA) p par' = Val c' ->
  sp_date (A := realA) par = sp_date (A := realA) par' -> sp_position (A := realA) par = sp_position (A := realA) par' ->
  clock (sp_time (A := realA) par) + ds = clock (sp_time (A := realA) par') + ds' ->
  sc_dat (A := realA) c = sc_dat (A := realA) c' ->
  exists r r', sun_compute (A := realA) c ds = Val r /\ sun_compute (A := realA) c' ds' = Val r' /\
  sr_jd0 (A := realA) r = sr_jd0 (A := realA) r' /\ sr_jd1 (A := realA) r = sr_jd1 (A := realA) r' /\
  sr_p (A := realA) r = sr_p (A := realA) r' /\ sr_utc (A := realA) r = sr_utc (A := realA) r' /\
  sr_dat (A := realA) r = sr_dat (A := realA) r' /\ sr_tai (A := realA) r = sr_tai (A := realA) r' /\
  sr_tt (A := realA) r = sr_tt (A := realA) r' /\ sr_ut1 (A := realA) r = sr_ut1 (A := realA) r' /\
  sr_era (A := realA) r = sr_era (A := realA) r' /\ sr_earth (A := realA) r = sr_earth (A := realA) r' /\
  sr_sun_e (A := realA) r = sr_sun_e (A := realA) r' /\ sr_sza (A := realA) r = sr_sza (A := realA) r'.
Proof. exact L_PSunAngle.C53_offset_is_shift_pf. Qed.
Print Assumptions C53_offset_is_shift.

(** C53: from February 1972 on the condition on dat holds by itself. *)
Theorem C53_same_dat : forall p par par' c c',
  sun_new (A := realA) p par = Val c -> sun_new (A := realA) p par' = Val c' ->
  sp_date (A := realA) par = sp_date (A := realA) par' -> accepted (sp_date (A := realA) par) ->
  (12 * 1972 + 2 <= 12 * year (sp_date (A := realA) par) + month (sp_date (A := realA) par))%Z ->
  (year (sp_date (A := realA) par) < 178956970)%Z ->
  sc_dat (A := realA) c = sc_dat (A := realA) c'.
Proof. exact L_PSunAngle.C53_same_dat_pf. Qed.
Print Assumptions C53_same_dat.

(** 06:00:00 plus an hour and 07:00:00, on 2007 April 5: both calculators exist
    and the condition on dat holds. *)
Example C53_example : forall p,
  let par h := MkSAP (A := realA) (MkDate 2007 4 5) (MkHMS (A := realA) h 0 0) (MkG360 (A := realA) (-120) 0 0) in
  exists c c', sun_new (A := realA) p (par 6%Z) = Val c /\ sun_new (A := realA) p (par 7%Z) = Val c' /\
  clock (sp_time (A := realA) (par 6%Z)) + 3600 = clock (sp_time (A := realA) (par 7%Z)) + 0 /\
  sc_dat (A := realA) c = sc_dat (A := realA) c' /\ sc_fr (A := realA) c <> sc_fr (A := realA) c'.
Proof. exact L_PSunAngle.C53_example_pf. Qed.

(** C56, exact arithmetic, positive step: the loop ends, having evaluated
    exactly the values delta0 + k step that are <= delta1, in order. *)
Theorem C56_scan : forall d0 d1 step, 0 < step ->
  exists n, (forall fuel, (n <= fuel)%nat -> scan_offsets (A := realA) fuel true d0 d1 step = Some (progression d0 step n)) /\
  (forall k, (k < n)%nat <-> d0 + INR k * step <= d1).
Proof. exact L_PSunAngle.C56_scan_pf. Qed.
Print Assumptions C56_scan.

(** C56, any arithmetic: without scan exactly one evaluation, at delta0, or none when
    delta0 <= delta1 fails; never more. *)
Theorem C56_no_scan : forall (A : arith) (d0 d1 step : num A) fuel, (1 <= fuel)%nat ->
  scan_offsets (A := A) fuel false d0 d1 step = Some (if leb A d0 d1 then [d0] else []).
Proof. exact L_PSunAngle.C56_no_scan_pf. Qed.
Print Assumptions C56_no_scan.

(** Outside C56: with a step <= 0 and delta0 <= delta1 the loop never ends (exact
    arithmetic), for every number of iterations. *)
Theorem C56_nonpositive_step : forall d0 d1 step, step <= 0 -> d0 <= d1 ->
  forall fuel, scan_offsets (A := realA) fuel true d0 d1 step = None.
Proof. exact L_PSunAngle.C56_nonpositive_step_pf. Qed.
Print Assumptions C56_nonpositive_step.

(** C56 is false in binary64: a positive step can be absorbed by rounding, and
    then the loop never ends.  Here delta0 = 1e16, delta1 = 2e16, step = 1. *)
Theorem C56_absorbed_step_refuted : forall lm fuel,
  scan_offsets (A := b64A lm) fuel true (Flit 1 16) (Flit 2 16) (Flit 1 0) = None.
Proof. exact L_PSunAngle.C56_absorbed_step_refuted_pf. Qed.
Print Assumptions C56_absorbed_step_refuted.

(** C56 in binary64, for steps that are not absorbed (a step of 2^-1000 or more,
    with |delta0| and |delta1| at most 2^51 steps): the loop ends; it evaluates the running
    binary64 sums of the step, exactly those up to the first one past delta1;
    and the k-th is within k 2^-52 (M + step) of delta0 + k step. *)
Theorem C56_scan_b64_partial : forall lm (d0 d1 step : b64) M, fin d0 = true -> fin d1 = true -> fin step = true ->
  bpow radix2 (-1000) <= B2R step <= bpow radix2 1000 -> M <= bpow radix2 1000 ->
  Rabs (B2R d0) <= M -> Rabs (B2R d1) <= M -> M <= 2251799813685248 * B2R step ->
  exists n, (forall fuel, (n <= fuel)%nat ->
      scan_offsets (A := b64A lm) fuel true d0 d1 step = Some (map (running_sum d0 step) (seq 0 n))) /\
    (forall k, (k <= n)%nat -> fin (running_sum d0 step k) = true) /\
    (forall k, (k < n)%nat -> B2R (running_sum d0 step k) <= B2R d1) /\
    B2R d1 < B2R (running_sum d0 step n) /\
    (forall k, (k <= n)%nat -> Rabs (B2R (running_sum d0 step k) - (B2R d0 + INR k * B2R step))
       <= INR k * (bpow radix2 (-52) * (M + B2R step))).
Proof. exact L_PSunAngle.C56_scan_b64_partial_pf. Qed.
Print Assumptions C56_scan_b64_partial.

(** C56 in binary64 for every triple of numbers, NaN and infinities included: the
    values visited are the running sums, up to the first that is not <= delta1;
    the loop runs forever exactly when there is no such sum. *)
Theorem C56_scan_visits_b64 : forall lm (d0 d1 step : b64),
  (forall n, (forall k, (k < n)%nat -> Bleb (running_sum d0 step k) d1 = true) ->
     Bleb (running_sum d0 step n) d1 = false ->
     forall fuel, (n <= fuel)%nat ->
     scan_offsets (A := b64A lm) fuel true d0 d1 step = Some (map (running_sum d0 step) (seq 0 n))) /\
  ((forall fuel, scan_offsets (A := b64A lm) fuel true d0 d1 step = None) <->
   (forall k, Bleb (running_sum d0 step k) d1 = true)).
Proof. exact L_PSunAngle.C56_scan_visits_b64_pf. Qed.
Print Assumptions C56_scan_visits_b64.

(** C56 in binary64, every positive finite step: the loop runs forever exactly when
    the running sum reaches, before passing delta1, a number to which adding the
    step changes nothing. *)
Theorem C56_forever_b64_partial : forall lm (d0 d1 step : b64),
  fin d0 = true -> fin d1 = true -> fin step = true -> 0 < B2R step ->
  (forall fuel, scan_offsets (A := b64A lm) fuel true d0 d1 step = None) <->
  (exists k, (forall j, (j <= k)%nat -> Bleb (running_sum d0 step j) d1 = true) /\
             Fadd (running_sum d0 step k) step = running_sum d0 step k).
Proof. exact L_PSunAngle.C56_forever_b64_partial_pf. Qed.
Print Assumptions C56_forever_b64_partial.

(** Outside C56, in binary64: with a step <= 0 and delta0 <= delta1 the loop never ends. *)
Theorem C56_nonpositive_step_b64 : forall lm (d0 d1 step : b64),
  fin step = true -> fin d1 = true -> B2R step <= 0 -> Bleb d0 d1 = true ->
  forall fuel, scan_offsets (A := b64A lm) fuel true d0 d1 step = None.
Proof. exact L_PSunAngle.C56_nonpositive_step_b64_pf. Qed.
Print Assumptions C56_nonpositive_step_b64.

(** C56: the tool's default offsets, -600 to 600 in steps of 60, are 21; the
    binary64 hypotheses hold for them. *)
Example C56_example :
  scan_offsets (A := realA) 21 true (-600) 600 60 = Some (progression (-600) 60 21) /\
  scan_offsets (A := realA) 20 true (-600) 600 60 = None /\
  bpow radix2 (-1000) <= B2R (Flit 60 0) <= bpow radix2 1000 /\ 600 <= 2251799813685248 * B2R (Flit 60 0).
Proof. exact L_PSunAngle.C56_example_pf. Qed.
