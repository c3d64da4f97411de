(** * Proofs of C87 and of the almanac forms of C34 and C86 *)

From Coq Require Import ZArith Reals Lra Lia Bool List Psatz.
From Flocq Require Import Core BinarySingleNaN.
From Verif Require Import Outcome Arith ArithR ArithF M_Common M_Calendar M_Time M_Ellipsoid M_Locator M_Frames M_Earth M_SunAngle Spec_Calendar Spec_Api Spec_Accuracy Spec_Matrix Spec_Frames Spec_Series Spec_C2t Spec_Sun Spec_SunAcc Spec_Pole Spec_Orbit Spec_Almanac.
From Verif Require L_PAccSun L_AlmanacDat L_PAccC2t.
From Verif Require Import L_ArithR L_Matrix L_PMatrix L_Frames L_Near L_Pi L_PFrames L_Kepler L_Orbit L_POrbit L_PPole L_CioLow L_Angle L_Almanac L_AlmanacSun L_AlmanacSky L_PSunAngle.
Import ListNotations.
Open Scope R_scope.

(** C34.  The angle between non-zero vectors satisfies the triangle inequality. *)
Lemma C34_angle_triangle_pf : forall a b c, ~ zero_vec a -> ~ zero_vec b -> ~ zero_vec c ->
  vangle (A := realA) a c <= vangle (A := realA) a b + vangle (A := realA) b c.
Proof.
  intros a b c Ha Hb Hc.
  assert (P : forall x, ~ zero_vec x -> 0 < nrm x) by (intros x Hx; unfold nrm; apply sqrt_lt_R0; apply sprod_pos; exact Hx).
  assert (E : forall x y, 0 < nrm x -> 0 < nrm y -> vangle (A := realA) x y = acos (unit_dot x y)).
  { intros x y Hx Hy. rewrite vangle_R. unfold unit_dot, nrm in *. f_equal. field. lra. }
  rewrite !E by auto. apply angle_triangle; auto.
Qed.

(** C86.  The locator of the celestial intermediate origin is -xy/2 plus the
    leading terms of the IERS Conventions, within a thousandth of an arcsecond. *)
Lemma C86_locator_pf : forall d x y, Rabs (centuries d) <= 1 -> exists s, cio (A := realA) d x y = Val s /\
  Rabs (s - (arcsec (low_s (centuries d)) - x * y / 2)) <= arcsec 0.001.
Proof.
  intros d x y H. exists (cio_sxy2 (centuries d) - x * y / 2). split; [apply L_PSeries.C61_cio_series_pf|].
  pose proof (cio_low (centuries d) H) as L. match goal with |- Rabs ?e <= _ => replace e with (cio_sxy2 (centuries d) - arcsec (low_s (centuries d))) by ring end. exact L.
Qed.

Lemma gmst_near : forall t n, Rabs t <= 1 -> 30 <= 86400 * (36525 * t - n) <= 73 ->
  Rabs (alm_gmst n - 2 * PI * (0.7790572732640 + 1.00273781191135448 * (n + - 0.072073685 / 86400)) - arcsec (4612.9 * t)) <= arcsec 4.
Proof.
  intros t n Ht Hn. unfold alm_gmst, degrees. set (T := n / 36525).
  replace n with (36525 * T) by (unfold T; field). assert (HT : 30 <= 86400 * 36525 * (t - T) <= 73) by (replace n with (36525 * T) in Hn by (unfold T; field); lra). clearbody T. clear Hn n.
  set (e := t - T) in *. replace t with (T + e) by (unfold e; ring). apply Rabs_le_inv in Ht. assert (BT : -1.00001 <= T <= 1) by (unfold e in HT; lra). clearbody e.
  assert (T2 : 0 <= T ^ 2 <= 1.00003) by (split; nra). assert (T3 : -1.00004 <= T ^ 3 <= 1.00004) by (replace (T ^ 3) with (T * T ^ 2) by ring; split; nra).
  set (x := T ^ 2) in *. set (y := T ^ 3) in *. clearbody x y. unfold arcsec.
  match goal with |- Rabs ?z <= _ => replace z with ((280.46061837 * 3600 + 360.98564736629 * 36525 * 3600 * T + 0.000387933 * 3600 * x - y / 38710000 * 3600
     - 1296000 * (0.7790572732640 + 1.00273781191135448 * (36525 * T + - 0.072073685 / 86400)) - 4612.9 * (T + e)) * (PI / 648000)) by lra end.
  set (z := 280.46061837 * 3600 + _ + _ - _ - _ - _). assert (Z : Rabs z <= 4) by (unfold z; apply Rabs_le; lra). clearbody z.
  assert (P : 0 < PI / 648000) by (pose proof PI_RGT_0; lra). rewrite Rabs_mult, (Rabs_pos_eq (PI / 648000)) by lra. apply Rmult_le_compat_r; lra.
Qed.

Lemma almanac : forall p par c ds, sun_new (A := realA) p par = Val c ->
  accepted (sp_date (A := realA) par) -> (year (sp_date (A := realA) par) < 178956970)%Z ->
  exists r, sun_compute (A := realA) c ds = Val r /\
  (Rabs (tt_total (A := realA) (sr_tt (A := realA) r) - 2451545) <= 36525 ->
   Rabs (sr_sza (A := realA) r - acos (alm_cos_zenith (utc_total (A := realA) (sr_utc (A := realA) r) - 2451545)
     (lat (A := realA) (sp_position (A := realA) par)) (lon (A := realA) (sp_position (A := realA) par)))) <= asin 0.00248).
Proof.
  intros p par c ds H Hg Hy.
  destruct (C51_times_pf p par c ds H) as (r & j0 & j1 & Er & _ & _ & TT & _ & UT & (o & Do & Dr) & _ & _).
  destruct (C51_geometry_pf p par c ds H) as (r' & e & m & Er' & (d & Ed & Td) & Ee & Em & IM & LS & LZ & SR & SD).
  rewrite Er in Er'. assert (E : r' = r) by congruence. subst r'. exists r. split; [exact Er|]. intros HT.
  pose proof (L_AlmanacDat.dat_range p _ _ o Hg Hy Do) as DR.
  assert (DB : -2 <= sr_dat (A := realA) r <= 40) by (rewrite Dr; exact DR). clear DR Dr Do Er H Hg Hy.
  set (pos := sp_position (A := realA) par) in *. clearbody pos. set (n := utc_total (A := realA) (sr_utc (A := realA) r) - 2451545) in *.
  set (t := centuries (sr_tt (A := realA) r)) in *.
  assert (Et : 36525 * t = tt_total (A := realA) (sr_tt (A := realA) r) - 2451545) by (unfold t, centuries, tt_total; realA_ops; field).
  assert (Ht : Rabs t <= 1) by (rewrite <- Et, Rabs_mult, (Rabs_pos_eq 36525) in HT by lra; lra).
  assert (Hn : 30 <= 86400 * (36525 * t - n) <= 73) by (rewrite Et; unfold n; lra).
  assert (Hy : years d = 100 * t) by (unfold years; rewrite Td; lra).
  assert (YB : Rabs (years d) <= 100) by (rewrite Hy, Rabs_mult, (Rabs_pos_eq 100) by lra; lra).
  destruct (C82_kepler_pf d YB) as (e' & u & Ed' & K & B). rewrite Ed in Ed'. assert (E : e' = e) by congruence. subst e'. rewrite <- Ee in B. rewrite Hy in K.
  destruct (L_PAccC2t.C69_exact_pf (sr_tt (A := realA) r)) as [_ C2]; [fold t; lra|]. rewrite C2 in Em. injection Em as <-. fold t in IM. clear C2.
  set (pe := sr_earth (A := realA) r) in *. clearbody pe. clear Ee Ed Ed' Td YB Hy j0 j1.
  assert (Eu : era_of (sr_ut1 (A := realA) r) = 2 * PI * (0.7790572732640 + 1.00273781191135448 * (n + - 0.072073685 / 86400))).
  { unfold era_of. f_equal. f_equal. f_equal. unfold ut1_total in UT. unfold n. realA_ops. lra. }
  pose proof (gmst_near t n Ht Hn) as G. rewrite <- Eu in G. set (era := era_of _) in *. clearbody era. clear Eu UT.
  assert (XY : Rabs (arcsec 0.0349282) + Rabs (arcsec 0.4833163) <= arcsec 0.52).
  { rewrite !arcsec_abs, !Rabs_pos_eq by lra. unfold arcsec. pose proof PI_RGT_0. lra. }
  pose proof (sun_terrestrial t n u pe era _ _ Ht Hn K B G XY) as S. cbv zeta in S.
  pose proof (rad_range (mean_anomaly (100 * t))) as RR. set (rr := rad_of _) in *. clearbody rr.
  set (y := col (C2T t era (arcsec 0.0349282) (arcsec 0.4833163)) (scl (-1) pe)) in *.
  assert (EY : sr_sun_e (A := realA) r = scl 149597870700 y).
  { apply vec_ext. intros i. rewrite (IM i). unfold y. rewrite <- col_scl. rewrite (col_image _ _ i). unfold sun_of, scl, coord. cbn [vget v0 v1 v2]. lra. }
  destruct (angle_close y (alm_dir n) (scl rr (alm_dir n)) rr 0.00248 (alm_dir_unit n) ltac:(lra) ltac:(lra)) as [NY AC]; [intros [| |]; reflexivity|exact S|].
  clear S IM LS K B G XY Ht HT Hn Et DB.
  assert (NZ : nrm (zenith_of pos) = 1) by exact LZ.
  assert (CT : unit_dot (zenith_of pos) y = cos (sr_sza (A := realA) r)).
  { rewrite EY in SD. unfold length3 in SD. change (R_sqrt.sqrt (sprod (scl 149597870700 y) (scl 149597870700 y))) with (nrm (scl 149597870700 y)) in SD. rewrite scl_nrm in SD by lra.
    replace (sprod (zenith_of pos) (scl 149597870700 y)) with (149597870700 * sprod (zenith_of pos) y) in SD by (unfold scl, sprod, coord; cbn [vget v0 v1 v2]; lra).
    unfold unit_dot. rewrite NZ. set (q := sprod (zenith_of pos) y) in *. set (w := nrm y) in *. clearbody q w. set (cz := cos _) in *. clearbody cz.
    assert (q = w * cz) by (apply (Rmult_eq_reg_l 149597870700); lra). subst q. field. lra. }
  assert (TH : sr_sza (A := realA) r = acos (unit_dot (zenith_of pos) y)) by (rewrite CT, acos_cos by exact SR; reflexivity).
  assert (AH : acos (alm_cos_zenith n (lat (A := realA) pos) (lon (A := realA) pos)) = acos (unit_dot (zenith_of pos) (alm_dir n))).
  { rewrite <- alm_dir_zenith. unfold unit_dot. rewrite NZ, alm_dir_unit. f_equal. field. }
  rewrite TH, AH. assert (ND : nrm (alm_dir n) = 1) by apply alm_dir_unit.
  pose proof (angle_triangle (zenith_of pos) (alm_dir n) y ltac:(lra) ltac:(lra) NY) as T1.
  pose proof (angle_triangle (zenith_of pos) y (alm_dir n) ltac:(lra) NY ltac:(lra)) as T2.
  replace (unit_dot y (alm_dir n)) with (unit_dot (alm_dir n) y) in T2 by (unfold unit_dot; rewrite (Rmult_comm (nrm y)); f_equal; unfold sprod; ring).
  apply Rabs_le. lra.
Qed.

Lemma asin_small : asin 0.00248 <= 0.00249.
Proof.
  pose proof (asin_bound 0.00248) as A. pose proof PI_bounds as P. apply Rnot_lt_le. intros N.
  pose proof (sin_increasing_1 0.00249 (asin 0.00248) ltac:(lra) ltac:(lra) ltac:(lra) ltac:(lra) N) as S. rewrite sin_asin in S by lra.
  pose proof (sin_taylor3 0.00249 ltac:(rewrite Rabs_pos_eq; lra)) as T. rewrite (Rabs_pos_eq 0.00249) in T by lra. apply Rabs_le_inv in T. lra.
Qed.

Lemma utc_days : forall p par c ds r k, sun_new (A := realA) p par = Val c -> sun_compute (A := realA) c ds = Val r ->
  accepted (sp_date (A := realA) par) -> (year (sp_date (A := realA) par) <= 1465072)%Z -> day_count mjd_epoch (of_date (sp_date (A := realA) par)) k ->
  utc_total (A := realA) (sr_utc (A := realA) r) - 2451545 = ut_days k (clock (sp_time (A := realA) par) + ds) /\
  Rabs (tt_total (A := realA) (sr_tt (A := realA) r) - utc_total (A := realA) (sr_utc (A := realA) r)) <= 0.00085.
Proof.
  intros p par c ds r k H Hr Hg Hy Hk. destruct (C51_times_pf p par c ds H) as (r' & j0 & j1 & Er & Ej & U & TT & _ & _ & (o & Do & Dr) & _ & _).
  rewrite Hr in Er. assert (E : r' = r) by congruence. subst r'. pose proof (L_AlmanacDat.dat_range p _ _ o Hg ltac:(lia) Do) as DR.
  assert (DB : -2 <= sr_dat (A := realA) r <= 40) by (rewrite Dr; exact DR). split; [|rewrite TT; apply Rabs_le; lra].
  rewrite U. destruct (L_PCalendar.C02_to_julian_exact_reals_pf p _ Hg Hy) as (k' & Ek & Hk'). rewrite Ek in Ej. injection Ej as <- <-.
  assert (EK : k = k') by (apply (L_PCalendar.C02_day_count_unique_pf (of_date (sp_date (A := realA) par))); [apply (proj1 (L_PCalendar.accepted_spec _) Hg)|assumption|assumption]).
  rewrite EK. unfold ut_days. realA_ops. lra.
Qed.

(** C87.  The zenith angle of the Sun is that of the Astronomical Almanac's
    low-precision formulas within 0.143 degrees, for every place and instant from
    1900 to 2100. *)
Lemma C87_almanac_pf : forall p par c ds k, sun_new (A := realA) p par = Val c ->
  accepted (sp_date (A := realA) par) -> (year (sp_date (A := realA) par) <= 1465072)%Z -> day_count mjd_epoch (of_date (sp_date (A := realA) par)) k ->
  let n := ut_days k (clock (sp_time (A := realA) par) + ds) in Rabs n <= 36524 ->
  exists r, sun_compute (A := realA) c ds = Val r /\
  Rabs (sr_sza (A := realA) r - acos (alm_cos_zenith n (lat (A := realA) (sp_position (A := realA) par)) (lon (A := realA) (sp_position (A := realA) par)))) <= degrees 0.143.
Proof.
  intros p par c ds k H Hg Hy Hk n Hn. destruct (almanac p par c ds H Hg ltac:(lia)) as (r & Er & A). exists r. split; [exact Er|].
  destruct (utc_days p par c ds r k H Er Hg Hy Hk) as [EN TT]. rewrite EN in A. fold n in A, EN.
  pose proof asin_small. assert (0.00249 <= degrees 0.143) by (unfold degrees; pose proof PI_bounds; lra).
  eapply Rle_trans; [apply A; apply Rabs_le_inv in TT; apply Rabs_le_inv in Hn; apply Rabs_le; lra|lra].
Qed.

(** C87.  The same for the binary64 program with any accurate libm, whenever the
    Sun is not within 1.2 degrees of zenith or nadir. *)
Lemma C87_almanac_b64_pf : forall lm, good_libm lm -> forall p g h m s lo la ht ds k, usual_inputs g h m s lo la ht ds -> day_count mjd_epoch (of_date g) k ->
  let n := ut_days k (3600 * IZR h + 60 * IZR m + B2R s + B2R ds) in
  let z := acos (alm_cos_zenith n (B2R la) (B2R lo)) in 0.02 <= z <= PI - 0.02 ->
  exists c r, sun_new (A := b64A lm) p (parF lm g h m s lo la ht) = Val c /\ sun_compute (A := b64A lm) c ds = Val r /\
  Spec_Accuracy.near (sr_sza (A := b64A lm) r) z (degrees 0.143).
Proof.
  intros lm G p g h m s lo la ht ds k HU Hk n z Hz.
  destruct (L_PAccSun.C72_sun_accuracy_pf lm G p g h m s lo la ht ds HU) as (c & r & c' & r' & E1 & E2 & E3 & E4 & _).
  exists c, r. split; [exact E1|]. split; [exact E2|].
  destruct (L_PAccSun.C72_zenith_angle_pf lm G p g h m s lo la ht ds HU c r c' r' E1 E2 E3 E4) as [Z _].
  destruct HU as (Hg & Hy & Hh & Hm & Fs & Bs & _ & _ & _ & _ & _ & _ & _ & Bd).
  assert (EK : k = L_Calendar.mjd (of_date g)).
  { pose proof (proj1 (L_PCalendar.accepted_spec _) Hg) as [V _]. apply (L_PCalendar.C02_day_count_unique_pf (of_date g)); [exact V|exact Hk|apply L_Calendar.mjd_epoch_count; exact V]. }
  assert (N : Rabs n <= 36524).
  { pose proof (L_ApxDat.mjd_between g 1901 2098 Hg ltac:(lia) ltac:(lia)) as MB.
    change (L_Calendar.mjd (1901, 1, 1)%Z) with 15385%Z in MB. change (L_Calendar.mjd (2098, 12, 31)%Z) with 87703%Z in MB. rewrite <- EK in MB.
    destruct MB as [M1 M2]. apply IZR_le in M1. apply IZR_le in M2. unfold n, ut_days. apply Rabs_le_inv in Bd.
    assert (0 <= IZR h <= 23) by (split; apply IZR_le; lia). assert (0 <= IZR m <= 59) by (split; apply IZR_le; lia). apply Rabs_le. lra. }
  destruct (C87_almanac_pf p (parR g h m s lo la ht) c' (B2R ds) k E3 Hg ltac:(cbn; lia) Hk N) as (r1 & E5 & _).
  destruct (almanac p (parR g h m s lo la ht) c' (B2R ds) E3 Hg ltac:(cbn; lia)) as (r2 & E6 & A).
  rewrite E4 in E5, E6. assert (E : r1 = r') by congruence. subst r1. assert (E : r2 = r') by congruence. subst r2.
  destruct (utc_days p (parR g h m s lo la ht) c' (B2R ds) r' k E3 E4 Hg ltac:(cbn; lia) Hk) as [EN TT]. rewrite EN in A.
  cbn [parR sp_time sp_position lat lon] in A, EN. unfold clock in A, EN. cbn [hour minute second] in A, EN. fold n in A, EN. fold z in A.
  pose proof asin_small as AS. assert (DG : 0.002495 <= degrees 0.143) by (unfold degrees; pose proof PI_bounds; lra).
  assert (B : Rabs (sr_sza (A := realA) r' - z) <= 0.00249).
  { eapply Rle_trans; [apply A|exact AS]. apply Rabs_le_inv in TT. apply Rabs_le_inv in N. apply Rabs_le. lra. }
  apply Rabs_le_inv in B. destruct Z as [[F Z] _]; [lra|]. split; [exact F|]. apply Rabs_le_inv in Z. apply Rabs_le. lra.
Qed.

Lemma cos_zenith_2000 : 0.9195 <= alm_cos_zenith 0 0 0 <= 0.9211.
Proof.
  unfold alm_cos_zenith. cbv zeta. replace (degrees 0) with 0 by (unfold degrees; ring). rewrite sin_0, cos_0, Rmult_0_l, Rplus_0_l, Rmult_1_l, Rplus_0_r.
  pose proof PI_bounds as P. assert (K : 0.01745329251 <= PI / 180 <= 0.01745329253) by lra.
  assert (A : -0.0433 <= sin (alm_anomaly 0) <= -0.0430).
  { replace (alm_anomaly 0) with (- (degrees 2.472) + 2 * INR 1 * PI) by (unfold alm_anomaly, degrees; cbn [INR]; lra). rewrite sin_period, sin_neg.
    assert (X : 0.04314 <= degrees 2.472 <= 0.04315) by (unfold degrees; lra). pose proof (sin_taylor3 (degrees 2.472) ltac:(rewrite Rabs_pos_eq; lra)) as T.
    rewrite (Rabs_pos_eq (degrees 2.472)) in T by lra. apply Rabs_le_inv in T. set (x := degrees 2.472) in *. clearbody x. assert (x ^ 3 <= 0.04315 ^ 3) by (apply pow_incr; lra). lra. }
  pose proof (SIN_bound (2 * alm_anomaly 0)) as B.
  assert (L : exists a, alm_long 0 = 3 * (PI / 2) + a /\ 0.1806 <= a <= 0.1815).
  { exists (alm_long 0 - 3 * (PI / 2)). split; [ring|]. unfold alm_long, alm_mean_long, degrees. set (x := sin (alm_anomaly 0)) in *. set (y := sin (2 * alm_anomaly 0)) in *. clearbody x y.
    replace ((280.460 + 0.9856474 * 0) * (PI / 180) + (1.915 * x + 0.020 * y) * (PI / 180) - 3 * (PI / 2)) with ((10.46 + 1.915 * x + 0.020 * y) * (PI / 180)) by lra.
    set (w := 10.46 + 1.915 * x + 0.020 * y) in *. assert (10.357 <= w <= 10.398) by (unfold w; lra). clearbody w. set (k := PI / 180) in *. clearbody k. split; nra. }
  destruct L as (a & -> & Ha).
  assert (G : exists b, alm_gmst 0 = 3 * (PI / 2) + b /\ 0.1825 <= b <= 0.1827).
  { exists (alm_gmst 0 - 3 * (PI / 2)). split; [ring|]. unfold alm_gmst, degrees. lra. }
  destruct G as (b & -> & Hb).
  assert (C32 : forall x, cos (3 * (PI / 2) + x) = sin x) by (intros x; rewrite cos_plus, cos_3PI2, sin_3PI2; ring).
  assert (S32 : forall x, sin (3 * (PI / 2) + x) = - cos x) by (intros x; rewrite sin_plus, cos_3PI2, sin_3PI2; ring).
  rewrite !C32, !S32.
  assert (E : 0.9174 <= cos (alm_obliquity 0) <= 0.9175).
  { destruct eps0_trig as [_ CE]. assert (D : Rabs (alm_obliquity 0 - eps_0) <= 0.00001) by (unfold alm_obliquity, degrees, eps_0, arcsec; apply Rabs_le; lra).
    destruct (L_Orbit.near_cos _ _ _ D) as (q & Q & R). rewrite Q. lra. }
  assert (TS : forall x u v, 0 < u -> v <= 1 -> u <= x <= v -> u - v ^ 3 / 6 <= sin x <= v).
  { intros x u v Hu Hv Hx. pose proof (sin_taylor3 x ltac:(rewrite Rabs_pos_eq; lra)) as T. rewrite (Rabs_pos_eq x) in T by lra. apply Rabs_le_inv in T.
    assert (x ^ 3 <= v ^ 3) by (apply pow_incr; lra). pose proof (sin_lt_x x ltac:(lra)). lra. }
  assert (TC : forall x u v, 0 <= u -> v <= 1 -> u <= x <= v -> 1 - v * v / 2 <= cos x <= 1 - u * u / 2 + v ^ 4 / 24).
  { intros x u v Hu Hv Hx. pose proof (cos_taylor4 x ltac:(rewrite Rabs_pos_eq; lra)) as T. assert (x ^ 4 <= v ^ 4) by (apply pow_incr; lra).
    assert (u * u <= x * x) by (apply Rmult_le_compat; lra). assert (x * x <= v * v) by (apply Rmult_le_compat; lra). lra. }
  pose proof (TS a 0.1806 0.1815 ltac:(lra) ltac:(lra) Ha) as A1. pose proof (TC a 0.1806 0.1815 ltac:(lra) ltac:(lra) Ha) as A2. pose proof (TS b 0.1825 0.1827 ltac:(lra) ltac:(lra) Hb) as B1. pose proof (TC b 0.1825 0.1827 ltac:(lra) ltac:(lra) Hb) as B2.
  clear TS TC C32 S32 A B. set (sa := sin a) in *. set (ca := cos a) in *. set (sb := sin b) in *. set (cb := cos b) in *. set (e := cos (alm_obliquity 0)) in *. clearbody sa ca sb cb e.
  replace (sa * sb + e * - ca * - cb) with (sa * sb + e * (ca * cb)) by ring.
  assert (F1 : 0.0325 <= sa * sb <= 0.03317) by (clear - A1 B1; assert (0.1795 <= sa <= 0.1815) by lra; assert (0.1814 <= sb <= 0.1827) by lra; split; nra).
  assert (F2 : 0.967 <= ca * cb <= 0.9677) by (clear - A2 B2; assert (0.98352 <= ca <= 0.98374) by lra; assert (0.98329 <= cb <= 0.9834) by lra; split; nra).
  clear - F1 F2 E. set (f := sa * sb) in *. set (g := ca * cb) in *. clearbody f g. split; nra.
Qed.

(** C87 at noon UT of 2000 January 1, latitude and longitude 0: the zenith angle
    computed in binary64 lies between 22.7 and 23.4 degrees. *)
Example C87_example_pf : forall lm, good_libm lm -> forall p, exists c r,
  sun_new (A := b64A lm) p (parF lm (MkDate 2000 1 1) 12 0 (Flit 0 0) (Flit 0 0) (Flit 0 0) (Flit 0 0)) = Val c /\ sun_compute (A := b64A lm) c (Flit 0 0) = Val r /\
  degrees 22.7 <= B2R (sr_sza (A := b64A lm) r) <= degrees 23.4.
Proof.
  intros lm G p. destruct L_ArithF.lit_0 as [E0 F0].
  assert (K : day_count mjd_epoch (of_date (MkDate 2000 1 1)) 51544) by (change 51544%Z with (L_Calendar.mjd (2000, 1, 1)%Z); apply L_Calendar.mjd_epoch_count; cbn; lia).
  assert (U : usual_inputs (MkDate 2000 1 1) 12 0 (Flit 0 0) (Flit 0 0) (Flit 0 0) (Flit 0 0) (Flit 0 0)).
  { unfold usual_inputs. cbn [year]. rewrite !E0. repeat match goal with |- _ /\ _ => split end; try assumption; try lia; try lra; try (apply Rabs_le; lra). reflexivity. }
  pose proof (C87_almanac_b64_pf lm G p _ _ _ _ _ _ _ _ _ U K) as T. cbv zeta in T. rewrite !E0 in T.
  replace (ut_days 51544 (3600 * 12 + 60 * 0 + 0 + 0)) with 0 in T by (unfold ut_days; lra).
  pose proof cos_zenith_2000 as Z. set (x := alm_cos_zenith 0 0 0) in *. clearbody x. pose proof (acos_bound x) as B. pose proof PI_bounds as P.
  assert (X1 : 0.39967 <= degrees 22.9 <= 0.39969) by (unfold degrees; lra). assert (X2 : 0.40491 <= degrees 23.2 <= 0.40492) by (unfold degrees; lra).
  assert (C1 : 0.9211 < cos (degrees 22.9)).
  { destruct (cos_taylor6 (degrees 22.9) ltac:(lra)) as [L _]. set (y := degrees 22.9) in *. clearbody y.
    assert (y ^ 2 <= 0.39969 ^ 2) by (apply pow_incr; lra). assert (0.39967 ^ 4 <= y ^ 4) by (apply pow_incr; lra). assert (y ^ 6 <= 0.39969 ^ 6) by (apply pow_incr; lra). lra. }
  assert (C2 : cos (degrees 23.2) < 0.9195).
  { destruct (cos_taylor6 (degrees 23.2) ltac:(lra)) as [_ L]. set (y := degrees 23.2) in *. clearbody y.
    assert (0.40491 ^ 2 <= y ^ 2) by (apply pow_incr; lra). assert (y ^ 4 <= 0.40492 ^ 4) by (apply pow_incr; lra). lra. }
  assert (LO : degrees 22.9 <= acos x).
  { apply Rnot_lt_le. intros N. pose proof (cos_decreasing_1 (acos x) (degrees 22.9) ltac:(lra) ltac:(lra) ltac:(lra) ltac:(lra) N) as D. rewrite cos_acos in D by lra. lra. }
  assert (HI : acos x <= degrees 23.2).
  { apply Rnot_lt_le. intros N. pose proof (cos_decreasing_1 (degrees 23.2) (acos x) ltac:(lra) ltac:(lra) ltac:(lra) ltac:(lra) N) as D. rewrite cos_acos in D by lra. lra. }
  destruct T as (c & r & T1 & T2 & _ & T3); [lra|]. exists c, r. split; [exact T1|]. split; [exact T2|]. apply Rabs_le_inv in T3.
  set (v := B2R _) in *. clearbody v. unfold degrees in *. lra.
Qed.
