(** * Proofs of the Sun angle properties C51-C53 and C56 *)

From Coq Require Import ZArith Reals Lra Lia Bool List.
From Flocq Require Import Core BinarySingleNaN.
From Verif Require Import Outcome Arith ArithR ArithF Spec_Float M_Common M_Calendar M_Time M_DeltaAt M_Earth M_Frames M_Ellipsoid M_SunAngle.
From Verif Require Import Spec_Calendar Spec_Api Spec_Matrix Spec_Frames Spec_Series Spec_Sun.
From Verif Require Import L_ArithR L_ArithF L_Flit L_FromJulianF L_Matrix L_PMatrix L_PFrames L_PSeries L_DeltaAt L_PDeltaAt L_PCalendar L_PTimeOfDay L_Ellipsoid L_PEllipsoid L_Scan.
Import ListNotations.
Open Scope R_scope.

(** [new] in full: what it returns, and when. *)
Lemma sun_new_inv : forall (A : arith) p par c, sun_new (A := A) p par = Val c ->
  exists j0 j1 o wg pos,
    to_julian (A := A) p (sp_date (A := A) par) = Val (j0, j1) /\
    delta_at (A := A) p (sp_date (A := A) par) (hms_to_fraction (A := A) (sp_time (A := A) par)) = Val (Ok o) /\
    conv_new (A := A) (WGS84 (A := A)) = Ok wg /\
    geodetic_to_geocentric (A := A) wg (geodetic_of_360 (A := A) (sp_position (A := A) par)) = Ok pos /\
    c = MkSAC (A := A) j0 j1 match o with Some d => d | None => lit A 0 0 end
          (hms_to_fraction (A := A) (sp_time (A := A) par))
          (neg A (lit A 72073685 (-9))) (lit A 0 0)
          (mul A (lit A 349282 (-7)) (c_as2r A)) (mul A (lit A 4833163 (-7)) (c_as2r A))
          pos (zenith (A := A) (geodetic_of_360 (A := A) (sp_position (A := A) par))).
Proof.
  intros A p par c. unfold sun_new.
  destruct (to_julian p (sp_date par)) as [[j0 j1]|]; [|discriminate]. cbn [bind].
  destruct (delta_at p (sp_date par) (hms_to_fraction (sp_time par))) as [[o|]|]; try discriminate. cbn [bind expect].
  destruct (conv_new WGS84) as [wg|]; [|discriminate]. cbn [bind expect].
  destruct (geodetic_to_geocentric wg (geodetic_of_360 (sp_position par))) as [pos|] eqn:EP; [|discriminate]. cbn [bind expect].
  intros H. injection H as <-. exists j0, j1, o, wg, pos. repeat split; (reflexivity || exact EP).
Qed.

Section Compute.
Context {A : arith}.
Definition x_fr (c : SunAngleCalculator A) (ds : num A) : num A := add A (sc_fr (A := A) c) (div A ds (lit A 86400 0)).
Definition x_utc (c : SunAngleCalculator A) (ds : num A) : UTC A :=
  MkUTC (A := A) (sc_jd0 (A := A) c) (add A (sc_jd1_date (A := A) c) (x_fr c ds)).
Definition x_tai c ds : TAI A := tai_from_utc (A := A) (x_utc c ds) (sc_dat (A := A) c).
Definition x_tt c ds : TT A := tt_from_tai (A := A) (x_tai c ds).
Definition x_ut1 c ds : UT1 A :=
  MkUT1 (A := A) (sc_jd0 (A := A) c) (add A (add A (sc_jd1_date (A := A) c) (x_fr c ds)) (div A (sc_dut1 (A := A) c) (lit A 86400 0))).
Definition x_tdb c ds : TDB A := tdb_from_tt (A := A) (x_tt c ds) (sc_dtr (A := A) c).
Definition x_res c ds e m : SunAngleResult A :=
  let earth := pv_p (A := A) (heliocentric (A := A) e) in
  let sun_e := mapply (A := A) (mtranspose (A := A) m) (vscale (A := A) (vneg (A := A) earth) (AUM (A := A))) in
  MkSAR (A := A) (sc_jd0 (A := A) c) (add A (sc_jd1_date (A := A) c) (x_fr c ds)) ds (sc_p (A := A) c) (x_utc c ds)
    (sc_dat (A := A) c) (x_tai c ds) (x_tt c ds) (x_ut1 c ds) (rotation_angle (A := A) (x_ut1 c ds)) earth sun_e
    (vangle (A := A) (sc_zen (A := A) c) sun_e).

Lemma sun_compute_eq : forall c ds, exists e m,
  earth_pos_vel (A := A) (x_tdb c ds) = Val e /\ celestial_to_terrestrial (A := A) (x_tt c ds) (x_ut1 c ds) (sc_xp (A := A) c) (sc_yp (A := A) c) = Val m /\ sun_compute (A := A) c ds = Val (x_res c ds e m).
Proof.
  intros c ds. destruct (C39_no_panic_pf A) as (E & _ & _ & _ & _ & T).
  destruct (E (x_tdb c ds)) as [e He].
  destruct (T (x_tt c ds) (x_ut1 c ds) (sc_xp (A := A) c) (sc_yp (A := A) c)) as [m Hm].
  exists e, m. split; [exact He|]. split; [exact Hm|].
  unfold sun_compute. change (earth_pos_vel _) with (earth_pos_vel (x_tdb c ds)). rewrite He. cbn [bind].
  change (celestial_to_terrestrial _ _ _ _) with (celestial_to_terrestrial (x_tt c ds) (x_ut1 c ds) (sc_xp c) (sc_yp c)).
  rewrite Hm. cbn [bind]. reflexivity.
Qed.
End Compute.

Lemma scale_R : forall e, vscale (A := realA) (vneg (A := realA) e) (AUM (A := realA)) = sun_of e.
Proof.
  intros [x y z]. unfold vscale, vneg, sun_of, coord, AUM. cbn [v0 v1 v2 vget]. realA_ops. rlit_in_goal. f_equal; lra.
Qed.

Lemma degree_R : forall x, x * DEGREE (A := realA) = degrees x.
Proof. intros x. unfold DEGREE, degrees. realA_ops. rlit_in_goal. unfold Rdiv; lra. Qed.

Lemma zenith_R : forall pos, zenith (A := realA) (geodetic_of_360 (A := realA) pos) = zenith_of pos.
Proof.
  intros pos. unfold zenith, geodetic_of_360, zenith_of. cbn [phi elong]. realA_ops. rewrite !degree_R. reflexivity.
Qed.

Lemma zenith_unit : forall pos, sprod (zenith_of pos) (zenith_of pos) = 1.
Proof.
  intros pos. unfold sprod, coord, zenith_of. cbn [v0 v1 v2 vget].
  set (a := degrees (lat (A := realA) pos)). set (o := degrees (lon (A := realA) pos)).
  pose proof (sc1 a). pose proof (sc1 o). nra.
Qed.

(** C51, exact arithmetic, every parameter set and offset: [compute] returns;
    UTC is the Julian date plus the time of day plus the offset; TT - UTC =
    (dat + 32.184) s and UT1 - UTC = dut1 = -0.072073685 s; the Earth vector,
    the rotation angle and the celestial-to-terrestrial matrix are those of these
    times and of the polar motion (0.0349282", 0.4833163"). *)
Lemma C51_times_pf : forall p par c ds, sun_new (A := realA) p par = Val c ->
  exists r j0 j1, sun_compute (A := realA) c ds = Val r /\
  to_julian (A := realA) p (sp_date (A := realA) par) = Val (j0, j1) /\
  utc_total (A := realA) (sr_utc (A := realA) r) = j0 + j1 + (clock (sp_time (A := realA) par) + ds) / 86400 /\
  tt_total (A := realA) (sr_tt (A := realA) r) - utc_total (A := realA) (sr_utc (A := realA) r) =
    (sr_dat (A := realA) r + 32.184) / 86400 /\
  tai_total (A := realA) (sr_tai (A := realA) r) - utc_total (A := realA) (sr_utc (A := realA) r) =
    sr_dat (A := realA) r / 86400 /\
  ut1_total (A := realA) (sr_ut1 (A := realA) r) - utc_total (A := realA) (sr_utc (A := realA) r) =
    - 0.072073685 / 86400 /\
  (exists o, delta_at (A := realA) p (sp_date (A := realA) par) (clock (sp_time (A := realA) par) / 86400) = Val (Ok o) /\
     sr_dat (A := realA) r = match o with Some d => d | None => 0 end) /\
  sr_era (A := realA) r = rotation_angle (A := realA) (sr_ut1 (A := realA) r) /\
  sr_delta_s (A := realA) r = ds.
Proof.
  intros p par c ds H. apply sun_new_inv in H. destruct H as (j0 & j1 & o & wg & pos & Hj & Hd & _ & _ & Ec).
  destruct (sun_compute_eq c ds) as (e & m & _ & _ & Hr).
  assert (HF : hms_to_fraction (A := realA) (sp_time (A := realA) par) = clock (sp_time (A := realA) par) / 86400).
  { unfold hms_to_fraction, clock. realA_ops. rlit_in_goal. unfold Rdiv. lra. }
  rewrite HF in *.
  exists (x_res c ds e m), j0, j1. split; [exact Hr|]. split; [exact Hj|].
  unfold x_res. cbn [sr_utc sr_tt sr_tai sr_ut1 sr_dat sr_era sr_delta_s]. clear Hr.
  assert (E1 : sc_fr (A := realA) c = clock (sp_time (A := realA) par) / 86400) by (rewrite Ec; reflexivity).
  assert (E2 : sc_jd0 (A := realA) c = j0) by (rewrite Ec; reflexivity).
  assert (E3 : sc_jd1_date (A := realA) c = j1) by (rewrite Ec; reflexivity).
  assert (E4 : sc_dut1 (A := realA) c = - Rlit 72073685 (-9)) by (rewrite Ec; reflexivity).
  assert (E5 : sc_dat (A := realA) c = match o with Some d => d | None => 0 end).
  { rewrite Ec. cbn [sc_dat]. destruct o; [reflexivity|]. realA_ops. rlit_in_goal. lra. }
  clear Ec. unfold x_tt, x_tai, x_ut1, x_utc, x_fr.
  split; [|split; [|split; [|split; [|split; [|split; reflexivity]]]]].
  - unfold utc_total. cbn [utc_1 utc_2]. rewrite E1, E2, E3. realA_ops. rlit_in_goal. unfold Rdiv. lra.
  - unfold tt_total, utc_total, tt_from_tai, tai_from_utc, DTAT. cbn [utc_1 utc_2].
    repeat match goal with |- context [if ?b then _ else _] => destruct b end; cbn [tt_1 tt_2 tai_1 tai_2 utc_1 utc_2];
    realA_ops; rlit_in_goal; unfold Rdiv; lra.
  - unfold tai_total, utc_total, tai_from_utc. cbn [utc_1 utc_2].
    repeat match goal with |- context [if ?b then _ else _] => destruct b end; cbn [tai_1 tai_2 utc_1 utc_2];
    realA_ops; rlit_in_goal; unfold Rdiv; lra.
  - unfold ut1_total, utc_total. cbn [utc_1 utc_2 ut1_1 ut1_2]. rewrite E4. realA_ops. rlit_in_goal. unfold Rdiv. lra.
  - exists o. split; [exact Hd|exact E5].
Qed.

(** C51, the remaining fields: the two parts of the Julian date (the second
    carries the time of day and the offset), the two parts of UT1, and the WGS84
    position of the place. *)
Lemma C51_place_pf : forall p par c ds, sun_new (A := realA) p par = Val c ->
  exists r j0 j1, sun_compute (A := realA) c ds = Val r /\
  to_julian (A := realA) p (sp_date (A := realA) par) = Val (j0, j1) /\
  sr_jd0 (A := realA) r = j0 /\
  sr_jd1 (A := realA) r = j1 + (clock (sp_time (A := realA) par) + ds) / 86400 /\
  sr_utc (A := realA) r = MkUTC (A := realA) (sr_jd0 (A := realA) r) (sr_jd1 (A := realA) r) /\
  ut1_1 (A := realA) (sr_ut1 (A := realA) r) = sr_jd0 (A := realA) r /\
  sr_p (A := realA) r = wgs84_point (sp_position (A := realA) par).
Proof.
  intros p par c ds H. apply sun_new_inv in H. destruct H as (j0 & j1 & o & wg & pos & Hj & _ & Hw & Hp & Ec).
  destruct (sun_compute_eq c ds) as (e & m & _ & _ & Hr).
  exists (x_res c ds e m), j0, j1. split; [exact Hr|]. split; [exact Hj|].
  unfold x_res, x_ut1, x_utc. cbn [sr_jd0 sr_jd1 sr_utc sr_ut1 sr_p ut1_1]. clear Hr.
  assert (E2 : sc_jd0 (A := realA) c = j0) by (rewrite Ec; reflexivity).
  assert (EP : sc_p (A := realA) c = pos) by (rewrite Ec; reflexivity).
  assert (E3 : add realA (sc_jd1_date (A := realA) c) (x_fr c ds) = j1 + (clock (sp_time (A := realA) par) + ds) / 86400).
  { rewrite Ec. unfold x_fr. cbn [sc_jd1_date sc_fr]. unfold hms_to_fraction, clock. realA_ops. rlit_in_goal. unfold Rdiv. lra. }
  rewrite E2, E3, EP. split; [reflexivity|]. split; [reflexivity|]. split; [reflexivity|]. split; [reflexivity|].
  clear - Hw Hp. unfold WGS84 in Hw. realA_ops.
  replace (Rlit 1 0 / Rlit 298257223563 (-9)) with (1 / 298.257223563) in Hw by (rlit_in_goal; lra).
  replace (Rlit 6378137 0) with 6378137 in Hw by (rlit_in_goal; lra).
  apply conv_new_ok_inv in Hw. destruct Hw as (Hf & _ & ->).
  unfold geodetic_of_360 in Hp. rewrite to_gc_R in Hp by exact Hf. cbv zeta in Hp. realA_ops. rewrite !degree_R in Hp.
  unfold wgs84_point. cbv zeta.
  set (la := degrees (lat (A := realA) (sp_position (A := realA) par))) in *.
  set (lo := degrees (lon (A := realA) (sp_position (A := realA) par))) in *.
  unfold uu, dd in Hp. set (w := 1 - 1 / 298.257223563) in *. clearbody la lo w.
  replace (cos la * cos la + w * w * (sin la * sin la)) with (cos la ^ 2 + w ^ 2 * sin la ^ 2) in Hp by ring.
  assert (OI : forall (X Y : Type) (a b : X), @Ok X Y a = Ok b -> a = b) by congruence.
  apply OI in Hp. rewrite <- Hp. change (num realA) with R. unfold Rdiv. f_equal; ring.
Qed.

(** C51: the Sun vector is the Earth vector of that TT, reversed, in metres and
    turned by the celestial-to-terrestrial matrix acting on columns; its length
    is AU |earth|; the angle is in [0, pi] and is the angle between the zenith
    (a unit vector, from the latitude and longitude in degrees) and the Sun. *)
Lemma C51_geometry_pf : forall p par c ds, sun_new (A := realA) p par = Val c ->
  exists r e m, sun_compute (A := realA) c ds = Val r /\
  (exists d, earth_pos_vel (A := realA) d = Val e /\
     tdb_1 (A := realA) d + tdb_2 (A := realA) d = tt_total (A := realA) (sr_tt (A := realA) r)) /\
  sr_earth (A := realA) r = pv_p (A := realA) (heliocentric (A := realA) e) /\
  celestial_to_terrestrial (A := realA) (sr_tt (A := realA) r) (sr_ut1 (A := realA) r)
    (arcsec 0.0349282) (arcsec 0.4833163) = Val m /\
  is_column_image m (sun_of (sr_earth (A := realA) r)) (sr_sun_e (A := realA) r) /\
  length3 (sr_sun_e (A := realA) r) = 149597870700 * length3 (sr_earth (A := realA) r) /\
  length3 (zenith_of (sp_position (A := realA) par)) = 1 /\
  0 <= sr_sza (A := realA) r <= PI /\
  sprod (zenith_of (sp_position (A := realA) par)) (sr_sun_e (A := realA) r) =
    length3 (sr_sun_e (A := realA) r) * cos (sr_sza (A := realA) r).
Proof.
  intros p par c ds H. apply sun_new_inv in H. destruct H as (j0 & j1 & o & wg & pos & Hj & Hd & _ & _ & Ec).
  destruct (sun_compute_eq c ds) as (e & m & He & Hm & Hr).
  assert (HZ : sc_zen (A := realA) c = zenith_of (sp_position (A := realA) par)).
  { rewrite Ec. cbn [sc_zen]. apply zenith_R. }
  assert (HX : sc_xp (A := realA) c = arcsec 0.0349282).
  { rewrite Ec. unfold arcsec. cbn [sc_xp]. realA_ops. rlit_in_goal. lra. }
  assert (HY : sc_yp (A := realA) c = arcsec 0.4833163).
  { rewrite Ec. unfold arcsec. cbn [sc_yp]. realA_ops. rlit_in_goal. lra. }
  assert (HD : sc_dtr (A := realA) c = 0).
  { rewrite Ec. cbn [sc_dtr]. realA_ops. rlit_in_goal. lra. }
  clear Ec Hd Hj. rewrite HX, HY in Hm.
  exists (x_res c ds e m), e, m. split; [exact Hr|]. clear Hr. 
  unfold x_res. cbn [sr_utc sr_tt sr_tai sr_ut1 sr_dat sr_era sr_delta_s sr_earth sr_sun_e sr_sza].
  rewrite HZ, scale_R.
  destruct (C35_frames_proper_pf) as (_ & _ & _ & _ & _ & _ & PT).
  destruct (PT (x_tt c ds) (x_ut1 c ds) (arcsec 0.0349282) (arcsec 0.4833163)) as (m' & Hm' & Pm).
  assert (EM : m' = m) by (rewrite Hm in Hm'; injection Hm'; auto). subst m'. clear Hm' PT.
  set (ea := pv_p (A := realA) (heliocentric (A := realA) e)) in *.
  set (se := mapply (A := realA) (mtranspose (A := realA) m) (sun_of ea)) in *.
  assert (HL : sprod se se = 149597870700 * 149597870700 * sprod ea ea).
  { unfold se. rewrite (C32_apply_isometry_partial_pf (mtranspose (A := realA) m)); [|apply proper_transpose; exact Pm].
    unfold sprod, sun_of, coord. cbn [vget v0 v1 v2]. realA_ops. ring. }
  assert (HN : 0 <= sprod ea ea).
  { unfold sprod. pose proof (Rle_0_sqr (coord ea I0)). pose proof (Rle_0_sqr (coord ea I1)). pose proof (Rle_0_sqr (coord ea I2)). unfold Rsqr in *. lra. }
  split; [|split; [reflexivity|split; [exact Hm|split; [|split; [|split; [|split]]]]]].
  - exists (x_tdb c ds). split; [exact He|].
    unfold x_tdb, tdb_from_tt, tt_total. rewrite HD.
    destruct (ltb realA _ _); cbn [tdb_1 tdb_2]; unfold D2S; realA_ops; rlit_in_goal; unfold Rdiv; lra.
  - pose proof (C32_apply_row_partial_pf (mtranspose (A := realA) m) (midentity (A := realA)) (sun_of ea)) as (_ & CI & _).
    fold se in CI. intros i. specialize (CI i). rewrite !mtranspose_entry in CI. exact CI.
  - unfold length3. rewrite HL. rewrite sqrt_mult by lra. rewrite sqrt_square by lra. reflexivity.
  - unfold length3. rewrite zenith_unit. apply sqrt_1.
  - rewrite vangle_R. apply acos_bound.
  - destruct (Req_dec (sprod se se) 0) as [Z|NZ].
    + assert (Z3 : coord se I0 = 0 /\ coord se I1 = 0 /\ coord se I2 = 0).
      { unfold sprod in Z. pose proof (Rle_0_sqr (coord se I0)). pose proof (Rle_0_sqr (coord se I1)). pose proof (Rle_0_sqr (coord se I2)). unfold Rsqr in *.
        split; [|split]; apply Rsqr_0_uniq; unfold Rsqr; lra. }
      unfold length3. rewrite Z, sqrt_0. unfold sprod. destruct Z3 as (-> & -> & ->). ring.
    + destruct (C34_angle_partial_pf (zenith_of (sp_position (A := realA) par)) se) as [_ HA].
      * intros K. pose proof (zenith_unit (sp_position (A := realA) par)) as U. unfold sprod in U. rewrite !K in U. lra.
      * intros K. apply NZ. unfold sprod. rewrite !K. ring.
      * rewrite HA. rewrite zenith_unit, sqrt_1. unfold length3. ring.
Qed.

(** *** Panics of [new] *)

Lemma delta_at_not_rejected : forall (A : arith) p g (fd : num A), accepted g -> (year g < 178956970)%Z ->
  (ltb A fd (lit A 0 0)) || (ltb A (lit A 1 0) fd) = false ->
  exists o, delta_at (A := A) p g fd = Val (Ok o).
Proof.
  intros A p g fd Hg Hy Hf. pose proof (C24_delta_at_no_panic_pf A p g fd Hg Hy) as NP.
  destruct (accepted_month g Hg) as (M & _ & Y).
  destruct (Z_lt_le_dec (year g) 1960) as [L|L].
  - exists None. unfold delta_at. rewrite Hf.
    change (index DAT_DATA 0) with (Val (MkDat 1960 1 (1417818, (-6)) (Some ((37300, 0), (1296, (-6)))))%Z).
    cbn [bind d_year]. destruct (Z.ltb_spec (year g) 1960); [reflexivity|lia].
  - destruct (delta_at_eval A p g fd Hf) as (e & _ & E); [lia|lia|]. rewrite E in *.
    destruct (d_drift e) as [[oo rr]|]; [|eexists; reflexivity].
    destruct (to_mjd p g) as [n|]; [|contradiction NP; reflexivity]. cbn [bind]. eexists; reflexivity.
Qed.

Lemma sun_new_ok : forall (A : arith) p par jj o wg x,
  to_julian (A := A) p (sp_date (A := A) par) = Val jj ->
  delta_at (A := A) p (sp_date (A := A) par) (hms_to_fraction (A := A) (sp_time (A := A) par)) = Val (Ok o) ->
  conv_new (A := A) (WGS84 (A := A)) = Ok wg ->
  geodetic_to_geocentric (A := A) wg (geodetic_of_360 (A := A) (sp_position (A := A) par)) = Ok x ->
  exists c, sun_new (A := A) p par = Val c.
Proof.
  intros A p par [j0 j1] o wg x H1 H2 H3 H4. unfold sun_new. rewrite H1. cbn [bind]. rewrite H2. cbn [bind expect].
  rewrite H3. cbn [bind expect]. rewrite H4. cbn [bind expect]. eexists; reflexivity.
Qed.

Lemma sun_new_bad : forall (A : arith) p par,
  (let fd := hms_to_fraction (A := A) (sp_time (A := A) par) in
   (ltb A fd (lit A 0 0)) || (ltb A (lit A 1 0) fd) = true) ->
  sun_new (A := A) p par = Panic.
Proof.
  intros A p par H. unfold sun_new. destruct (to_julian p (sp_date par)) as [[j0 j1]|]; [|reflexivity]. cbn [bind].
  unfold delta_at. rewrite H. reflexivity.
Qed.

Lemma to_julian_ok : forall (A : arith) p g, accepted g -> civil_lt (of_date g) (1465073, 3, 1)%Z ->
  exists jj, to_julian (A := A) p g = Val jj.
Proof.
  intros A p g Hg Hl.
  assert (Y : (year g <= i32_max)%Z).
  { unfold civil_lt, of_date in Hl. change i32_max with 2147483647%Z. lia. }
  destruct (C04_to_julian_no_overflow_partial_pf A g Hg Y) as [D RL]. specialize (RL Hl).
  destruct (to_julian (A := A) Debug g) as [jj|] eqn:E.
  - exists jj. destruct p; [exact E|exact RL].
  - exfalso. apply (proj1 D eq_refl), Hl.
Qed.

Lemma wgs84_R : exists a f, conv_new (A := realA) (WGS84 (A := realA)) = Ok (convR a f) /\ 0 <= f < 1.
Proof.
  exists (Rlit 6378137 0), (Rlit 1 0 / Rlit 298257223563 (-9)). 
  assert (0 <= Rlit 1 0 / Rlit 298257223563 (-9) < 1).
  { unfold Rlit. change (1 * 10 ^ 0)%Z with 1%Z. change (Z.pow_pos 10 9) with 1000000000%Z. replace (1 / (298257223563 / 1000000000)) with (1000000000 / 298257223563) by field; lra. }
  split; [|exact H]. unfold WGS84. realA_ops. apply conv_new_R; [exact H|]. rewrite Rlit_0. apply IZR_le. lia.
Qed.

Lemma rejected_R : forall x : R, (ltb realA x (lit realA 0 0)) || (ltb realA (lit realA 1 0) x) = false <-> 0 <= x <= 1.
Proof.
  intros x. realA_ops. rewrite !Rlit_0. destruct (Rlt_bool_spec x 0), (Rlt_bool_spec 1 x); cbn [orb]; split; intros; try lra; try discriminate; try reflexivity.
Qed.

Lemma fraction_R : forall x : HMS realA, hms_to_fraction (A := realA) x = clock x / 86400.
Proof. intros x. unfold hms_to_fraction, clock. realA_ops. rlit_in_goal. unfold Rdiv. lra. Qed.

(** C51.  The default request is 2007-04-05 00:00:00 at 120 degrees west on the equator at
    height zero, in exact arithmetic and in binary64. *)
Lemma C51_default_pf :
  sun_default (A := realA) = MkSAP (A := realA) (MkDate 2007 4 5) (MkHMS (A := realA) 0 0 0) (MkG360 (A := realA) (-120) 0 0) /\
  forall lm, exists s lo la h : b64,
    sun_default (A := b64A lm) = MkSAP (A := b64A lm) (MkDate 2007 4 5) (MkHMS (A := b64A lm) 0 0 s) (MkG360 (A := b64A lm) lo la h) /\
    fin s = true /\ fin lo = true /\ fin la = true /\ fin h = true /\ B2R s = 0 /\ B2R lo = -120 /\ B2R la = 0 /\ B2R h = 0.
Proof.
  split.
  - unfold sun_default. realA_ops. rlit_in_goal. repeat f_equal; lra.
  - intros lm. exists (Flit 0 0), (Bopp (Flit 120 0)), (Flit 0 0), (Flit 0 0). split; [reflexivity|].
    destruct (Flit_int 0 ltac:(lia)) as [V0 F0]. destruct (Flit_int 120 ltac:(lia)) as [V1 F1].
    assert (FN : fin (Bopp (Flit 120 0)) = true) by (vm_compute; reflexivity).
    assert (VN : B2R (Bopp (Flit 120 0)) = -120) by (rewrite B2R_Bopp, V1; lra).
    repeat split; assumption.
Qed.

(** C51 covers the default parameters of the library; there dat = 33 s, and the
    Earth-Sun distance is about 1 AU, so there is a Sun direction. *)
Example C51_example_pf : forall p, exists c, sun_new (A := realA) p (sun_default (A := realA)) = Val c /\
  forall ds, -86400 <= ds <= 86400 -> exists r, sun_compute (A := realA) c ds = Val r /\
  sr_dat (A := realA) r = 33 /\ 0.96 <= length3 (sr_earth (A := realA) r) <= 1.04.
Proof.
  intros p.
  assert (CK : clock (sp_time (A := realA) (sun_default (A := realA))) = 0).
  { unfold clock, sun_default. cbn [sp_time hour minute second]. realA_ops. rlit_in_goal. lra. }
  assert (HF : hms_to_fraction (A := realA) (sp_time (A := realA) (sun_default (A := realA))) = 0).
  { rewrite fraction_R, CK. lra. }
  assert (HJ : to_julian (A := realA) p (sp_date (A := realA) (sun_default (A := realA))) = Val (Rlit 24000005 (-1), IZR 54195)).
  { cbn [sun_default sp_date]. destruct p; reflexivity. }
  assert (HD : delta_at (A := realA) p (sp_date (A := realA) (sun_default (A := realA))) 0 = Val (Ok (Some (Rlit 33 0)))).
  { unfold delta_at. rewrite (proj2 (rejected_R 0)) by lra. destruct p; reflexivity. }
  destruct wgs84_R as (a & f & HW & Hf).
  assert (HC : exists c, sun_new (A := realA) p (sun_default (A := realA)) = Val c).
  { eapply (sun_new_ok realA p (sun_default (A := realA)) _ (Some (Rlit 33 0)) (convR a f)); [exact HJ|rewrite HF; exact HD|exact HW|].
    unfold geodetic_of_360. apply to_gc_R. exact Hf. }
  destruct HC as [c HC]. exists c. split; [exact HC|]. intros ds Hds.
  destruct (C51_times_pf p _ c ds HC) as (r & j0 & j1 & H1 & H2 & H3 & H4 & _ & _ & (o & H5 & H6) & _).
  destruct (C51_geometry_pf p _ c ds HC) as (r' & e & m & G1 & (d & G2 & G3) & G4 & _).
  assert (ER : r' = r) by (rewrite H1 in G1; injection G1; auto). subst r'.
  exists r. split; [exact H1|].
  rewrite CK in *. replace (0 / 86400) with 0 in H5 by lra. rewrite HD in H5. injection H5 as <-.
  assert (E33 : sr_dat (A := realA) r = 33) by (rewrite H6; reflexivity).
  split; [exact E33|].
  rewrite HJ in H2. injection H2 as <- <-.
  assert (YR : Rabs (years d) <= 100).
  { unfold years. rewrite G3. apply Rabs_le. 
    assert (Rlit 24000005 (-1) = 2400000.5) by (unfold Rlit; change (Z.pow_pos 10 1) with 10%Z; lra).
    rewrite H, E33 in *. set (T := tt_total (A := realA) _) in *. set (U := utc_total (A := realA) _) in *. lra. }
  destruct (C43_distance_pf d YR) as (e' & K1 & K2).
  assert (EE : e' = e) by (rewrite G2 in K1; injection K1; auto). subst e'.
  rewrite G4. exact K2.
Qed.

(** C52 is false: an hour of 25 (HMS is not validated) panics, in both profiles
    and in exact and binary64 arithmetic; so does, in debug builds, any accepted date from
    1465073-03-01 on. *)
Lemma C52_new_no_panic_refuted_pf :
  (forall p g pos, sun_new (A := realA) p (MkSAP (A := realA) g (MkHMS (A := realA) 25 0 0) pos) = Panic) /\
  (forall lm p g pos, sun_new (A := b64A lm) p
     (MkSAP (A := b64A lm) g (MkHMS (A := b64A lm) 25 0 (Flit 0 0)) pos) = Panic) /\
  (forall (A : arith) g t pos, accepted g -> (year g <= i32_max)%Z -> ~ civil_lt (of_date g) (1465073, 3, 1)%Z ->
     sun_new (A := A) Debug (MkSAP (A := A) g t pos) = Panic).
Proof.
  split; [|split].
  - intros p g pos. apply sun_new_bad. cbn [sp_time]. cbv zeta. rewrite fraction_R. unfold clock. cbn [hour minute second].
    destruct ((ltb realA _ _) || _) eqn:E; [reflexivity|]. apply rejected_R in E. lra.
  - intros lm p g pos. apply sun_new_bad. cbn [sp_time]. cbv zeta. unfold hms_to_fraction. cbn [hour minute second]. b64A_ops.
    vm_compute. reflexivity.
  - intros A g t pos Hg Hy Hl. unfold sun_new. cbn [sp_date].
    rewrite (proj2 (proj1 (C04_to_julian_no_overflow_partial_pf A g Hg Hy)) Hl). reflexivity.
Qed.

(** C52, exact arithmetic, dates before 1465073-03-01, both profiles and any
    position: [new] panics exactly when the clock reads less than 0 or more than 24 h. *)
Lemma C52_new_panics_partial_pf : forall p g t pos, accepted g -> civil_lt (of_date g) (1465073, 3, 1)%Z ->
  (sun_new (A := realA) p (MkSAP (A := realA) g t pos) = Panic <-> ~ (0 <= clock t <= 86400)).
Proof.
  intros p g t pos Hg Hl. split.
  - intros H K. destruct (to_julian_ok realA p g Hg Hl) as [jj HJ].
    assert (Y : (year g < 178956970)%Z) by (unfold civil_lt, of_date in Hl; lia).
    destruct (delta_at_not_rejected realA p g (hms_to_fraction (A := realA) t) Hg Y) as [o HD].
    { apply rejected_R. rewrite fraction_R. lra. }
    destruct wgs84_R as (a & f & HW & Hf).
    destruct (sun_new_ok realA p (MkSAP (A := realA) g t pos) jj o (convR a f) _ HJ HD HW (to_gc_R a f _ _ _ Hf)) as [c HC].
    rewrite HC in H. discriminate.
  - intros K. apply sun_new_bad. cbn [sp_time]. cbv zeta. rewrite fraction_R.
    destruct ((ltb realA _ _) || _) eqn:E; [reflexivity|]. apply rejected_R in E. contradiction K. lra.
Qed.

Lemma wgs84_w : let f := Fdiv (Flit 1 0) (Flit 298257223563 (-9)) in
  let w0 := Fsub (Flit 1 0) f in let w := Fmul w0 w0 in fin w = true /\ 0.99 <= B2R w <= 1.
Proof.
  cbv zeta. rewrite fin_SF, B2R_SF.
  set (x := B2SF _).
  let v := eval vm_compute in x in assert (E : x = v) by (vm_compute; reflexivity).
  rewrite E. split; [reflexivity|]. cbn [SF2R cond_Zopp Z.opp]. unfold F2R. cbn [Fnum Fexp].
  change (bpow radix2 (-53)) with (/ 9007199254740992). lra.
Qed.

Lemma wgs84_F : forall lm, exists c, conv_new (A := b64A lm) (WGS84 (A := b64A lm)) = Ok c /\
  el_f (A := b64A lm) (cv_el (A := b64A lm) c) = Fdiv (Flit 1 0) (Flit 298257223563 (-9)).
Proof.
  intros lm. unfold conv_new, WGS84. cbn [el_a el_f]. b64A_ops.
  repeat match goal with |- context [if ?b then _ else _] => replace b with false by (vm_compute; reflexivity); cbv iota end.
  eexists. split; reflexivity.
Qed.

Lemma sq_part : forall x : b64, fin x = true -> Rabs (B2R x) <= 1 ->
  fin (Fmul x x) = true /\ B2R (Fmul x x) = rnd (B2R x * B2R x) /\ 0 <= B2R (Fmul x x) <= 1.
Proof.
  intros x Fx Bx.
  assert (P : 0 <= B2R x * B2R x <= 1).
  { split; [apply Rle_0_sqr|]. apply Rabs_le_inv in Bx. nra. }
  destruct (Fmul_ok x x Fx Fx) as [E F].
  { apply (small_le _ 0); [lia|]. change (bpow radix2 0) with 1. apply Rabs_le. lra. }
  split; [exact F|]. split; [exact E|]. rewrite E. split; [apply rnd_ge; [apply (format_IZR 0); lia|lra]|apply rnd_le; [apply (format_IZR 1); lia|lra]].
Qed.

Lemma d_positive : forall cp sp w : b64, fin cp = true -> fin sp = true -> fin w = true -> 0.99 <= B2R w <= 1 ->
  Rabs (B2R cp) <= 1 -> Rabs (B2R sp) <= 1 -> 1 / 2 <= Rabs (B2R cp) \/ 1 / 2 <= Rabs (B2R sp) ->
  Bltb (Flit 0 0) (Fadd (Fmul cp cp) (Fmul (Fmul w sp) sp)) = true.
Proof.
  intros cp sp w Fc Fs Fw Bw Bc Bs H.
  destruct (sq_part cp Fc Bc) as (F1 & E1 & B1).
  assert (P1 : Rabs (B2R w * B2R sp) <= 1).
  { rewrite Rabs_mult. rewrite (Rabs_pos_eq (B2R w)) by lra. pose proof (Rabs_pos (B2R sp)). nra. }
  destruct (Fmul_ok w sp Fw Fs) as [E2 F2].
  { apply (small_le _ 0); [lia|]. exact P1. }
  set (ws := Fmul w sp) in *.
  assert (P2 : Rabs (B2R ws) <= 1) by (rewrite E2; apply rnd_abs_le; [apply (format_IZR 1); lia|exact P1]).
  pose proof (rnd_error (B2R w * B2R sp) 0 ltac:(lia) P1) as R2. rewrite <- E2 in R2.
  change (bpow radix2 (0 - 53)) with (/ 9007199254740992) in R2 || (change (bpow radix2 _) with (/ 9007199254740992) in R2). 
  assert (P3 : Rabs (B2R ws * B2R sp) <= 1).
  { rewrite Rabs_mult. pose proof (Rabs_pos (B2R sp)). pose proof (Rabs_pos (B2R ws)). nra. }
  destruct (Fmul_ok ws sp F2 Fs) as [E3 F3].
  { apply (small_le _ 0); [lia|]. exact P3. }
  assert (P4 : 0 <= B2R ws * B2R sp).
  { destruct (Rle_dec 0 (B2R sp)) as [K|K].
    - apply Rmult_le_pos; [|exact K]. rewrite E2. apply rnd_ge; [apply (format_IZR 0); lia|]. apply Rmult_le_pos; lra.
    - assert (B2R ws <= 0). { rewrite E2. apply rnd_le; [apply (format_IZR 0); lia|]. nra. } nra. }
  set (t := Fmul ws sp) in *.
  assert (P5 : 0 <= B2R t <= 1).
  { rewrite E3. apply Rabs_le_inv in P3. split; [apply rnd_ge; [apply (format_IZR 0); lia|lra]|apply rnd_le; [apply (format_IZR 1); lia|lra]]. }
  destruct (Fadd_ok (Fmul cp cp) t F1 F3) as [E4 F4].
  { apply (small_le _ 1); [lia|]. change (bpow radix2 1) with 2. apply Rabs_le. lra. }
  destruct lit_0 as [Z0 FZ0].
  rewrite (Bltb_correct 53 1024 _ _ FZ0 F4), Z0. apply Rlt_bool_true.
  apply Rlt_le_trans with (/ 8); [lra|]. rewrite E4.
  assert (FM : format (/ 8)).
  { change (/ 8) with (bpow radix2 (-3)). apply generic_format_bpow. unfold FLT_exp. lia. }
  apply rnd_ge; [exact FM|].
  destruct H as [H|H].
  - assert (/ 8 <= B2R (Fmul cp cp)); [|lra]. rewrite E1. apply rnd_ge; [exact FM|].
    rewrite <- (Rabs_pos_eq (B2R cp * B2R cp)) by apply Rle_0_sqr. rewrite Rabs_mult. nra.
  - assert (/ 8 <= B2R t); [|lra]. rewrite E3. apply rnd_ge; [exact FM|].
    assert (K : Rabs (B2R w * B2R sp) = B2R w * Rabs (B2R sp)).
    { rewrite Rabs_mult. rewrite (Rabs_pos_eq (B2R w)) by lra. reflexivity. }
    assert (K2 : 0.4 <= Rabs (B2R ws)).
    { pose proof (Rabs_triang_inv (B2R w * B2R sp) (B2R w * B2R sp - B2R ws)) as T.
      replace (B2R w * B2R sp - (B2R w * B2R sp - B2R ws)) with (B2R ws) in T by ring.
      rewrite K in T. rewrite Rabs_minus_sym in R2. nra. }
    rewrite <- (Rabs_pos_eq (B2R ws * B2R sp)) by exact P4. rewrite Rabs_mult. nra.
Qed.

(** C52, binary64: no panic for accepted dates before 1465073-03-01, hours,
    minutes and seconds in their usual ranges, and any position at which the
    platform's sine and cosine of the latitude are sensible: finite, at most 1,
    and not both below 1/2. *)
Lemma C52_new_no_panic_b64_partial_pf : forall lm p g h m s pos, accepted g -> civil_lt (of_date g) (1465073, 3, 1)%Z ->
  (0 <= h < 24)%Z -> (0 <= m < 60)%Z -> fin s = true -> 0 <= B2R s < 60 ->
  (let x := phi (A := b64A lm) (geodetic_of_360 (A := b64A lm) pos) in
   fin (lm_sin lm x) = true /\ fin (lm_cos lm x) = true /\
   Rabs (B2R (lm_sin lm x)) <= 1 /\ Rabs (B2R (lm_cos lm x)) <= 1 /\
   (1 / 2 <= Rabs (B2R (lm_cos lm x)) \/ 1 / 2 <= Rabs (B2R (lm_sin lm x)))) ->
  exists c, sun_new (A := b64A lm) p (MkSAP (A := b64A lm) g (MkHMS (A := b64A lm) h m s) pos) = Val c.
Proof.
  intros lm p g h m s pos Hg Hl Hh Hm Fs Bs HP.
  destruct (to_julian_ok (b64A lm) p g Hg Hl) as [jj HJ].
  assert (Y : (year g < 178956970)%Z) by (unfold civil_lt, of_date in Hl; lia).
  destruct (delta_at_not_rejected (b64A lm) p g (hms_to_fraction (A := b64A lm) (MkHMS (A := b64A lm) h m s)) Hg Y) as [o HD].
  { destruct (C18_hms_roundtrip_b64_partial_pf lm h m s Hh Hm Fs Bs) as (h' & m' & s' & E & _).
    unfold hms_from_fraction in E.
    match goal with |- ?b = false => destruct b eqn:K end; [|reflexivity]. 
    discriminate E. }
  destruct (wgs84_F lm) as (c & HW & Ef).
  assert (HG : exists x, geodetic_to_geocentric (A := b64A lm) c (geodetic_of_360 (A := b64A lm) pos) = Ok x).
  { unfold geodetic_to_geocentric. rewrite Ef. set (x := phi (A := b64A lm) _) in *. cbv zeta in HP.
    destruct HP as (H1 & H2 & H3 & H4 & H5). destruct wgs84_w as [W1 W2]. cbv zeta in W1, W2.
    b64A_ops. rewrite (d_positive _ _ _ H2 H1 W1 W2 H4 H3 H5). eexists. reflexivity. }
  destruct HG as [x HG].
  exact (sun_new_ok (b64A lm) p (MkSAP (A := b64A lm) g (MkHMS (A := b64A lm) h m s) pos) jj o c x HJ HD HW HG).
Qed.

(** The hypotheses of C52 hold for the default parameters; 24:00:00 is still
    accepted, 24:00:01 is not. *)
Example C52_example_pf : accepted (MkDate 2007 4 5) /\ civil_lt (of_date (MkDate 2007 4 5)) (1465073, 3, 1)%Z /\
  (forall p pos, sun_new (A := realA) p (MkSAP (A := realA) (MkDate 2007 4 5) (MkHMS (A := realA) 24 0 0) pos) <> Panic) /\
  (forall p pos, sun_new (A := realA) p (MkSAP (A := realA) (MkDate 2007 4 5) (MkHMS (A := realA) 24 0 1) pos) = Panic).
Proof.
  assert (H1 : accepted (MkDate 2007 4 5)) by reflexivity.
  assert (H2 : civil_lt (of_date (MkDate 2007 4 5)) (1465073, 3, 1)%Z) by (left; reflexivity).
  split; [exact H1|]. split; [exact H2|]. split; intros p pos.
  - rewrite (C52_new_panics_partial_pf p _ _ pos H1 H2). unfold clock. cbn [hour minute second]. lra.
  - apply (C52_new_panics_partial_pf p _ _ pos H1 H2). unfold clock. cbn [hour minute second]. lra.
Qed.

(** C53, exact arithmetic: two calculators for the same date and place, with
    the same dat, whose clocks plus offsets agree, give the same result in every
    field but the offset itself.  (Taking ds' = 0: an offset of ds seconds is a
    clock ds seconds later.) *)
Lemma C53_offset_is_shift_pf : forall p par par' c c' ds ds',
  sun_new (A := realA) p par = Val c -> sun_new (A := realA) p par' = Val c' ->
  sp_date (A := realA) par = sp_date (A := realA) par' -> sp_position (A := realA) par = sp_position (A := realA) par' ->
  clock (sp_time (A := realA) par) + ds = clock (sp_time (A := realA) par') + ds' ->
  sc_dat (A := realA) c = sc_dat (A := realA) c' ->
  exists r r', sun_compute (A := realA) c ds = Val r /\ sun_compute (A := realA) c' ds' = Val r' /\
  sr_jd0 (A := realA) r = sr_jd0 (A := realA) r' /\ sr_jd1 (A := realA) r = sr_jd1 (A := realA) r' /\
  sr_p (A := realA) r = sr_p (A := realA) r' /\ sr_utc (A := realA) r = sr_utc (A := realA) r' /\
  sr_dat (A := realA) r = sr_dat (A := realA) r' /\ sr_tai (A := realA) r = sr_tai (A := realA) r' /\
  sr_tt (A := realA) r = sr_tt (A := realA) r' /\ sr_ut1 (A := realA) r = sr_ut1 (A := realA) r' /\
  sr_era (A := realA) r = sr_era (A := realA) r' /\ sr_earth (A := realA) r = sr_earth (A := realA) r' /\
  sr_sun_e (A := realA) r = sr_sun_e (A := realA) r' /\ sr_sza (A := realA) r = sr_sza (A := realA) r'.
Proof.
  intros p par par' c c' ds ds' H H' ED EP EC EA.
  apply sun_new_inv in H. destruct H as (j0 & j1 & o & wg & pos & Hj & Hd & Hw & Hp & Ec).
  apply sun_new_inv in H'. destruct H' as (j0' & j1' & o' & wg' & pos' & Hj' & Hd' & Hw' & Hp' & Ec').
  rewrite <- ED in Hj'. rewrite Hj in Hj'. injection Hj' as <- <-.
  rewrite Hw in Hw'. injection Hw' as <-. rewrite <- EP in Hp'. rewrite Hp in Hp'. injection Hp' as <-.
  destruct (sun_compute_eq c ds) as (e & m & He & Hm & Hr).
  destruct (sun_compute_eq c' ds') as (e' & m' & He' & Hm' & Hr').
  exists (x_res c ds e m), (x_res c' ds' e' m'). split; [exact Hr|]. split; [exact Hr'|]. clear Hr Hr'.
  assert (F : x_fr c ds = x_fr c' ds').
  { unfold x_fr. rewrite Ec, Ec'. cbn [sc_fr]. rewrite !fraction_R. realA_ops. rlit_in_goal. unfold Rdiv.
    set (u := clock _) in *. set (u' := clock _) in *. lra. }
  assert (E0 : sc_jd0 (A := realA) c = sc_jd0 (A := realA) c') by (rewrite Ec, Ec'; reflexivity).
  assert (E1 : sc_jd1_date (A := realA) c = sc_jd1_date (A := realA) c') by (rewrite Ec, Ec'; reflexivity).
  assert (E2 : sc_dut1 (A := realA) c = sc_dut1 (A := realA) c') by (rewrite Ec, Ec'; reflexivity).
  assert (E3 : sc_dtr (A := realA) c = sc_dtr (A := realA) c') by (rewrite Ec, Ec'; reflexivity).
  assert (E4 : sc_xp (A := realA) c = sc_xp (A := realA) c') by (rewrite Ec, Ec'; reflexivity).
  assert (E5 : sc_yp (A := realA) c = sc_yp (A := realA) c') by (rewrite Ec, Ec'; reflexivity).
  assert (E6 : sc_p (A := realA) c = sc_p (A := realA) c') by (rewrite Ec, Ec'; reflexivity).
  assert (E7 : sc_zen (A := realA) c = sc_zen (A := realA) c') by (rewrite Ec, Ec', EP; reflexivity).
  clear Ec Ec' Hd Hd' Hj Hw Hp.
  assert (U : x_utc c ds = x_utc c' ds') by (unfold x_utc; rewrite F, E0, E1; reflexivity).
  assert (TA : x_tai c ds = x_tai c' ds') by (unfold x_tai; rewrite U, EA; reflexivity).
  assert (T : x_tt c ds = x_tt c' ds') by (unfold x_tt; rewrite TA; reflexivity).
  assert (U1 : x_ut1 c ds = x_ut1 c' ds') by (unfold x_ut1; rewrite F, E0, E1, E2; reflexivity).
  assert (TD : x_tdb c ds = x_tdb c' ds') by (unfold x_tdb; rewrite T, E3; reflexivity).
  rewrite TD, He' in He. assert (e' = e) by (injection He; auto). subst e'. clear He He'.
  rewrite T, U1, E4, E5, Hm' in Hm. assert (m' = m) by (injection Hm; auto). subst m'. clear Hm Hm'.
  unfold x_res. cbn [sr_jd0 sr_jd1 sr_p sr_utc sr_tt sr_tai sr_ut1 sr_dat sr_era sr_earth sr_sun_e sr_sza].
  rewrite F, U, TA, T, U1, E0, E1, E6, E7, EA. repeat split.
Qed.

Lemma key_inj : forall l, sortedb l = true -> forall e e', In e l -> In e' l -> key e = key e' -> e = e'.
Proof.
  induction l as [|a l IH]; intros S e e' I I' K; [contradiction|].
  cbn [sortedb] in S. apply andb_true_iff in S. destruct S as [S1 S2]. rewrite forallb_forall in S1.
  destruct I as [->|I], I' as [->|I']; try reflexivity.
  - specialize (S1 e' I'). apply Z.ltb_lt in S1. lia.
  - specialize (S1 e I). apply Z.ltb_lt in S1. lia.
  - apply IH; assumption.
Qed.

Lemma selected_unique : forall g e e', selected g e -> selected g e' -> e = e'.
Proof.
  intros g e e' [I H] [I' H']. apply (key_inj DAT_DATA table_sorted e e' I I').
  pose proof (first_key e I) as K1. pose proof (first_key e' I') as K2.
  destruct H as [[H1 H2]|[H1 H2]], H' as [[H1' H2']|[H1' H2']]; try lia.
  specialize (H2 e' I' H1'). specialize (H2' e I H1). lia.
Qed.

(** C53: from February 1972 on the condition on dat holds by itself. *)
Lemma C53_same_dat_pf : forall p par par' c c',
  sun_new (A := realA) p par = Val c -> sun_new (A := realA) p par' = Val c' ->
  sp_date (A := realA) par = sp_date (A := realA) par' -> accepted (sp_date (A := realA) par) ->
  (12 * 1972 + 2 <= 12 * year (sp_date (A := realA) par) + month (sp_date (A := realA) par))%Z ->
  (year (sp_date (A := realA) par) < 178956970)%Z ->
  sc_dat (A := realA) c = sc_dat (A := realA) c'.
Proof.
  intros p par par' c c' H H' ED HA HM HY.
  apply sun_new_inv in H. destruct H as (j0 & j1 & o & wg & pos & _ & Hd & _ & _ & ->).
  apply sun_new_inv in H'. destruct H' as (j0' & j1' & o' & wg' & pos' & _ & Hd' & _ & _ & ->).
  cbn [sc_dat]. rewrite <- ED in Hd'. set (g := sp_date (A := realA) par) in *.
  destruct (accepted_month g HA) as (M & _ & Y).
  assert (K : forall fd o, delta_at (A := realA) p g fd = Val (Ok o) ->
    (ltb realA fd (lit realA 0 0)) || (ltb realA (lit realA 1 0) fd) = false).
  { intros fd oo E. unfold delta_at in E. destruct ((ltb realA fd _) || _); [discriminate|reflexivity]. }
  pose proof (K _ _ Hd) as K1. pose proof (K _ _ Hd') as K2.
  destruct (delta_at_eval realA p g _ K1) as (e & S1 & D1); [lia|lia|].
  destruct (delta_at_eval realA p g _ K2) as (e2 & S2 & D2); [lia|lia|].
  assert (e2 = e).
  { symmetry. exact (selected_unique g e e2 S1 S2). }
  subst e2.
  destruct (d_drift e) as [x|] eqn:DR.
  { exfalso. pose proof (selected_drift g e S1). rewrite DR in H. unfold mkey in H. specialize (H ltac:(discriminate)). lia. }
  rewrite D1 in Hd. rewrite D2 in Hd'. injection Hd as <-. injection Hd' as <-. reflexivity.
Qed.

(** 06:00:00 plus an hour and 07:00:00, on 2007 April 5: both calculators exist
    and the condition on dat holds. *)
Example C53_example_pf : forall p,
  let par h := MkSAP (A := realA) (MkDate 2007 4 5) (MkHMS (A := realA) h 0 0) (MkG360 (A := realA) (-120) 0 0) in
  exists c c', sun_new (A := realA) p (par 6%Z) = Val c /\ sun_new (A := realA) p (par 7%Z) = Val c' /\
  clock (sp_time (A := realA) (par 6%Z)) + 3600 = clock (sp_time (A := realA) (par 7%Z)) + 0 /\
  sc_dat (A := realA) c = sc_dat (A := realA) c' /\ sc_fr (A := realA) c <> sc_fr (A := realA) c'.
Proof.
  intros p par.
  assert (H1 : accepted (MkDate 2007 4 5)) by reflexivity.
  assert (H2 : civil_lt (of_date (MkDate 2007 4 5)) (1465073, 3, 1)%Z) by (left; reflexivity).
  assert (N : forall h, (0 <= h < 24)%Z -> exists c, sun_new (A := realA) p (par h) = Val c).
  { intros h Hh. destruct (sun_new (A := realA) p (par h)) as [c|] eqn:E; [exists c; reflexivity|].
    unfold par in E. rewrite (C52_new_panics_partial_pf p _ _ _ H1 H2) in E. unfold clock in E. cbn [hour minute second] in E.
    assert (0 <= IZR h <= 23) by (split; apply IZR_le; lia). contradiction E. lra. }
  destruct (N 6%Z) as [c Hc]; [lia|]. destruct (N 7%Z) as [c' Hc']; [lia|].
  exists c, c'. split; [exact Hc|]. split; [exact Hc'|]. split; [|split].
  - unfold par, clock. cbn [sp_time hour minute second]. lra.
  - apply (C53_same_dat_pf p _ _ c c' Hc Hc'); cbn [par sp_date year month]; try reflexivity; lia.
  - apply sun_new_inv in Hc. destruct Hc as (? & ? & ? & ? & ? & _ & _ & _ & _ & ->).
    apply sun_new_inv in Hc'. destruct Hc' as (? & ? & ? & ? & ? & _ & _ & _ & _ & ->).
    cbn [sc_fr]. rewrite !fraction_R. unfold par, clock. cbn [sp_time hour minute second]. lra.
Qed.

(** *** The scan loop of sun_angle_tool *)

(** C56, exact arithmetic, positive step: the loop ends, having evaluated
    exactly the values delta0 + k step that are <= delta1, in order. *)
Lemma C56_scan_pf : forall d0 d1 step, 0 < step ->
  exists n, (forall fuel, (n <= fuel)%nat -> scan_offsets (A := realA) fuel true d0 d1 step = Some (progression d0 step n)) /\
  (forall k, (k < n)%nat <-> d0 + INR k * step <= d1).
Proof.
  intros d0 d1 step Hs.
  assert (G : forall n d0, d1 < d0 + INR n * step -> (forall k, (k < n)%nat -> d0 + INR k * step <= d1) ->
    forall fuel, (n <= fuel)%nat -> scan_offsets (A := realA) fuel true d0 d1 step = Some (progression d0 step n)).
  { clear d0. induction n as [|n IH]; intros d0 H1 H2 fuel Hf.
    - cbn [INR] in H1. destruct fuel; cbn [scan_offsets]; realA_ops; (destruct (Rle_bool_spec d0 d1); [lra|reflexivity]).
    - destruct fuel as [|fuel]; [lia|]. cbn [scan_offsets]. realA_ops.
      destruct (Rle_bool_spec d0 d1) as [L|L]; [|specialize (H2 0%nat ltac:(lia)); cbn [INR] in H2; lra].
      cbn [negb]. rewrite (IH (d0 + step)).
      + cbn [option_map]. f_equal. unfold progression. cbn [seq map]. f_equal; [cbn [INR]; lra|].
        rewrite <- seq_shift, map_map. apply map_ext. intros k. rewrite S_INR. lra.
      + rewrite S_INR in H1. lra.
      + intros k Hk. specialize (H2 (S k) ltac:(lia)). rewrite S_INR in H2. lra.
      + lia. }
  destruct (Rlt_le_dec d1 d0) as [L|L].
  - exists 0%nat. split.
    + intros fuel Hf. apply G; [cbn [INR]; lra| |exact Hf]. intros k Hk. lia.
    + intros k. split; [lia|]. intros H. pose proof (pos_INR k). nra.
  - set (q := (d1 - d0) / step). 
    assert (Q : 0 <= q) by (unfold q; apply Rmult_le_pos; [lra|apply Rlt_le, Rinv_0_lt_compat, Hs]).
    assert (QE : q * step = d1 - d0) by (unfold q; field; lra).
    assert (Z : (0 <= Zfloor q)%Z) by (apply Zfloor_lub; exact Q).
    pose proof (Zfloor_lb q) as LB. pose proof (Zfloor_ub q) as UB.
    assert (NE : INR (Z.to_nat (Zfloor q)) = IZR (Zfloor q)) by (rewrite INR_IZR_INZ, Z2Nat.id by exact Z; reflexivity).
    assert (E : forall k, (k < S (Z.to_nat (Zfloor q)))%nat <-> d0 + INR k * step <= d1).
    { intros k. split; intros H.
      - assert (INR k <= INR (Z.to_nat (Zfloor q))) by (apply le_INR; lia). nra.
      - destruct (le_lt_dec k (Z.to_nat (Zfloor q))) as [K|K]; [lia|]. exfalso.
        assert (INR (S (Z.to_nat (Zfloor q))) <= INR k) by (apply le_INR; lia). rewrite S_INR, NE in H0. nra. }
    exists (S (Z.to_nat (Zfloor q))). split; [|exact E].
    intros fuel Hf. apply G; [rewrite S_INR, NE; nra| |exact Hf]. intros k Hk. apply E, Hk.
Qed.

(** C56, any arithmetic: without scan exactly one evaluation, at delta0, or none when
    delta0 <= delta1 fails; never more. *)
Lemma C56_no_scan_pf : forall (A : arith) (d0 d1 step : num A) fuel, (1 <= fuel)%nat ->
  scan_offsets (A := A) fuel false d0 d1 step = Some (if leb A d0 d1 then [d0] else []).
Proof.
  intros A d0 d1 step [|fuel] H; [lia|]. cbn [scan_offsets negb]. destruct (leb A d0 d1); reflexivity.
Qed.

(** Outside C56: with a step <= 0 and delta0 <= delta1 the loop never ends (exact
    arithmetic), for every number of iterations. *)
Lemma C56_nonpositive_step_pf : forall d0 d1 step, step <= 0 -> d0 <= d1 ->
  forall fuel, scan_offsets (A := realA) fuel true d0 d1 step = None.
Proof.
  intros d0 d1 step Hs H fuel. revert d0 H. induction fuel as [|fuel IH]; intros d0 H; cbn [scan_offsets]; realA_ops.
  - destruct (Rle_bool_spec d0 d1); [reflexivity|lra].
  - destruct (Rle_bool_spec d0 d1); [|lra]. cbn [negb]. rewrite IH by lra. reflexivity.
Qed.

Lemma absorbed : forall lm (d0 d1 step : b64), Fadd d0 step = d0 -> Bleb d0 d1 = true ->
  forall fuel, scan_offsets (A := b64A lm) fuel true d0 d1 step = None.
Proof.
  intros lm d0 d1 step Ha H fuel. induction fuel as [|fuel IH]; cbn [scan_offsets]; b64A_ops; rewrite H; [reflexivity|].
  cbn [negb]. rewrite Ha, IH. reflexivity.
Qed.

(** C56 is false in binary64: a positive step can be absorbed by rounding, and
    then the loop never ends.  Here delta0 = 1e16, delta1 = 2e16, step = 1. *)
Lemma C56_absorbed_step_refuted_pf : forall lm fuel,
  scan_offsets (A := b64A lm) fuel true (Flit 1 16) (Flit 2 16) (Flit 1 0) = None.
Proof.
  intros lm. apply absorbed; [apply B2SF_inj; vm_compute; reflexivity|vm_compute; reflexivity].
Qed.

Lemma one_step : forall (d step : b64) M, fin d = true -> fin step = true -> bpow radix2 (-1000) <= B2R step ->
  Rabs (B2R d) <= M -> M <= 2251799813685248 * B2R step -> M <= bpow radix2 1000 -> B2R step <= bpow radix2 1000 ->
  fin (Fadd d step) = true /\
  Rabs (B2R (Fadd d step) - (B2R d + B2R step)) <= bpow radix2 (-52) * (M + B2R step) /\
  B2R d + B2R step / 4 <= B2R (Fadd d step).
Proof.
  intros d step M Fd Fs Hs Hd HM HM2 Hs2.
  assert (B : Rabs (B2R d + B2R step) <= M + B2R step).
  { pose proof (bpow_gt_0 radix2 (-1000)). apply Rabs_le_inv in Hd. apply Rabs_le. lra. }
  destruct (Fadd_ok d step Fd Fs) as [E F].
  { apply (small_le _ 1001); [lia|]. eapply Rle_trans; [exact B|]. change 1001%Z with (1 + 1000)%Z. rewrite bpow_plus. change (bpow radix2 1) with 2. lra. }
  split; [exact F|].
  pose proof (rnd_rel (B2R d + B2R step)) as RR. rewrite <- E in RR.
  assert (P1000 : bpow radix2 (-1074) <= bpow radix2 (-52) * bpow radix2 (-1000)).
  { rewrite <- bpow_plus. apply bpow_le. lia. }
  assert (P52 : bpow radix2 (-52) = / 4503599627370496) by reflexivity.
  assert (HMp : 0 <= M) by (pose proof (Rabs_pos (B2R d)); lra).
  assert (Q : Rabs (B2R (Fadd d step) - (B2R d + B2R step)) <= bpow radix2 (-52) * (M + B2R step)).
  { rewrite P52 in *. lra. }
  split; [exact Q|]. apply Rabs_le_inv in Q. rewrite P52 in Q. pose proof (bpow_gt_0 radix2 (-1000)). lra.
Qed.

Lemma sums_S : forall d step k, running_sum d step (S k) = running_sum (Fadd d step) step k.
Proof.
  intros d step k. unfold running_sum. induction k as [|k IH]; [reflexivity|]. cbn [Nat.iter nat_rect] in *. rewrite IH at 1. reflexivity.
Qed.

(** C56 in binary64, for steps that are not absorbed (a step of 2^-1000 or more,
    with |delta0| and |delta1| at most 2^51 steps): the loop ends; it evaluates the running
    binary64 sums of the step, exactly those up to the first one past delta1;
    and the k-th is within k 2^-52 (M + step) of delta0 + k step. *)
Lemma C56_scan_b64_partial_pf : forall lm (d0 d1 step : b64) M, fin d0 = true -> fin d1 = true -> fin step = true ->
  bpow radix2 (-1000) <= B2R step <= bpow radix2 1000 -> M <= bpow radix2 1000 ->
  Rabs (B2R d0) <= M -> Rabs (B2R d1) <= M -> M <= 2251799813685248 * B2R step ->
  exists n, (forall fuel, (n <= fuel)%nat ->
      scan_offsets (A := b64A lm) fuel true d0 d1 step = Some (map (running_sum d0 step) (seq 0 n))) /\
    (forall k, (k <= n)%nat -> fin (running_sum d0 step k) = true) /\
    (forall k, (k < n)%nat -> B2R (running_sum d0 step k) <= B2R d1) /\
    B2R d1 < B2R (running_sum d0 step n) /\
    (forall k, (k <= n)%nat -> Rabs (B2R (running_sum d0 step k) - (B2R d0 + INR k * B2R step))
       <= INR k * (bpow radix2 (-52) * (M + B2R step))).
Proof.
  intros lm d0 d1 step M F0 F1 Fs [Hs Hs2] HM2 H0 H1 HM.
  pose proof (bpow_gt_0 radix2 (-1000)) as P.
  assert (G : forall N d, fin d = true -> - M <= B2R d -> B2R d1 < B2R d + INR N * (B2R step / 4) ->
    exists n, (forall fuel, (n <= fuel)%nat ->
      scan_offsets (A := b64A lm) fuel true d d1 step = Some (map (running_sum d step) (seq 0 n))) /\
    (forall k, (k <= n)%nat -> fin (running_sum d step k) = true) /\
    (forall k, (k < n)%nat -> - M <= B2R (running_sum d step k) <= B2R d1) /\
    B2R d1 < B2R (running_sum d step n)).
  { assert (Z : forall d, fin d = true -> B2R d1 < B2R d ->
      exists n, (forall fuel, (n <= fuel)%nat ->
      scan_offsets (A := b64A lm) fuel true d d1 step = Some (map (running_sum d step) (seq 0 n))) /\
    (forall k, (k <= n)%nat -> fin (running_sum d step k) = true) /\
    (forall k, (k < n)%nat -> - M <= B2R (running_sum d step k) <= B2R d1) /\
    B2R d1 < B2R (running_sum d step n)).
    { intros d Fd L. exists 0%nat. split; [|split; [|split]].
      - intros fuel _. assert (EL : Bleb d d1 = false) by (rewrite (Bleb_correct 53 1024 d d1 Fd F1); apply Rle_bool_false, L).
        destruct fuel; cbn [scan_offsets]; b64A_ops; rewrite EL; reflexivity.
      - intros k Hk. replace k with 0%nat by lia. exact Fd.
      - intros k Hk. lia.
      - exact L. }
    induction N as [|N IH]; intros d Fd Bd HN.
    - cbn [INR] in HN. apply Z; [exact Fd|lra].
    - destruct (Rlt_le_dec (B2R d1) (B2R d)) as [L|L]; [apply Z; assumption|].
      assert (AB : Rabs (B2R d) <= M) by (apply Rabs_le; apply Rabs_le_inv in H1; lra).
      destruct (one_step d step M Fd Fs Hs AB HM HM2 Hs2) as (S1 & S2 & S3).
      destruct (IH (Fadd d step) S1) as (n & I1 & I2 & I3 & I4); [lra|rewrite S_INR in HN; lra|].
      exists (S n). split; [|split; [|split]].
      + intros fuel Hf. destruct fuel as [|fuel]; [lia|].
        assert (EL : Bleb d d1 = true) by (rewrite (Bleb_correct 53 1024 d d1 Fd F1); apply Rle_bool_true, L).
        cbn [scan_offsets]. b64A_ops. rewrite EL. cbn [negb]. rewrite I1 by lia. cbn [option_map seq map].
        f_equal. f_equal. rewrite <- seq_shift, map_map. apply map_ext. intros k. symmetry. apply sums_S.
      + intros k Hk. destruct k as [|k]; [exact Fd|]. rewrite sums_S. apply I2. lia.
      + intros k Hk. destruct k as [|k]; [exact (conj Bd L)|]. rewrite sums_S. apply I3. lia.
      + rewrite sums_S. exact I4. }
  assert (EN : exists N, B2R d1 < B2R d0 + INR N * (B2R step / 4)).
  { set (q := (B2R d1 - B2R d0) / (B2R step / 4)). exists (Z.to_nat (up q)).
    assert (QE : q * (B2R step / 4) = B2R d1 - B2R d0) by (unfold q; field; lra).
    pose proof (archimed q) as [A1 _].
    assert (q < INR (Z.to_nat (up q))).
    { rewrite INR_IZR_INZ. eapply Rlt_le_trans; [exact A1|]. apply IZR_le. lia. }
    nra. }
  destruct EN as [N EN].
  destruct (G N d0 F0) as (n & I1 & I2 & I3 & I4); [apply Rabs_le_inv in H0; lra|exact EN|].
  exists n. split; [exact I1|]. split; [exact I2|]. split; [intros k Hk; apply I3, Hk|]. split; [exact I4|].
  induction k as [|k IHk]; intros Hk.
  - cbn [INR]. change (running_sum d0 step 0) with d0. replace (B2R d0 - (B2R d0 + 0 * B2R step)) with 0 by ring. rewrite Rabs_R0. lra.
  - specialize (IHk ltac:(lia)). specialize (I3 k ltac:(lia)). specialize (I2 k ltac:(lia)).
    assert (AB : Rabs (B2R (running_sum d0 step k)) <= M) by (apply Rabs_le; apply Rabs_le_inv in H1; lra).
    destruct (one_step _ step M I2 Fs Hs AB HM HM2 Hs2) as (_ & S2 & _).
    change (running_sum d0 step (S k)) with (Fadd (running_sum d0 step k) step).
    rewrite S_INR. set (x := B2R (Fadd _ _)) in *. set (y := B2R (running_sum d0 step k)) in *.
    set (c := bpow radix2 (-52) * (M + B2R step)) in *.
    replace (x - (B2R d0 + (INR k + 1) * B2R step)) with ((x - (y + B2R step)) + (y - (B2R d0 + INR k * B2R step))) by ring.
    eapply Rle_trans; [apply Rabs_triang|]. lra.
Qed.

(** C56 in binary64 for every triple of numbers, NaN and infinities included: the
    values visited are the running sums, up to the first that is not <= delta1;
    the loop runs forever exactly when there is no such sum. *)
Lemma C56_scan_visits_b64_pf : forall lm (d0 d1 step : b64),
  (forall n, (forall k, (k < n)%nat -> Bleb (running_sum d0 step k) d1 = true) ->
     Bleb (running_sum d0 step n) d1 = false ->
     forall fuel, (n <= fuel)%nat ->
     scan_offsets (A := b64A lm) fuel true d0 d1 step = Some (map (running_sum d0 step) (seq 0 n))) /\
  ((forall fuel, scan_offsets (A := b64A lm) fuel true d0 d1 step = None) <->
   (forall k, Bleb (running_sum d0 step k) d1 = true)).
Proof.
  intros lm d0 d1 step. split; [|apply scan_forever].
  intros n H1 H2 fuel Hf. exact (scan_some lm d1 step n d0 H1 H2 fuel Hf).
Qed.

(** C56 in binary64, every positive finite step: the loop runs forever exactly when
    the running sum reaches, before passing delta1, a number to which adding the
    step changes nothing. *)
Lemma C56_forever_b64_partial_pf : forall lm (d0 d1 step : b64),
  fin d0 = true -> fin d1 = true -> fin step = true -> 0 < B2R step ->
  (forall fuel, scan_offsets (A := b64A lm) fuel true d0 d1 step = None) <->
  (exists k, (forall j, (j <= k)%nat -> Bleb (running_sum d0 step j) d1 = true) /\
             Fadd (running_sum d0 step k) step = running_sum d0 step k).
Proof. exact forever_iff_absorbed. Qed.

(** Outside C56, in binary64: with a step <= 0 and delta0 <= delta1 the loop never ends. *)
Lemma C56_nonpositive_step_b64_pf : forall lm (d0 d1 step : b64),
  fin step = true -> fin d1 = true -> B2R step <= 0 -> Bleb d0 d1 = true ->
  forall fuel, scan_offsets (A := b64A lm) fuel true d0 d1 step = None.
Proof. exact forever_nonpositive. Qed.

(** C56: the tool's default offsets, -600 to 600 in steps of 60, are 21; the
    binary64 hypotheses hold for them. *)
Example C56_example_pf :
  scan_offsets (A := realA) 21 true (-600) 600 60 = Some (progression (-600) 60 21) /\
  scan_offsets (A := realA) 20 true (-600) 600 60 = None /\
  bpow radix2 (-1000) <= B2R (Flit 60 0) <= bpow radix2 1000 /\ 600 <= 2251799813685248 * B2R (Flit 60 0).
Proof.
  split; [|split; [|split]].
  - destruct (C56_scan_pf (-600) 600 60 ltac:(lra)) as (n & H1 & H2).
    assert (n = 21%nat).
    { pose proof (proj2 (H2 20%nat)) as A1. pose proof (proj1 (H2 21%nat)) as A2.
      rewrite INR_IZR_INZ in A1, A2. cbn [Z.of_nat Pos.of_succ_nat Pos.succ] in A1, A2. specialize (A1 ltac:(lra)).
      destruct (lt_dec 21 n) as [K|K]; [specialize (A2 K); lra|lia]. }
    subst n. apply H1. lia.
  - cbn [scan_offsets]. realA_ops. do 21 (rewrite Rle_bool_true by lra; cbn [negb]). reflexivity.
  - destruct lit_60 as [E _]. rewrite E. split.
    + apply Rle_trans with (bpow radix2 0); [apply bpow_le; lia|]. change (bpow radix2 0) with 1. lra.
    + apply Rle_trans with (bpow radix2 6); [change (bpow radix2 6) with 64; lra|apply bpow_le; lia].
  - destruct lit_60 as [E _]. rewrite E. lra.
Qed.
