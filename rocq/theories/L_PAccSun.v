(** * Accuracy of the Sun angle calculator in binary64: lemmas for the properties *)

From Coq Require Import ZArith Reals Lra Lia Bool List Psatz.
From Flocq Require Import Core BinarySingleNaN.
From Verif Require Import Outcome Arith ArithR ArithF Spec_Float Spec_Accuracy M_Common M_Calendar M_Time M_DeltaAt M_Earth M_Frames M_Ellipsoid M_SunAngle.
From Verif Require Import Spec_Calendar Spec_Api Spec_Matrix Spec_Frames Spec_Series Spec_Sun Spec_SunAcc.
From Verif Require Import L_ArithF L_ArithR L_Flit L_Matrix L_PMatrix L_PFrames L_PAngles L_Calendar L_PCalendar L_PTimeOfDay L_PDeltaAt L_Ellipsoid L_PSunAngle L_Apx L_ApxMod L_ApxAngle L_Fro L_ApxFrames L_ApxDat L_ApxVec L_ApxSun L_PAccuracy L_PAccGeo L_PAccDat.
Import ListNotations.
Open Scope R_scope.

(** ** Arc cosine of nearby numbers *)
Lemma sin_cubic : forall x, 0 <= x <= 1 -> x - x * x * x / 6 <= sin x.
Proof.
  intros x Hx. destruct (pre_sin_bound x 0 ltac:(lra) ltac:(lra)) as [L _].
  unfold sin_approx, sin_term in L. cbn in L. lra.
Qed.
Lemma cos_gap : forall a b, 0 <= a -> a <= b -> b <= PI -> 2 * (sin ((b - a) / 2) * sin ((b - a) / 2)) <= cos a - cos b.
Proof.
  intros a b A H Bp. set (u := (b - a) / 2). set (v := (a + b) / 2).
  assert (E : cos a - cos b = 2 * (sin v * sin u)).
  { replace a with (v - u) at 1 by (unfold u, v; field). replace b with (v + u) at 1 by (unfold u, v; field).
    rewrite cos_minus, cos_plus. ring. }
  rewrite E. assert (U : 0 <= u <= PI / 2) by (unfold u; lra). assert (SU : 0 <= sin u) by (apply sin_ge_0; pose proof PI_RGT_0; lra).
  assert (SV : sin u <= sin v).
  { destruct (Rle_lt_dec v (PI / 2)) as [L|L].
    - apply sin_incr_1; unfold u, v in *; lra.
    - rewrite <- (sin_PI_x v). apply sin_incr_1; unfold u, v in *; lra. }
  nra.
Qed.
Lemma cos_far : forall a b D e, 0 <= a <= PI -> 0 <= b <= PI -> 0 <= D <= 1 -> Rabs (cos a - cos b) <= e -> e < 2 * (5 / 12 * D * (5 / 12 * D)) -> Rabs (a - b) <= D.
Proof.
  assert (W : forall a b D e, 0 <= a -> a <= b -> b <= PI -> 0 <= D <= 1 -> Rabs (cos a - cos b) <= e -> e < 2 * (5 / 12 * D * (5 / 12 * D)) -> b - a <= D).
  { intros a b D e A H Bp HD E L. apply Rnot_lt_le. intros N. pose proof (cos_gap a b A H Bp) as K.
    assert (S1 : 5 / 12 * D <= sin (D / 2)) by (pose proof (sin_lower (D / 2) ltac:(lra)); lra).
    assert (S2 : sin (D / 2) <= sin ((b - a) / 2)) by (apply sin_incr_1; lra).
    apply Rabs_le_inv in E. nra. }
  intros a b D e A Bp HD E L. destruct (Rle_lt_dec a b) as [H|H].
  - pose proof (W a b D e ltac:(lra) H ltac:(lra) HD E L). apply Rabs_le. lra.
  - rewrite Rabs_minus_sym in E. pose proof (W b a D e ltac:(lra) ltac:(lra) ltac:(lra) HD E L). apply Rabs_le. lra.
Qed.
Lemma PI_3 : 3 < PI <= 4.
Proof. split; [pose proof L_Pi.PI_bounds_24; lra|apply PI_4]. Qed.
Lemma acos_fine : forall y th, 0 <= y <= PI -> 0.01 <= th <= PI - 0.01 -> Rabs (cos y - cos th) <= 5.9 / 10 ^ 10 ->
  Rabs (y - th) * sin th <= 5.91 / 10 ^ 10 /\ Rabs (y - th) <= 9 / 10 ^ 8.
Proof.
  intros y th Hy Ht E. pose proof PI_3 as P3.
  pose proof (cos_far y th (4.2 / 10 ^ 5) _ Hy ltac:(lra) ltac:(lra) E ltac:(lra)) as C.
  assert (ST : 1 / 120 <= sin th).
  { pose proof (sin_lower 0.01 ltac:(lra)) as S. destruct (Rle_lt_dec th (PI / 2)) as [L|L].
    - assert (sin 0.01 <= sin th) by (apply sin_incr_1; lra). lra.
    - rewrite <- (sin_PI_x th). assert (sin 0.01 <= sin (PI - th)) by (apply sin_incr_1; lra). lra. }
  set (d := y - th) in *. replace y with (th + d) in E by (unfold d; ring). rewrite cos_plus in E.
  pose proof (Rabs_pos d) as D0.
  assert (KC : 0 <= 1 - cos d <= Rabs d * Rabs d / 2).
  { assert (Ec : cos d = 1 - 2 * (sin (d / 2) * sin (d / 2))).
    { replace d with (2 * (d / 2)) at 1 by field. rewrite cos_2a_sin. ring. }
    pose proof (Rle_0_sqr (sin (d / 2))) as Q. unfold Rsqr in Q. rewrite Ec. split; [lra|].
    pose proof (L_Epv.sin_abs_le (d / 2)) as S. assert (Q2 : sin (d / 2) * sin (d / 2) = Rabs (sin (d / 2)) * Rabs (sin (d / 2))) by (rewrite <- Rabs_mult; symmetry; apply Rabs_pos_eq, Rle_0_sqr).
    replace (Rabs (d / 2)) with (Rabs d / 2) in S by (unfold Rdiv; rewrite Rabs_mult, (Rabs_pos_eq (/ 2)) by lra; reflexivity).
    pose proof (Rabs_pos (sin (d / 2))). rewrite Q2. nra. }
  assert (KS : Rabs d - Rabs d * Rabs d * Rabs d / 6 <= Rabs (sin d)).
  { assert (G : forall w, 0 <= w <= 1 -> w - w * w * w / 6 <= Rabs (sin w)) by (intros w Hw; pose proof (sin_cubic w Hw); pose proof (Rle_abs (sin w)); lra).
    unfold Rabs at 1 2 3 4. destruct (Rcase_abs d) as [N|N].
    - rewrite Rabs_left in C by exact N. specialize (G (- d) ltac:(lra)). rewrite sin_neg, Rabs_Ropp in G. exact G.
    - rewrite Rabs_right in C by exact N. apply (G d). lra. }
  assert (KE : sin th * Rabs (sin d) <= 5.9 / 10 ^ 10 + (1 - cos d)).
  { replace (sin th * Rabs (sin d)) with (Rabs (sin th * sin d)) by (rewrite Rabs_mult, (Rabs_pos_eq (sin th)) by lra; reflexivity).
    replace (sin th * sin d) with (- (cos th * cos d - sin th * sin d - cos th) + cos th * (cos d - 1)) by ring.
    eapply Rle_trans; [apply Rabs_triang|]. rewrite Rabs_Ropp. apply Rplus_le_compat; [exact E|].
    rewrite Rabs_mult. pose proof (L_SeriesR.cos_abs th). rewrite (Rabs_left1 (cos d - 1)) by lra. pose proof (Rabs_pos (cos th)). nra. }
  pose proof (L_SeriesR.sin_abs th) as SA. pose proof (Rle_abs (sin th)) as SB.
  set (x := Rabs d) in *. clearbody x. set (sd := Rabs (sin d)) in *. clearbody sd. clear E. set (q := sin th) in *. clearbody q. set (w := cos d) in *. clearbody w.
  assert (X2 : x * x <= 4.2 / 10 ^ 5 * x) by nra.
  assert (X3 : x * x * x <= 1 / 10 ^ 6 * x) by (assert (x * x * x <= 4.2 / 10 ^ 5 * x * x) by nra; nra).
  assert (F1 : x <= 9 / 10 ^ 8).
  { assert (q * x * (1 - 1 / 10 ^ 6) <= q * sd) by (assert (x * (1 - 1 / 10 ^ 6) <= sd) by lra; nra).
    assert (1 / 120 * x * (1 - 1 / 10 ^ 6) <= q * x * (1 - 1 / 10 ^ 6)) by (apply Rmult_le_compat_r; [lra|]; apply Rmult_le_compat_r; lra). lra. }
  split; [|exact F1].
  assert (X2' : x * x <= 81 / 10 ^ 16) by nra. assert (X3' : x * x * x <= 1 / 10 ^ 20) by (assert (x * x * x <= 81 / 10 ^ 16 * x) by nra; lra).
  assert (q * (x - 1 / 10 ^ 20) <= q * sd) by (apply Rmult_le_compat_l; lra). nra.
Qed.

(** ** The calculator *)
Lemma sun_new_cal : forall (A : arith) p g h m (s : num A) pos n o wg x,
  to_mjd p g = Val n ->
  delta_at (A := A) p g (hms_to_fraction (A := A) (MkHMS (A := A) h m s)) = Val (Ok o) ->
  conv_new (A := A) (WGS84 (A := A)) = Ok wg ->
  geodetic_to_geocentric (A := A) wg (geodetic_of_360 (A := A) pos) = Ok x ->
  sun_new (A := A) p (MkSAP (A := A) g (MkHMS (A := A) h m s) pos) =
    Val (cal A n match o with Some d => d | None => lit A 0 0 end (hms_to_fraction (A := A) (MkHMS (A := A) h m s)) x
           (zenith (A := A) (geodetic_of_360 (A := A) pos))).
Proof.
  intros A p g h m s pos n o wg x H1 H2 H3 H4. unfold sun_new. cbn [sp_date sp_time sp_position]. unfold to_julian. rewrite H1. cbn [bind].
  rewrite H2. cbn [bind expect]. rewrite H3. cbn [bind expect]. rewrite H4. cbn [bind expect]. reflexivity.
Qed.

Definition datd (A : arith) (o : option (num A)) : num A := match o with Some d => d | None => lit A 0 0 end.

Lemma dat_sun : forall lm p g fd fd', accepted g -> (year g < 178956970)%Z -> apx fd fd' b_fr1 ->
  (Bltb fd (Flit 0 0)) || (Bltb (Flit 1 0) fd) = false -> 0 <= fd' <= 1 ->
  exists x y, delta_at (A := b64A lm) p g fd = Val (Ok x) /\ delta_at (A := realA) p g fd' = Val (Ok y) /\
    apx (datd (b64A lm) x) (datd realA y) b_dat.
Proof.
  intros lm p g fd fd' Hg Hy Hf RF RR.
  destruct (dat_ok lm p g fd fd' _ b_dat Hg Hy Hf) as (x & y & Ex & Ey & _ & S); [vm_compute; reflexivity|exact RF|exact RR|].
  exists x, y. split; [exact Ex|]. split; [exact Ey|]. destruct x as [x|], y as [y|]; cbn [same_dat] in S; try contradiction S; unfold datd.
  - exact S.
  - eapply apx_weaken; [apply (apx_lit 0 0); reflexivity|reflexivity].
Qed.
Definition sun_env_real (n : Z) (fr ds dat : R) : Prop := (15385 <= n <= 87704)%Z /\ 0 <= fr <= 1 /\ Rabs ds <= 31104000 /\ -2 <= dat <= 40.

Lemma times_R : forall n fr ds dat, sun_env_real n fr ds dat ->
  15019.5 <= jd1E (A := realA) (IZR n) fr ds <= 88069.5 /\ 15019.5 <= tai2E (A := realA) (IZR n) fr ds dat <= 88069.5 /\
  15019.5 <= tt2E (A := realA) (IZR n) fr ds dat <= 88069.5 /\ 15019.5 <= tdb2E (A := realA) (IZR n) fr ds dat <= 88069.5.
Proof.
  intros n fr ds dat (Hn & Hf & Hs & Hd). assert (15385 <= IZR n <= 87704) by (split; apply IZR_le; lia). apply Rabs_le_inv in Hs.
  unfold tdb2E, tt2E, tai2E, jd1E, DTAT, D2S. realA_ops. rewrite !Rlit_0. 
  assert (L : Rlit 32184 (-3) = 32.184) by (unfold Rlit; change (Z.pow_pos 10 3) with 1000%Z; lra). rewrite L. lra.
Qed.

(** The whole calculation, from nearby inputs. *)
Lemma sun_core : forall lm, good_libm lm -> forall n fr fr' ds dat dat' pos pos' (zen : vec3 (b64A lm)) zen',
  (15385 <= n <= 87704)%Z -> apx fr fr' b_fr1 -> 0 <= fr' <= 1 -> fin ds = true -> Rabs (B2R ds) <= 31104000 -> apx dat dat' b_dat ->
  (forall i, near (vget (A := b64A lm) zen i) (coord zen' i) (5 / 10 ^ 15)) -> hl (coord zen') = 1 ->
  exists r r', sun_compute (A := b64A lm) (cal (b64A lm) n dat fr pos zen) ds = Val r /\ sun_compute (A := realA) (cal realA n dat' fr' pos' zen') (B2R ds) = Val r' /\
  (sr_jd0 (A := b64A lm) r = Flit 24000005 (-1) /\ sr_jd0 (A := realA) r' = 2400000.5) /\
  near (sr_jd1 (A := b64A lm) r) (sr_jd1 (A := realA) r') (1 / 10 ^ 11) /\
  (sr_dat (A := b64A lm) r = dat /\ sr_dat (A := realA) r' = dat' /\
   sr_utc (A := b64A lm) r = MkUTC (A := b64A lm) (sr_jd0 (A := b64A lm) r) (sr_jd1 (A := b64A lm) r) /\ sr_delta_s (A := b64A lm) r = ds) /\ (sr_p (A := b64A lm) r = pos /\ sr_p (A := realA) r' = pos') /\
  (sr_tai (A := b64A lm) r = MkTAI (A := b64A lm) (Flit 24000005 (-1)) (tai_2 (A := b64A lm) (sr_tai (A := b64A lm) r)) /\ tai_1 (A := realA) (sr_tai (A := realA) r') = 2400000.5 /\
   near (tai_2 (A := b64A lm) (sr_tai (A := b64A lm) r)) (tai_2 (A := realA) (sr_tai (A := realA) r')) (2 / 10 ^ 11)) /\
  (sr_tt (A := b64A lm) r = MkTT (A := b64A lm) (Flit 24000005 (-1)) (tt_2 (A := b64A lm) (sr_tt (A := b64A lm) r)) /\ tt_1 (A := realA) (sr_tt (A := realA) r') = 2400000.5 /\
   near (tt_2 (A := b64A lm) (sr_tt (A := b64A lm) r)) (tt_2 (A := realA) (sr_tt (A := realA) r')) (3 / 10 ^ 11)) /\
  (sr_ut1 (A := b64A lm) r = MkUT1 (A := b64A lm) (Flit 24000005 (-1)) (ut1_2 (A := b64A lm) (sr_ut1 (A := b64A lm) r)) /\ ut1_1 (A := realA) (sr_ut1 (A := realA) r') = 2400000.5 /\
   near (ut1_2 (A := b64A lm) (sr_ut1 (A := b64A lm) r)) (ut1_2 (A := realA) (sr_ut1 (A := realA) r')) (2 / 10 ^ 11)) /\
  near_angle (sr_era (A := b64A lm) r) (sr_era (A := realA) r') (1.3 / 10 ^ 10) /\
  (forall i, near (vget (A := b64A lm) (sr_earth (A := b64A lm) r) i) (coord (sr_earth (A := realA) r') i) (1.9 / 10 ^ 12)) /\
  (forall i, near (vget (A := b64A lm) (sr_sun_e (A := b64A lm) r) i) (coord (sr_sun_e (A := realA) r') i) 42) /\
  0 < hl (coord (sr_sun_e (A := realA) r')) /\
  exists x, sr_sza (A := b64A lm) r = lm_acos lm x /\
    near x (sprod zen' (sr_sun_e (A := realA) r') / hl (coord (sr_sun_e (A := realA) r'))) (5.9 / 10 ^ 10).
Proof.
  intros lm G n fr fr' ds dat dat' pos pos' zen zen' Hn Hf Rf Fs Bs Hd Hz Uz.
  destruct (times_ok lm G n fr fr' ds dat dat' Hn Hf Fs Bs Hd) as (T1 & T2 & T3 & T4 & T5). cbv zeta in T1, T2, T3, T4, T5.
  assert (RE : sun_env_real n fr' (B2R ds) dat').
  { split; [exact Hn|]. split; [exact Rf|]. split; [exact Bs|]. destruct Hd as (_ & Hd & _). cbn [b_dat lo hi] in Hd. rewrite !val_int in Hd. exact Hd. }
  destruct (times_R n fr' (B2R ds) dat' RE) as (R1 & R2 & R3 & R4).
  destruct (x_chain (b64A lm) n dat fr ds pos zen) as (XF1 & XF2 & XF3 & XF4 & XF5).
  { apply (below_mjd0 _ _ _ T1). vm_compute. reflexivity. }
  { apply (below_mjd0 _ _ _ T2). vm_compute. reflexivity. }
  { apply (below_mjd0 _ _ _ T3). vm_compute. reflexivity. }
  assert (LT : forall w : R, w <= 88069.5 -> ltb realA w (MJD_ZERO (A := realA)) = true).
  { intros w Hw. rewrite mjd0_R. realA_ops. apply Rlt_bool_true. lra. }
  destruct (x_chain realA n dat' fr' (B2R ds) pos' zen') as (XR1 & XR2 & XR3 & XR4 & XR5); [apply LT, R1|apply LT, R2|apply LT, R3|].
  destruct (sun_compute_eq (A := b64A lm) (cal (b64A lm) n dat fr pos zen) ds) as (e & m & Ee & Em & Er).
  destruct (sun_compute_eq (A := realA) (cal realA n dat' fr' pos' zen') (B2R ds)) as (e' & m' & Ee' & Em' & Er').
  rewrite XF5 in Ee. rewrite XF3, XF4 in Em. rewrite XR5 in Ee'. rewrite XR3, XR4 in Em'.
  destruct (earth_ok lm G _ _ e e' T4 R4 Ee Ee') as [HE HD].
  destruct (c2t_sun lm G _ _ _ _ m m' T3 R3 T5) as [HM PM].
  { exact Em. }
  { rewrite <- Em'. f_equal; unfold cal; cbn [sc_xp sc_yp]; unfold arcsec; realA_ops; rlit_in_goal; lra. }
  pose proof (sun_vec_ok lm G _ _ HE) as HS.
  set (ea := pv_p (A := b64A lm) (heliocentric (A := b64A lm) e)) in *. set (ea' := pv_p (A := realA) (heliocentric (A := realA) e')) in *.
  set (se := mapply (A := b64A lm) (mtranspose (A := b64A lm) m) (vscale (A := b64A lm) (vneg (A := b64A lm) ea) (AUM (A := b64A lm)))).
  set (se' := mapply (A := realA) (mtranspose (A := realA) m') (sun_of ea')).
  assert (HLS : hl (coord (sun_of ea')) = 149597870700 * hl (coord ea')).
  { rewrite (hl_ext _ (fun i => -149597870700 * coord ea' i)) by (intros [| |]; reflexivity). rewrite hl_scale, Rabs_left by lra. ring. }
  pose proof (col_ok lm G m m' _ (sun_of ea') _ _ HM PM HS ltac:(lra) ltac:(lra) ltac:(rewrite HLS; lra)) as HV. fold se se' in HV.
  rewrite HLS in HV. apply (fun k => vnear_le _ _ _ _ 42 k) in HV; [|lra].
  assert (HSE : hl (coord se') = 149597870700 * hl (coord ea')).
  { rewrite <- HLS, <- !length3_hl. unfold length3. f_equal. unfold se'. apply (C32_apply_isometry_partial_pf (mtranspose (A := realA) m')). apply proper_transpose; exact PM. }
  assert (ZN : vnear zen zen' (1.7321 * (5 / 10 ^ 15))) by (apply vnear_of; exact Hz).
  pose proof (cos_ok lm G zen se zen' se' _ 42 1 1 143613000000 160000000000 ZN HV ltac:(rewrite Uz; lra) ltac:(rewrite HSE; lra) ltac:(lra) ltac:(lra) ltac:(lra) ltac:(lra) ltac:(lra) ltac:(lra)) as HC.
  exists (x_res (cal (b64A lm) n dat fr pos zen) ds e m), (x_res (cal realA n dat' fr' pos' zen') (B2R ds) e' m').
  split; [exact Er|]. split; [exact Er'|]. clear Er Er' Ee Ee' Em Em'.
  unfold x_res. cbn [sr_jd0 sr_jd1 sr_utc sr_delta_s sr_dat sr_p sr_tai sr_tt sr_ut1 sr_era sr_earth sr_sun_e sr_sza]. fold ea ea'. rewrite (scale_R ea'). fold se se'.
  split; [split; [reflexivity|exact mjd0_R]|].
  split.
  { replace (1 / 10 ^ 11) with (1 / 100000000000) by lra. refine (near_of_apx _ _ _ 1 100000000000 T1 eq_refl _). vm_compute. reflexivity. }
  split; [repeat split|]. split; [split; reflexivity|].
  split.
  { rewrite XF2, XR2. cbn [tai_1 tai_2]. split; [reflexivity|]. split; [exact mjd0_R|].
    replace (2 / 10 ^ 11) with (2 / 100000000000) by lra. refine (near_of_apx _ _ _ 2 100000000000 T2 eq_refl _). vm_compute. reflexivity. }
  split.
  { rewrite XF3, XR3. cbn [tt_1 tt_2]. split; [reflexivity|]. split; [exact mjd0_R|].
    replace (3 / 10 ^ 11) with (3 / 100000000000) by lra. refine (near_of_apx _ _ _ 3 100000000000 T3 eq_refl _). vm_compute. reflexivity. }
  split.
  { rewrite XF4, XR4. cbn [ut1_1 ut1_2]. split; [reflexivity|]. split; [exact mjd0_R|].
    replace (2 / 10 ^ 11) with (2 / 100000000000) by lra. refine (near_of_apx _ _ _ 2 100000000000 T5 eq_refl _). vm_compute. reflexivity. }
  split.
  { rewrite XF4, XR4. destruct (era_ok lm G _ _ T5) as (FE & k & KE). split; [exact FE|].
    rewrite (proj1 (C29_era_total_pf _ _)). 
    match type of KE with context [era_of ?z] => set (ER := era_of z) in *; assert (EE : ER = 2 * PI * (0.7790572732640 + 1.00273781191135448 * (ut1_1 (A := realA) z + ut1_2 (A := realA) z - 2451545)))
      by (unfold ER, era_of, ut1_total; ring); cbn [ut1_1 ut1_2] in EE end.
    match type of EE with _ = 2 * PI * ?z => set (th := z) in * end.
    match goal with |- context [Zfloor ?z] => change z with th end. clearbody th. exists (k + Zfloor th)%Z. rewrite plus_IZR.
    replace (2 * PI * (th - IZR (Zfloor th)) + (IZR k + IZR (Zfloor th)) * (2 * PI)) with (ER + IZR k * (2 * PI)) by (rewrite EE; ring). clearbody ER.
    eapply Rle_trans; [exact KE|lra]. }
  split.
  { intros i. replace (1.9 / 10 ^ 12) with (19 / 10000000000000) by lra. refine (near_of_apx _ _ _ 19 10000000000000 (HE i) eq_refl _). vm_compute. reflexivity. }
  split; [intros i; exact (vnear_near _ _ _ _ i HV)|].
  split; [rewrite HSE; lra|].
  exists (cosF zen se). split; [apply vangle_F|].
  rewrite Uz, Rmult_1_l in HC. eapply near_le; [exact HC|]. lra.
Qed.

(** C72: for a date from 1901 to 2098, any time of day, any place up to 10000 km
    from the ellipsoid and any offset up to 360 days, with a libm of one unit in
    the last place, the calculator and its result exist in binary64 and exactly,
    and each reported quantity agrees: days to a few 1e-11 (one to three
    microseconds), TAI-UTC to 1.7e-14 s, the rotation angle to 1.3e-10, the Earth
    vector to 1.9e-12 AU, the place to 2e-7 m, the Sun vector to 42 m, and the
    number given to acos to 5.9e-10 of the cosine of the exact zenith angle. *)
Lemma C72_sun_accuracy_pf : forall lm, good_libm lm -> forall p g h m s lo la ht ds, usual_inputs g h m s lo la ht ds ->
  exists c r c' r', sun_new (A := b64A lm) p (parF lm g h m s lo la ht) = Val c /\ sun_compute (A := b64A lm) c ds = Val r /\
  sun_new (A := realA) p (parR g h m s lo la ht) = Val c' /\ sun_compute (A := realA) c' (B2R ds) = Val r' /\
  near (sr_jd0 (A := b64A lm) r) (sr_jd0 (A := realA) r') 0 /\
  near (sr_jd1 (A := b64A lm) r) (sr_jd1 (A := realA) r') (1 / 10 ^ 11) /\
  sr_utc (A := b64A lm) r = MkUTC (A := b64A lm) (sr_jd0 (A := b64A lm) r) (sr_jd1 (A := b64A lm) r) /\
  sr_delta_s (A := b64A lm) r = ds /\
  near (sr_dat (A := b64A lm) r) (sr_dat (A := realA) r') (1.7 / 10 ^ 14) /\
  near (tai_1 (A := b64A lm) (sr_tai (A := b64A lm) r)) (tai_1 (A := realA) (sr_tai (A := realA) r')) 0 /\
  near (tai_2 (A := b64A lm) (sr_tai (A := b64A lm) r)) (tai_2 (A := realA) (sr_tai (A := realA) r')) (2 / 10 ^ 11) /\
  near (tt_1 (A := b64A lm) (sr_tt (A := b64A lm) r)) (tt_1 (A := realA) (sr_tt (A := realA) r')) 0 /\
  near (tt_2 (A := b64A lm) (sr_tt (A := b64A lm) r)) (tt_2 (A := realA) (sr_tt (A := realA) r')) (3 / 10 ^ 11) /\
  near (ut1_1 (A := b64A lm) (sr_ut1 (A := b64A lm) r)) (ut1_1 (A := realA) (sr_ut1 (A := realA) r')) 0 /\
  near (ut1_2 (A := b64A lm) (sr_ut1 (A := b64A lm) r)) (ut1_2 (A := realA) (sr_ut1 (A := realA) r')) (2 / 10 ^ 11) /\
  near_angle (sr_era (A := b64A lm) r) (sr_era (A := realA) r') (1.3 / 10 ^ 10) /\
  (forall i, near (vget (A := b64A lm) (sr_earth (A := b64A lm) r) i) (coord (sr_earth (A := realA) r') i) (1.9 / 10 ^ 12)) /\
  (forall i, near (vget (A := b64A lm) (sr_p (A := b64A lm) r) i) (coord (sr_p (A := realA) r') i) (2 / 10 ^ 7)) /\
  (forall i, near (vget (A := b64A lm) (sr_sun_e (A := b64A lm) r) i) (coord (sr_sun_e (A := realA) r') i) 42) /\
  exists x, sr_sza (A := b64A lm) r = lm_acos lm x /\ near x (cos (sr_sza (A := realA) r')) (5.9 / 10 ^ 10).
Proof.
  intros lm G p g h m s lo la ht ds (Hg & Hy & Hh & Hm & Fs & Bs & Fo & Bo & Fa & Ba & Ft & Bt & Fd & Bd).
  assert (HJ : to_mjd p g = Val (mjd (of_date g))) by (apply to_mjd_accepted; [exact Hg|lia]).
  pose proof (mjd_between g 1901 2098 Hg ltac:(lia) ltac:(lia)) as MB.
  change (mjd (1901, 1, 1)%Z) with 15385%Z in MB. change (mjd (2098, 12, 31)%Z) with 87703%Z in MB.
  set (n := mjd (of_date g)) in *. clearbody n. assert (MN : (15385 <= n <= 87704)%Z) by lia. clear MB. rename MN into MB.
  destruct (fr_ok lm G h m s Hh Hm Fs Bs) as [AF RF]. cbv zeta in AF, RF.
  pose proof (fraction_R (MkHMS (A := realA) h m (B2R s))) as FR. rewrite <- FR in AF, RF. clear FR.
  assert (NR : (Bltb (hms_to_fraction (A := b64A lm) (MkHMS (A := b64A lm) h m s)) (Flit 0 0)) || (Bltb (Flit 1 0) (hms_to_fraction (A := b64A lm) (MkHMS (A := b64A lm) h m s))) = false).
  { destruct (C18_hms_roundtrip_b64_partial_pf lm h m s Hh Hm Fs Bs) as (h' & m' & s' & E & _).
    unfold hms_from_fraction in E. b64A_ops.
    match goal with |- ?b = false => destruct b eqn:K end; [|reflexivity]. discriminate E. }
  destruct (dat_sun lm p g _ _ Hg ltac:(lia) AF NR RF) as (o & o' & Ho & Ho' & AD).
  destruct (wgs84_F lm) as (wg & HW & _).
  destruct (C70_degrees_pf lm G wg lo la ht HW Fo Fa Ft Bo Ba Bt) as (v & Hv & Kv). cbv zeta in Hv, Kv.
  destruct wgs84_R as (ea & ef & HW' & Hf).
  pose proof (sun_new_cal (b64A lm) p g h m s (MkG360 (A := b64A lm) lo la ht) n o wg v HJ Ho HW Hv) as NF.
  assert (HG' : exists v', geodetic_to_geocentric (A := realA) (convR ea ef) (geodetic_of_360 (A := realA) (MkG360 (A := realA) (B2R lo) (B2R la) (B2R ht))) = Ok v').
  { unfold geodetic_of_360. rewrite to_gc_R by exact Hf. eexists. reflexivity. }
  destruct HG' as [v' Hv'].
  pose proof (sun_new_cal realA p g h m (B2R s) (MkG360 (A := realA) (B2R lo) (B2R la) (B2R ht)) n o' (convR ea ef) v' HJ Ho' HW' Hv') as NRr.
  change (match o with Some d => d | None => lit (b64A lm) 0 0 end) with (datd (b64A lm) o) in NF.
  change (match o' with Some d => d | None => lit realA 0 0 end) with (datd realA o') in NRr.
  set (posR := MkG360 (A := realA) (B2R lo) (B2R la) (B2R ht)) in *.
  rewrite (zenith_R posR) in NRr.
  assert (UZ : hl (coord (zenith_of posR)) = 1).
  { rewrite <- length3_hl. unfold length3. rewrite zenith_unit. apply sqrt_1. }
  set (zen := zenith (A := b64A lm) (geodetic_of_360 (A := b64A lm) (MkG360 (A := b64A lm) lo la ht))) in *.
  destruct (sun_core lm G n _ _ ds _ _ v v' zen (zenith_of posR) MB AF RF Fd Bd AD (fun i => proj2 (Kv i)) UZ)
    as (r & r' & Cr & Cr' & (J1 & J1') & J2 & (D1 & D2 & D3 & D4) & (P1 & P2) & (A1 & A1' & A2) & (T1 & T1' & T2) & (U1 & U1' & U2) & HE & HV & HS & PS & x & X1 & X2).
  destruct (C51_place_pf p _ _ (B2R ds) NRr) as (q & ? & ? & Q1 & _ & _ & _ & _ & _ & QP).
  assert (OI : forall X (a b : X), Val a = Val b -> a = b) by congruence.
  rewrite Cr' in Q1. apply OI in Q1. subst q. cbn [sp_position] in QP.
  destruct (C51_geometry_pf p _ _ (B2R ds) NRr) as (q & ? & ? & Q1 & _ & _ & _ & _ & _ & _ & _ & QG).
  rewrite Cr' in Q1. apply OI in Q1. subst q. cbn [sp_position] in QG. rewrite length3_hl in QG.
  exists (cal (b64A lm) n (datd (b64A lm) o) (hms_to_fraction (A := b64A lm) (MkHMS (A := b64A lm) h m s)) v zen), r,
    (cal realA n (datd realA o') (hms_to_fraction (A := realA) (MkHMS (A := realA) h m (B2R s))) v' (zenith_of posR)), r'.
  split; [exact NF|]. split; [exact Cr|]. split; [exact NRr|]. split; [exact Cr'|]. clear NF NRr Cr Cr'.
  assert (Z0 : near (Flit 24000005 (-1)) 2400000.5 0).
  { destruct mjd0_F as [F0 V0]. split; [exact F0|]. rewrite V0. apply Rabs_le. lra. }
  split; [rewrite J1, J1'; exact Z0|]. split; [exact J2|]. split; [exact D3|]. split; [exact D4|].
  split.
  { rewrite D1, D2. replace (1.7 / 10 ^ 14) with (17 / 1000000000000000) by lra. refine (near_of_apx _ _ _ 17 1000000000000000 AD eq_refl _). vm_compute. reflexivity. }
  split; [rewrite A1, A1'; exact Z0|]. split; [exact A2|].
  split; [rewrite T1, T1'; exact Z0|]. split; [exact T2|].
  split; [rewrite U1, U1'; exact Z0|]. split; [exact U2|].
  split; [exact HE|]. split; [exact HV|].
  split; [intros i; rewrite P1, QP; exact (proj1 (Kv i))|].
  split; [exact HS|].
  exists x. split; [exact X1|]. rewrite QG in X2.
  replace (hl (coord (sr_sun_e (A := realA) r')) * cos (sr_sza (A := realA) r') / hl (coord (sr_sun_e (A := realA) r'))) with (cos (sr_sza (A := realA) r')) in X2 by (field; lra).
  exact X2.
Qed.

(** C72, the angle itself: between 0.01 rad and pi - 0.01 rad it is finite, within
    9.1e-8 rad of the exact angle, and within 6e-10 rad divided by its sine; at any
    angle it is within 4.3e-5 rad unless rounding has pushed the number given to
    acos outside [-1, 1]. *)
Lemma C72_zenith_angle_pf : forall lm, good_libm lm -> forall p g h m s lo la ht ds, usual_inputs g h m s lo la ht ds ->
  forall c r c' r', sun_new (A := b64A lm) p (parF lm g h m s lo la ht) = Val c -> sun_compute (A := b64A lm) c ds = Val r ->
  sun_new (A := realA) p (parR g h m s lo la ht) = Val c' -> sun_compute (A := realA) c' (B2R ds) = Val r' ->
  (0.01 <= sr_sza (A := realA) r' <= PI - 0.01 ->
     near (sr_sza (A := b64A lm) r) (sr_sza (A := realA) r') (9.1 / 10 ^ 8) /\
     Rabs (B2R (sr_sza (A := b64A lm) r) - sr_sza (A := realA) r') * sin (sr_sza (A := realA) r') <= 6 / 10 ^ 10) /\
  exists x, sr_sza (A := b64A lm) r = lm_acos lm x /\ fin x = true /\ Rabs (B2R x) <= 1 + 6 / 10 ^ 10 /\
    (-1 <= B2R x <= 1 -> near (sr_sza (A := b64A lm) r) (sr_sza (A := realA) r') (4.3 / 10 ^ 5)).
Proof.
  intros lm G p g h m s lo la ht ds HI c r c' r' H1 H2 H3 H4.
  destruct (C72_sun_accuracy_pf lm G p g h m s lo la ht ds HI) as (d & q & d' & q' & K1 & K2 & K3 & K4 & R).
  assert (OI : forall X (a b : X), Val a = Val b -> a = b) by congruence.
  rewrite H1 in K1. apply OI in K1. subst d. rewrite H2 in K2. apply OI in K2. subst q.
  rewrite H3 in K3. apply OI in K3. subst d'. rewrite H4 in K4. apply OI in K4. subst q'.
  destruct R as (_ & _ & _ & _ & _ & _ & _ & _ & _ & _ & _ & _ & _ & _ & _ & x & X1 & FX & EX).
  destruct (C51_geometry_pf p _ _ (B2R ds) H3) as (q & ? & ? & Q1 & _ & _ & _ & _ & _ & _ & QR & _).
  rewrite H4 in Q1. apply OI in Q1. subst q. clear H1 H2 H3 H4.
  rewrite X1. set (th := sr_sza (A := realA) r') in *. clearbody th. clear X1.
  pose proof (COS_bound th) as CB.
  assert (B51 : bpow radix2 (-51) <= 1 / 10 ^ 15) by (change (bpow radix2 (-51)) with (/ 2251799813685248); lra).
  assert (B51p : 0 <= bpow radix2 (-51)) by apply bpow_ge_0.
  assert (AX : Rabs (B2R x) <= 1 + 6 / 10 ^ 10) by (apply Rabs_le_inv in EX; apply Rabs_le; lra).
  split.
  - intros RT. pose proof PI_3 as P3.
    assert (C1 : cos th <= cos 0.01) by (apply cos_decr_1; lra).
    assert (C2 : cos (PI - 0.01) <= cos th) by (apply cos_decr_1; lra).
    assert (C3 : cos (PI - 0.01) = - cos 0.01) by (rewrite cos_minus, cos_PI, sin_PI; ring). rewrite C3 in C2.
    assert (C4 : cos 0.01 <= 1 - 1 / 10 ^ 8).
    { replace 0.01 with (2 * 0.005) by lra. rewrite cos_2a_sin. pose proof (sin_lower 0.005 ltac:(lra)) as S. nra. }
    assert (IX : -1 <= B2R x <= 1) by (apply Rabs_le_inv in EX; lra).
    destruct (good_acos lm G x FX IX) as [FA EA].
    pose proof (acos_bound (B2R x)) as AB. 
    destruct (acos_fine (acos (B2R x)) th AB RT) as [F1 F2]; [rewrite cos_acos by exact IX; exact EX|].
    assert (S1 : 0 <= sin th <= 1) by (split; [apply sin_ge_0; lra|apply SIN_bound]).
    assert (T : Rabs (B2R (lm_acos lm x) - th) <= Rabs (acos (B2R x) - th) + 1 / 10 ^ 15).
    { replace (B2R (lm_acos lm x) - th) with ((B2R (lm_acos lm x) - acos (B2R x)) + (acos (B2R x) - th)) by ring.
      eapply Rle_trans; [apply Rabs_triang|]. lra. }
    split; [split; [exact FA|lra]|].
    set (u := Rabs (B2R (lm_acos lm x) - th)) in *. set (w := Rabs (acos (B2R x) - th)) in *. clearbody u w.
    assert (u * sin th <= (w + 1 / 10 ^ 15) * sin th) by (apply Rmult_le_compat_r; lra). nra.
  - exists x. split; [reflexivity|]. split; [exact FX|]. split; [exact AX|]. intros IX.
    destruct (good_acos lm G x FX IX) as [FA EA]. pose proof (acos_bound (B2R x)) as AB.
    pose proof (cos_far (acos (B2R x)) th (4.2 / 10 ^ 5) (5.9 / 10 ^ 10) AB QR ltac:(lra)) as C.
    rewrite cos_acos in C by exact IX. specialize (C EX ltac:(lra)).
    split; [exact FA|]. replace (B2R (lm_acos lm x) - th) with ((B2R (lm_acos lm x) - acos (B2R x)) + (acos (B2R x) - th)) by ring.
    eapply Rle_trans; [apply Rabs_triang|]. lra.
Qed.

(** C72 on the default parameters (2007-04-05 00:00, 120 degrees west on the
    equator): TAI-UTC is 33 s and the second part of the date is 54195. *)
Example C72_example_pf : forall lm, good_libm lm -> forall p, exists c r,
  sun_new (A := b64A lm) p (sun_default (A := b64A lm)) = Val c /\ sun_compute (A := b64A lm) c (Flit 0 0) = Val r /\
  near (sr_dat (A := b64A lm) r) 33 (1.7 / 10 ^ 14) /\ near (sr_jd1 (A := b64A lm) r) 54195 (1 / 10 ^ 11).
Proof.
  intros lm G p. destruct lit_0 as [E0 F0]. destruct (Flit_int (-120) ltac:(lia)) as [E1 F1].
  destruct (C72_sun_accuracy_pf lm G p (MkDate 2007 4 5) 0 0 (Flit 0 0) (Flit (-120) 0) (Flit 0 0) (Flit 0 0) (Flit 0 0))
    as (c & r & c' & r' & H1 & H2 & H3 & H4 & J0 & J1 & _ & _ & D & _).
  { unfold usual_inputs. cbn [year]. rewrite !E0, E1. 
    repeat match goal with |- _ /\ _ => split end; try assumption; try lia; try lra; try (apply Rabs_le; lra). reflexivity. }
  exists c, r. 
  assert (EP : parF lm (MkDate 2007 4 5) 0 0 (Flit 0 0) (Flit (-120) 0) (Flit 0 0) (Flit 0 0) = sun_default (A := b64A lm)).
  { unfold parF, sun_default. b64A_ops. f_equal. f_equal. apply B2SF_inj. vm_compute. reflexivity. }
  rewrite <- EP. split; [exact H1|]. split; [exact H2|].
  assert (OI : forall X (a b : X), Val a = Val b -> a = b) by congruence.
  assert (EQ : parR (MkDate 2007 4 5) 0 0 (Flit 0 0) (Flit (-120) 0) (Flit 0 0) (Flit 0 0) = sun_default (A := realA)).
  { unfold parR, sun_default. rewrite !E0, E1. realA_ops. rewrite !Rlit_0. reflexivity. }
  rewrite EQ in H3. rewrite E0 in H4.
  destruct (C51_example_pf p) as (d & K1 & K2). rewrite H3 in K1. apply OI in K1. subst d.
  destruct (K2 0 ltac:(lra)) as (q & Q1 & Q2 & _). rewrite H4 in Q1. apply OI in Q1. subst q.
  rewrite Q2 in D. split; [exact D|].
  destruct (C51_place_pf p _ c' 0 H3) as (q & j0 & j1 & Q1 & QJ & _ & Q3 & _). rewrite H4 in Q1. apply OI in Q1. subst q.
  assert (HJ : to_julian (A := realA) p (sp_date (A := realA) (sun_default (A := realA))) = Val (Rlit 24000005 (-1), IZR 54195)).
  { cbn [sun_default sp_date]. destruct p; reflexivity. }
  rewrite HJ in QJ. apply OI in QJ. injection QJ as _ <-.
  replace (clock (sp_time (A := realA) (sun_default (A := realA)))) with 0 in Q3.
  2: { unfold clock, sun_default. cbn [sp_time hour minute second]. realA_ops. rlit_in_goal. lra. }
  replace (IZR 54195 + (0 + 0) / 86400) with 54195 in Q3 by lra. rewrite Q3 in J1. exact J1.
Qed.
