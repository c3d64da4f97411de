(** * Proofs of C90 *)

From Coq Require Import ZArith Reals Lra Lia Bool List Psatz.
From Flocq Require Import Core BinarySingleNaN.
From Verif Require Import Outcome Arith ArithR ArithF M_Common M_Calendar M_Time M_Ellipsoid M_Locator M_Frames M_Earth M_SunAngle Spec_Calendar Spec_Api Spec_Accuracy Spec_Matrix Spec_Frames Spec_Series Spec_C2t Spec_Sun Spec_SunAcc Spec_Almanac.
From Verif Require L_PAccSun L_AlmanacDat L_PAccC2t L_ApxC2i.
From Verif Require Import L_ArithR L_Matrix L_PMatrix L_Frames L_Near L_Pi L_Fro L_PFrames L_Series L_PSeries L_Kepler L_Orbit L_POrbit L_Angle L_Almanac L_AlmanacSun L_AlmanacSky L_PSunAngle L_PAlmanac L_PTropics L_Lip.
Import ListNotations.
Open Scope R_scope.

Lemma col_mdist : forall a b v, nrm (sub (col a v) (col b v)) <= mdist a b * nrm v.
Proof.
  intros a b v. set (e := fun i j => entry a i j - entry b i j). unfold mdist. fold e.
  assert (C : forall i, coord (sub (col a v) (col b v)) i = e i I0 * coord v I0 + e i I1 * coord v I1 + e i I2 * coord v I2).
  { intros i. assert (S : coord (sub (col a v) (col b v)) i = coord (col a v) i - coord (col b v) i) by (clear e; destruct (col a v), (col b v), i; reflexivity).
    rewrite S, (col_image a v i), (col_image b v i). unfold e, entry. ring. }
  pose proof (nrm_pos v) as N. pose proof (fro_nonneg e) as F. apply nrm_le; [apply Rmult_le_pos; assumption|].
  replace (fro e * nrm v * (fro e * nrm v)) with (fro e * fro e * (nrm v * nrm v)) by ring. rewrite nrm_sq, fro_sq, !erow_sq. unfold sprod. rewrite !C.
  clearbody e. clear C N F. set (x := coord v I0). set (y := coord v I1). set (z := coord v I2). clearbody x y z. change (num realA) with R in *.
  assert (G : forall p q r, (p * x + q * y + r * z) * (p * x + q * y + r * z) <= (p * p + q * q + r * r) * (x * x + y * y + z * z)).
  { intros p q r. pose proof (Rle_0_sqr (p * y - q * x)) as A. pose proof (Rle_0_sqr (p * z - r * x)) as B. pose proof (Rle_0_sqr (q * z - r * y)) as D. unfold Rsqr in *. lra. }
  pose proof (G (e I0 I0) (e I0 I1) (e I0 I2)). pose proof (G (e I1 I0) (e I1 I1) (e I1 I2)). pose proof (G (e I2 I0) (e I2 I1) (e I2 I2)). lra.
Qed.

(** The Earth's place as a function of the TDB date; speed. *)
Definition day (x : R) : TDB realA := MkTDB (A := realA) 2451545 x.
Definition place (x : R) : vec3 realA := pv_p (A := realA) (heliocentric (A := realA) (epv_val realA (day x))).
Definition speed (x : R) : vec3 realA := pv_v (A := realA) (heliocentric (A := realA) (epv_val realA (day x))).

Lemma years_day : forall x, years (day x) = x / 365.25.
Proof. intros. unfold years, day. cbn [tdb_1 tdb_2]. change (num realA) with R. lra. Qed.
Lemma place_lip : forall x y, Rabs x <= 36525 -> Rabs y <= 36525 -> nrm (sub (place x) (place y)) <= 0.0176 * Rabs (x - y).
Proof.
  assert (D : forall x i, derivable_pt_lim (fun x => coord (place x) i) x (coord (speed x) i)).
  { destruct C40_velocity_is_derivative_pf as (f & Hf & Df). intros x i. destruct (Df 2451545 x i) as (_ & K & _). cbv zeta in K.
    assert (E : forall a b, f a b = epv_val realA (MkTDB (A := realA) a b)) by (intros a b; specialize (Hf a b); rewrite earth_pos_vel_val in Hf; congruence).
    unfold place, speed, day. rewrite <- E. eapply derivable_pt_lim_ext; [|exact K]. intros u. cbv beta. rewrite E. reflexivity. }
  assert (V : forall x, Rabs x <= 36525 -> nrm (speed x) <= 0.0176).
  { intros x Hx. destruct (C83_speed_pf (day x)) as (r & Er & S & _).
    - rewrite years_day. apply Rabs_le_inv in Hx. apply Rabs_le. lra.
    - rewrite earth_pos_vel_val in Er. assert (E : r = epv_val realA (day x)) by congruence. subst r. exact (proj2 S). }
  assert (MV : forall x y, x < y -> Rabs x <= 36525 -> Rabs y <= 36525 -> nrm (sub (place y) (place x)) <= 0.0176 * (y - x)).
  { intros x y L Hx Hy. set (w := sub (place y) (place x)). set (g := fun u => sprod (place u) w).
    assert (Dg : forall u, derivable_pt_lim g u (sprod (speed u) w)).
    { intros u. unfold g, sprod. repeat apply derivable_pt_lim_plus;
      (eapply derivable_pt_lim_ext; [intros; apply Rmult_comm|]; rewrite (Rmult_comm (coord (speed u) _)); apply derivable_pt_lim_scal; apply D). }
    destruct (MVT_cor2 g (fun u => sprod (speed u) w) x y L) as (u & E & Bu); [intros; apply Dg|].
    assert (Hu : Rabs u <= 36525) by (apply Rabs_le_inv in Hx; apply Rabs_le_inv in Hy; apply Rabs_le; lra). specialize (V u Hu).
    assert (Q : g y - g x = nrm w * nrm w).
    { rewrite nrm_sq. unfold g, w. clear. destruct (place y), (place x). vec_calc. ring. }
    rewrite Q in E. clear Q. pose proof (cauchy (speed u) w) as CS. rewrite <- !nrm_sq in CS. pose proof (nrm_pos w) as P. pose proof (nrm_pos (speed u)) as P'.
    set (n := nrm w) in *. set (q := sprod (speed u) w) in *. set (b := nrm (speed u)) in *. clearbody n q b.
    assert (QB : q <= 0.0176 * n). { assert (q <= b * n) by (apply Rnot_lt_le; intros N; assert (0 <= b * n) by nra; nra). nra. }
    destruct (Rle_lt_dec n 0) as [Z|Z]; [nra|]. apply (Rmult_le_reg_r n); [exact Z|]. rewrite E. nra. }
  intros x y Hx Hy. destruct (Rtotal_order x y) as [L|[->|L]].
  - rewrite nrm_sym, (Rabs_left (x - y)) by lra. specialize (MV x y L Hx Hy). lra.
  - rewrite (Rminus_diag_eq y y), Rabs_R0, Rmult_0_r by reflexivity. apply nrm_le; [lra|]. destruct (place y). vec_calc. right. ring.
  - rewrite (Rabs_pos_eq (x - y)) by lra. apply MV; [lra|assumption|assumption].
Qed.

Lemma asin_le : forall e, 0 <= e <= 0.0001 -> asin e <= 1.0001 * e.
Proof.
  intros e He. pose proof (asin_bound e) as B. pose proof PI_bounds as P. apply Rnot_lt_le. intros N.
  pose proof (sin_increasing_1 (1.0001 * e) (asin e) ltac:(lra) ltac:(lra) ltac:(lra) ltac:(lra) N) as S. rewrite sin_asin in S by lra.
  pose proof (sin_taylor3 (1.0001 * e) ltac:(rewrite Rabs_pos_eq; lra)) as T. rewrite (Rabs_pos_eq (1.0001 * e)) in T by lra. apply Rabs_le_inv in T.
  set (x := 1.0001 * e) in *. assert (X : 0 <= x <= 0.00011) by (unfold x; lra). assert (x ^ 3 <= 0.0001 * 0.0001 * x * 1.5) by (cbn [pow]; nra). assert (0 <= x ^ 3) by (cbn [pow]; nra).
  unfold x in *. lra.
Qed.

(** ** The Sun's terrestrial direction over one second *)

Definition sunv (t era xp yp : R) : vec3 realA := col (C2T t era xp yp) (scl (-1) (place (36525 * t))).

Lemma place_size : forall t, Rabs t <= 1 -> 0.96 <= nrm (place (36525 * t)) <= 1.04.
Proof.
  intros t Ht. destruct (C43_distance_pf (day (36525 * t))) as (r & Er & S).
  - rewrite years_day. apply Rabs_le_inv in Ht. apply Rabs_le. lra.
  - rewrite earth_pos_vel_val in Er. assert (E : r = epv_val realA (day (36525 * t))) by congruence. subst r. exact S.
Qed.
Lemma C2I_proper : forall t, Rabs t <= 1 -> proper (C2I t).
Proof. intros t Ht. exact (proj1 (C2I_facts t Ht)). Qed.

Lemma sunv_dist : forall t t' a b xp yp, Rabs t <= 1 -> Rabs t' <= 1 ->
  nrm (sub (sunv t a xp yp) (sunv t' b xp yp)) <= 0.0176 * 36525 * Rabs (t - t') + (Rabs (a - b) + 67 * Rabs (t - t')) * nrm (place (36525 * t')).
Proof.
  intros t t' a b xp yp Ht Ht'. unfold sunv, C2T. rewrite !product_3, !col_mm.
  set (v := scl (-1) (place (36525 * t))). set (v' := scl (-1) (place (36525 * t'))).
  assert (NV : nrm v' = nrm (place (36525 * t'))) by apply nrm_neg.
  assert (DV : nrm (sub v v') <= 0.0176 * 36525 * Rabs (t - t')).
  { replace (sub v v') with (scl (-1) (sub (place (36525 * t)) (place (36525 * t')))).
    - rewrite nrm_neg. eapply Rle_trans; [apply place_lip; rewrite Rabs_mult, (Rabs_pos_eq 36525) by lra; lra|].
      replace (36525 * t - 36525 * t') with (36525 * (t - t')) by ring. rewrite Rabs_mult, (Rabs_pos_eq 36525) by lra. lra.
    - unfold v, v', scl. destruct (place (36525 * t)), (place (36525 * t')). vec_calc. f_equal; ring. }
  rewrite <- NV. clearbody v v'. rewrite dist_col by apply W_proper. clear NV.
  assert (P3 : forall x, proper (R3 x)) by (intros; unfold R3; apply rot3_proper).
  pose proof (C2I_proper t Ht) as Q. pose proof (C2I_proper t' Ht') as Q'.
  pose proof (dist_tri (col (R3 a) (col (C2I t) v)) (col (R3 a) (col (C2I t') v')) (col (R3 b) (col (C2I t') v'))) as T1. rewrite dist_col in T1 by apply P3.
  pose proof (dist_tri (col (C2I t) v) (col (C2I t) v') (col (C2I t') v')) as T2. rewrite dist_col in T2 by exact Q.
  pose proof (col_mdist (C2I t) (C2I t') v') as T3. pose proof (C2I_dist t t' Ht Ht') as T4. pose proof (nrm_pos v') as NP.
  assert (T5 : nrm (sub (col (C2I t) v') (col (C2I t') v')) <= 67 * Rabs (t - t') * nrm v') by (eapply Rle_trans; [exact T3|]; apply Rmult_le_compat_r; assumption).
  assert (T6 : nrm (sub (col (R3 a) (col (C2I t') v')) (col (R3 b) (col (C2I t') v'))) <= Rabs (a - b) * nrm v').
  { rewrite <- (col_nrm (C2I t') v' Q'). set (u := col (C2I t') v').
    assert (E : col (R3 a) u = col (R3 (a - b)) (col (R3 b) u)).
    { rewrite <- col_mm. unfold R3. rewrite mm_rot. f_equal. f_equal. ring. }
    rewrite E. rewrite <- (col_nrm (R3 b) u (P3 b)). apply col_near; [apply P3|]. unfold R3. apply near_rot. }
  lra.
Qed.

(** ** The zenith angle as a function of the moment *)

Definition xpole : R := arcsec 0.0349282.
Definition ypole : R := arcsec 0.4833163.
Definition tcent (D n : R) : R := (n + (D + 32.184) / 86400) / 36525.
Definition eran (n : R) : R := 2 * PI * (0.7790572732640 + 1.00273781191135448 * (n + - 0.072073685 / 86400)).
Definition zang (z : vec3 realA) (D n : R) : R := acos (unit_dot z (sunv (tcent D n) (eran n) xpole ypole)).

Lemma tcent_small : forall D n, -2 <= D <= 40 -> Rabs n <= 36524 -> Rabs (tcent D n) <= 1.
Proof. intros D n HD Hn. unfold tcent. apply Rabs_le_inv in Hn. apply Rabs_le. lra. Qed.

Lemma sza_formula : forall p par c k, sun_new (A := realA) p par = Val c ->
  accepted (sp_date (A := realA) par) -> (year (sp_date (A := realA) par) <= 1465072)%Z -> day_count mjd_epoch (of_date (sp_date (A := realA) par)) k ->
  nrm (zenith_of (sp_position (A := realA) par)) = 1 /\
  exists D, -2 <= D <= 40 /\ forall ds, let n := ut_days k (clock (sp_time (A := realA) par) + ds) in Rabs n <= 36524 ->
  exists r, sun_compute (A := realA) c ds = Val r /\ sr_sza (A := realA) r = zang (zenith_of (sp_position (A := realA) par)) D n.
Proof.
  intros p par c k H Hg Hy Hk.
  destruct (C51_times_pf p par c 0 H) as (_ & _ & _ & _ & _ & _ & _ & _ & _ & (o & Do & _) & _ & _).
  split; [destruct (C51_geometry_pf p par c 0 H) as (_ & _ & _ & _ & _ & _ & _ & _ & _ & LZ & _); exact LZ|].
  set (D := match o with Some d => d | None => 0 end). exists D.
  assert (DR : -2 <= D <= 40) by (exact (L_AlmanacDat.dat_range p _ _ o Hg ltac:(lia) Do)). split; [exact DR|]. intros ds n Hn.
  destruct (C51_times_pf p par c ds H) as (r & j0 & j1 & Er & _ & _ & TT & _ & UT & (o' & Do' & Dr) & _ & _).
  assert (EO : o' = o) by (rewrite Do in Do'; congruence). subst o'. fold D in Dr. rewrite Dr in TT.
  destruct (C51_geometry_pf p par c ds H) as (r' & e & m & Er' & (d & Ed & Td) & Ee & Em & IM & LS & LZ & SR & SD).
  rewrite Er in Er'. assert (E : r' = r) by congruence. subst r'. exists r. split; [exact Er|].
  destruct (utc_days p par c ds r k H Er Hg Hy Hk) as [EN _]. fold n in EN. clear Er Do Do' Dr H Hg Hy.
  set (pos := sp_position (A := realA) par) in *. clearbody pos.
  set (t := centuries (sr_tt (A := realA) r)) in *. clearbody D.
  assert (Et0 : 36525 * t = tt_total (A := realA) (sr_tt (A := realA) r) - 2451545) by (unfold t, centuries, tt_total; realA_ops; field).
  assert (Et : t = tcent D n) by (unfold tcent; clearbody t; change (num realA) with R in *; lra).
  assert (Ht : Rabs t <= 1) by (rewrite Et; apply tcent_small; assumption).
  assert (PE : sr_earth (A := realA) r = place (36525 * t)).
  { rewrite Ee. unfold place, day. rewrite earth_pos_vel_val in Ed. assert (e = epv_val realA d) by congruence. subst e. f_equal. f_equal.
    assert (OI : forall a b : EarthPosVel realA, Val a = Val b -> a = b) by congruence. apply OI. rewrite <- !earth_pos_vel_val. destruct d as [a b]. apply (proj2 C42_total_date_pf).
    cbn [tdb_1 tdb_2] in Td. rewrite Et0. change (num realA) with R in *. lra. }
  destruct (L_PAccC2t.C69_exact_pf (sr_tt (A := realA) r)) as [_ C2]; [fold t; lra|]. rewrite C2 in Em. injection Em as <-. fold t in IM. clear C2.
  assert (Eu : era_of (sr_ut1 (A := realA) r) = eran n).
  { unfold era_of, eran. f_equal. f_equal. f_equal. unfold ut1_total in UT. realA_ops. lra. }
  rewrite Eu in IM. fold xpole ypole in IM. rewrite PE in IM.
  assert (EY : sr_sun_e (A := realA) r = scl 149597870700 (sunv t (eran n) xpole ypole)).
  { apply vec_ext. intros i. rewrite (IM i). unfold sunv. rewrite <- col_scl. rewrite (col_image _ _ i). unfold sun_of, scl, coord. cbn [vget v0 v1 v2]. lra. }
  unfold zang. rewrite <- Et. set (y := sunv t (eran n) xpole ypole) in *.
  assert (NY : 0 < nrm y).
  { unfold y, sunv. rewrite col_nrm, nrm_neg; [pose proof (place_size t Ht); lra|]. unfold C2T. rewrite product_3. apply proper_mm; [apply proper_mm; [apply W_proper|unfold R3; apply rot3_proper]|apply C2I_proper, Ht]. }
  clear - SD SR LZ EY NY Eu.
  assert (NZ : nrm (zenith_of pos) = 1) by exact LZ.
  assert (CT : unit_dot (zenith_of pos) y = cos (sr_sza (A := realA) r)).
  { rewrite EY in SD. unfold length3 in SD. change (R_sqrt.sqrt (sprod (scl 149597870700 y) (scl 149597870700 y))) with (nrm (scl 149597870700 y)) in SD. rewrite scl_nrm in SD by lra.
    replace (sprod (zenith_of pos) (scl 149597870700 y)) with (149597870700 * sprod (zenith_of pos) y) in SD by (unfold scl, sprod, coord; cbn [vget v0 v1 v2]; lra).
    unfold unit_dot. rewrite NZ. set (q := sprod (zenith_of pos) y) in *. set (w := nrm y) in *. clearbody q w. set (cz := cos _) in *. clearbody cz.
    assert (q = w * cz) by (apply (Rmult_eq_reg_l 149597870700); lra). subst q. field. lra. }
  rewrite CT, acos_cos by exact SR. reflexivity.
Qed.

Lemma sunv_nrm : forall t a xp yp, Rabs t <= 1 -> nrm (sunv t a xp yp) = nrm (place (36525 * t)).
Proof.
  intros t a xp yp Ht. unfold sunv. rewrite col_nrm; [apply nrm_neg|]. unfold C2T. rewrite product_3.
  apply proper_mm; [apply proper_mm; [apply W_proper|unfold R3; apply rot3_proper]|apply C2I_proper, Ht].
Qed.

(** One second: at most 7.33 hundred-thousandths of a radian. *)
Lemma zang_step : forall z D n n', nrm z = 1 -> -2 <= D <= 40 -> Rabs n <= 36524 -> Rabs n' <= 36524 -> Rabs (n - n') <= 1 / 86400 ->
  Rabs (zang z D n - zang z D n') <= 6.3332 * Rabs (n - n').
Proof.
  intros z D n n' Hz HD Hn Hn' Hs. pose proof (tcent_small D n HD Hn) as Ht. pose proof (tcent_small D n' HD Hn') as Ht'. pose proof PI_bounds as PB.
  unfold zang. pose proof (sunv_dist _ _ (eran n) (eran n') xpole ypole Ht Ht') as Dist.
  pose proof (place_size _ Ht') as PS'. pose proof (place_size _ Ht) as PS.
  set (y := sunv (tcent D n) (eran n) xpole ypole) in *. set (y' := sunv (tcent D n') (eran n') xpole ypole) in *.
  assert (Ny : nrm y = nrm (place (36525 * tcent D n))) by (apply sunv_nrm; exact Ht).
  assert (Ny' : nrm y' = nrm (place (36525 * tcent D n'))) by (apply sunv_nrm; exact Ht').
  rewrite <- Ny in PS. rewrite <- Ny' in PS', Dist.
  assert (ET : Rabs (tcent D n - tcent D n') = Rabs (n - n') / 36525).
  { unfold tcent. replace ((n + (D + 32.184) / 86400) / 36525 - (n' + (D + 32.184) / 86400) / 36525) with ((n - n') * / 36525) by field.
    rewrite Rabs_mult, (Rabs_pos_eq (/ 36525)) by lra. reflexivity. }
  assert (EE : Rabs (eran n - eran n') = 2 * PI * 1.00273781191135448 * Rabs (n - n')).
  { unfold eran. replace (2 * PI * (0.7790572732640 + 1.00273781191135448 * (n + - 0.072073685 / 86400)) - 2 * PI * (0.7790572732640 + 1.00273781191135448 * (n' + - 0.072073685 / 86400)))
      with (2 * PI * 1.00273781191135448 * (n - n')) by ring. rewrite Rabs_mult, (Rabs_pos_eq (2 * PI * _)) by lra. reflexivity. }
  rewrite ET, EE in Dist. pose proof (Rabs_pos (n - n')) as P. set (h := Rabs (n - n')) in *. clearbody h. clear Ny Ny' ET EE Ht Ht'. clearbody y y'.
  set (r := nrm y') in *.
  assert (PI_h : 2 * PI * 1.00273781191135448 * h <= 6.30039 * h) by (apply Rmult_le_compat_r; lra).
  assert (DD : nrm (sub y y') <= 6.3325 * h * r).
  { eapply Rle_trans; [exact Dist|]. assert (0.0176 * 36525 * (h / 36525) <= 0.01834 * h * r) by nra. 
    assert ((2 * PI * 1.00273781191135448 * h + 67 * (h / 36525)) * r <= (6.30039 * h + 0.001835 * h) * r) by (apply Rmult_le_compat_r; lra). nra. }
  set (s' := scl (/ r) y'). assert (Hs' : nrm s' = 1) by (unfold s'; rewrite scl_nrm by (left; apply Rinv_0_lt_compat; lra); fold r; field; lra).
  assert (W : forall i, coord y' i = r * coord s' i) by (intros [| |]; unfold s', scl, coord; cbn [vget v0 v1 v2]; symmetry; rewrite <- Rmult_assoc, Rinv_r by lra; apply Rmult_1_l).
  destruct (angle_close y s' y' r (6.3325 * h) Hs' ltac:(lra) ltac:(lra) W DD) as [NY A].
  assert (ES : unit_dot s' y = unit_dot y' y).
  { unfold unit_dot. rewrite Hs'. fold r. replace (sprod s' y) with (/ r * sprod y' y) by (unfold s', scl; destruct y, y'; vec_calc; ring). field. lra. }
  rewrite ES in A. pose proof (asin_le (6.3325 * h) ltac:(lra)) as AL.
  pose proof (angle_triangle z y' y ltac:(lra) ltac:(fold r; lra) NY) as T1. pose proof (angle_triangle z y y' ltac:(lra) NY ltac:(fold r; lra)) as T2.
  replace (unit_dot y y') with (unit_dot y' y) in T2 by (unfold unit_dot; rewrite (Rmult_comm (nrm y)); f_equal; unfold sprod; ring).
  apply Rabs_le. lra.
Qed.

Lemma INR_above : forall q, 0 <= q -> exists m, q < INR m.
Proof.
  intros q Hq. destruct (archimed q) as [U _]. exists (Z.to_nat (up q)). rewrite INR_IZR_INZ, Z2Nat.id; [lra|]. apply le_IZR. lra.
Qed.
Lemma chain : forall (h : R -> R) lo hi d L, 0 < d -> (forall x y, lo <= x <= hi -> lo <= y <= hi -> Rabs (x - y) <= d -> Rabs (h x - h y) <= L * Rabs (x - y)) ->
  forall x y, lo <= x <= hi -> lo <= y <= hi -> Rabs (h x - h y) <= L * Rabs (x - y).
Proof.
  intros h lo hi d L Hd H.
  assert (G : forall m x y, lo <= x <= hi -> lo <= y <= hi -> x <= y -> y - x <= INR m * d -> Rabs (h x - h y) <= L * (y - x)).
  { induction m as [|m IH]; intros x y Hx Hy Hxy Hm.
    - cbn [INR] in Hm. assert (x = y) by lra. subst. rewrite !Rminus_diag_eq, Rabs_R0 by reflexivity. lra.
    - rewrite S_INR in Hm. destruct (Rle_lt_dec (y - x) d) as [C|C].
      + specialize (H x y Hx Hy). rewrite (Rabs_left1 (x - y)) in H by lra. replace (y - x) with (- (x - y)) by ring. apply H. lra.
      + specialize (H x (x + d) Hx ltac:(lra)). replace (x - (x + d)) with (- d) in H by ring. rewrite Rabs_Ropp, (Rabs_pos_eq d) in H by lra. specialize (H ltac:(lra)).
        specialize (IH (x + d) y ltac:(lra) Hy ltac:(lra) ltac:(lra)). replace (h x - h y) with ((h x - h (x + d)) + (h (x + d) - h y)) by ring.
        eapply Rle_trans; [apply Rabs_triang|]. lra. }
  assert (K : forall x y, lo <= x <= hi -> lo <= y <= hi -> x <= y -> Rabs (h x - h y) <= L * (y - x)).
  { intros x y Hx Hy Hxy. destruct (INR_above ((y - x) / d)) as [m Hm]; [apply Rmult_le_pos; [lra|left; apply Rinv_0_lt_compat, Hd]|]. apply (G m); try assumption.
    apply (Rmult_le_reg_r (/ d)); [apply Rinv_0_lt_compat, Hd|]. replace (INR m * d * / d) with (INR m) by (field; lra). unfold Rdiv in Hm. lra. }
  intros x y Hx Hy. destruct (Rle_lt_dec x y) as [C|C].
  - rewrite (Rabs_left1 (x - y)) by lra. specialize (K x y Hx Hy C). lra.
  - rewrite Rabs_minus_sym, (Rabs_pos_eq (x - y)) by lra. specialize (K y x Hy Hx ltac:(lra)). lra.
Qed.

Lemma zang_lip : forall z D n n', nrm z = 1 -> -2 <= D <= 40 -> Rabs n <= 36524 -> Rabs n' <= 36524 ->
  Rabs (zang z D n - zang z D n') <= 6.3332 * Rabs (n - n').
Proof.
  intros z D n n' Hz HD Hn Hn'. apply (chain (zang z D) (-36524) 36524 (1 / 86400) 6.3332 ltac:(lra)); [|apply Rabs_le_inv; assumption|apply Rabs_le_inv; assumption].
  intros x y Hx Hy. apply zang_step; try assumption; apply Rabs_le; assumption.
Qed.

(** C90.  Let the request be accepted and let two moments given as seconds after the
    request's time lie within 36524 days of noon UT of 2000 January 1.  compute
    succeeds for both, and the two solar zenith angles differ by at most 0.0042
    degrees for each second between the moments. *)
Lemma C90_rate_pf : forall p par c ds ds' k, sun_new (A := realA) p par = Val c ->
  accepted (sp_date (A := realA) par) -> (year (sp_date (A := realA) par) <= 1465072)%Z -> day_count mjd_epoch (of_date (sp_date (A := realA) par)) k ->
  Rabs (ut_days k (clock (sp_time (A := realA) par) + ds)) <= 36524 -> Rabs (ut_days k (clock (sp_time (A := realA) par) + ds')) <= 36524 ->
  exists r r', sun_compute (A := realA) c ds = Val r /\ sun_compute (A := realA) c ds' = Val r' /\
  Rabs (sr_sza (A := realA) r - sr_sza (A := realA) r') <= degrees 0.0042 * Rabs (ds - ds').
Proof.
  intros p par c ds ds' k H Hg Hy Hk Hn Hn'. destruct (sza_formula p par c k H Hg Hy Hk) as (Hz & D & HD & F).
  destruct (F ds Hn) as (r & Er & Z). destruct (F ds' Hn') as (r' & Er' & Z'). exists r, r'. split; [exact Er|]. split; [exact Er'|]. rewrite Z, Z'.
  eapply Rle_trans; [apply zang_lip; assumption|].
  replace (ut_days k (clock (sp_time (A := realA) par) + ds) - ut_days k (clock (sp_time (A := realA) par) + ds')) with ((ds - ds') * / 86400) by (unfold ut_days; field).
  rewrite Rabs_mult, (Rabs_pos_eq (/ 86400)) by lra. pose proof (Rabs_pos (ds - ds')). set (h := Rabs (ds - ds')) in *. clearbody h. clear - H0.
  replace (6.3332 * (h * / 86400)) with (6.3332 / 86400 * h) by field. apply Rmult_le_compat_r; [exact H0|]. unfold degrees. pose proof PI_bounds. lra.
Qed.

(** C90 in binary64: for the usual inputs, a latitude of at least 25 degrees north
    or south and any two offsets, compute succeeds and the two binary64 zenith
    angles are finite and differ by at most 0.0042 degrees per second between the
    offsets plus 0.2 microradians. *)
Lemma C90_rate_b64_pf : forall lm, good_libm lm -> forall p g h m s lo la ht ds ds',
  usual_inputs g h m s lo la ht ds -> usual_inputs g h m s lo la ht ds' -> 25 <= Rabs (B2R la) <= 90 ->
  exists c r r', sun_new (A := b64A lm) p (parF lm g h m s lo la ht) = Val c /\ sun_compute (A := b64A lm) c ds = Val r /\ sun_compute (A := b64A lm) c ds' = Val r' /\
  is_finite (sr_sza (A := b64A lm) r) = true /\ is_finite (sr_sza (A := b64A lm) r') = true /\
  Rabs (B2R (sr_sza (A := b64A lm) r) - B2R (sr_sza (A := b64A lm) r')) <= degrees 0.0042 * Rabs (B2R ds - B2R ds') + 2 / 10 ^ 7.
Proof.
  intros lm G p g h m s lo la ht ds ds' U U' Hl.
  assert (OI : forall X (a b : X), Val a = Val b -> a = b) by congruence.
  pose proof U as (Hg & Hy & _).
  assert (K : day_count mjd_epoch (of_date g) (L_Calendar.mjd (of_date g))).
  { pose proof (proj1 (L_PCalendar.accepted_spec _) Hg) as [V _]. apply L_Calendar.mjd_epoch_count. exact V. }
  set (k := L_Calendar.mjd (of_date g)) in *.
  destruct (L_PAccSun.C72_sun_accuracy_pf lm G p g h m s lo la ht ds U) as (c & r & e & q & E1 & E2 & E3 & E4 & _).
  destruct (L_PAccSun.C72_sun_accuracy_pf lm G p g h m s lo la ht ds' U') as (c' & r' & e' & q' & E1' & E2' & E3' & E4' & _).
  rewrite E1 in E1'. apply OI in E1'. subst c'. rewrite E3 in E3'. apply OI in E3'. subst e'.
  exists c, r, r'. split; [exact E1|]. split; [exact E2|]. split; [exact E2'|].
  destruct (L_PAccSun.C72_zenith_angle_pf lm G p g h m s lo la ht ds U c r e q E1 E2 E3 E4) as [Z _].
  destruct (L_PAccSun.C72_zenith_angle_pf lm G p g h m s lo la ht ds' U' c r' e q' E1 E2' E3 E4') as [Z' _].
  pose proof (usual_days _ _ _ _ _ _ _ _ k U K) as N. pose proof (usual_days _ _ _ _ _ _ _ _ k U' K) as N'.
  assert (Y : (year g <= 1465072)%Z) by lia.
  destruct (C90_rate_pf p (parR g h m s lo la ht) e (B2R ds) (B2R ds') k E3 Hg Y K N N') as (x & x' & X & X' & L).
  rewrite E4 in X. apply OI in X. subst x. rewrite E4' in X'. apply OI in X'. subst x'.
  destruct (C88_tropics_pf p (parR g h m s lo la ht) e (B2R ds) k E3 Hg Y K N ltac:(apply Rabs_le_inv; exact (proj2 Hl))) as (x & X & T). rewrite E4 in X. apply OI in X. subst x.
  destruct (C88_tropics_pf p (parR g h m s lo la ht) e (B2R ds') k E3 Hg Y K N' ltac:(apply Rabs_le_inv; exact (proj2 Hl))) as (x & X & T'). rewrite E4' in X. apply OI in X. subst x.
  cbn [parR sp_position lat] in T, T'. change (lat (A := realA) (MkG360 (A := realA) (B2R lo) (B2R la) (B2R ht))) with (B2R la) in T, T'.
  set (a := sr_sza (A := realA) q) in *. set (a' := sr_sza (A := realA) q') in *. clearbody a a'. pose proof PI_bounds as PB.
  destruct Z as [[F Z] _]; [unfold degrees in T; clear - T Hl PB; set (w := Rabs (B2R la)) in *; clearbody w; nra|].
  destruct Z' as [[F' Z'] _]; [unfold degrees in T'; clear - T' Hl PB; set (w := Rabs (B2R la)) in *; clearbody w; nra|].
  split; [exact F|]. split; [exact F'|]. set (b := B2R (sr_sza (A := b64A lm) r)) in *. set (b' := B2R (sr_sza (A := b64A lm) r')) in *. clearbody b b'.
  replace (b - b') with ((b - a) + (a - a') + - (b' - a')) by ring. eapply Rle_trans; [apply Rabs_triang|]. rewrite Rabs_Ropp. eapply Rle_trans; [apply Rplus_le_compat_r, Rabs_triang|]. lra.
Qed.

(** C90 at 45 degrees north and 0 degrees east on 2000 January 1: between 12h and
    13h the binary64 zenith angle changes by at most 15.2 degrees. *)
Example C90_example_pf : forall lm, good_libm lm -> forall p, exists c r r',
  sun_new (A := b64A lm) p (parF lm (MkDate 2000 1 1) 12 0 (Flit 0 0) (Flit 0 0) (Flit 45 0) (Flit 0 0)) = Val c /\
  sun_compute (A := b64A lm) c (Flit 0 0) = Val r /\ sun_compute (A := b64A lm) c (Flit 3600 0) = Val r' /\
  Rabs (B2R (sr_sza (A := b64A lm) r) - B2R (sr_sza (A := b64A lm) r')) <= degrees 15.2.
Proof.
  intros lm G p. destruct L_ArithF.lit_0 as [E0 F0].
  assert (E45 : B2R (Flit 45 0) = 45 /\ is_finite (Flit 45 0) = true) by L_ArithF.flit_prove. destruct E45 as [E45 F45].
  assert (EH : B2R (Flit 3600 0) = 3600 /\ is_finite (Flit 3600 0) = true) by L_ArithF.flit_prove. destruct EH as [EH FH].
  assert (U : usual_inputs (MkDate 2000 1 1) 12 0 (Flit 0 0) (Flit 0 0) (Flit 45 0) (Flit 0 0) (Flit 0 0)).
  { unfold usual_inputs. cbn [year]. rewrite !E0, ?E45. repeat match goal with |- _ /\ _ => split end; try assumption; try lia; try lra; try (apply Rabs_le; lra). reflexivity. }
  assert (U' : usual_inputs (MkDate 2000 1 1) 12 0 (Flit 0 0) (Flit 0 0) (Flit 45 0) (Flit 0 0) (Flit 3600 0)).
  { unfold usual_inputs. cbn [year]. rewrite !E0, ?E45, ?EH. repeat match goal with |- _ /\ _ => split end; try assumption; try lia; try lra; try (apply Rabs_le; lra). reflexivity. }
  destruct (C90_rate_b64_pf lm G p _ _ _ _ _ _ _ _ _ U U') as (c & r & r' & T1 & T2 & T3 & _ & _ & T4); [rewrite E45, Rabs_pos_eq; lra|].
  exists c, r, r'. split; [exact T1|]. split; [exact T2|]. split; [exact T3|]. eapply Rle_trans; [exact T4|].
  rewrite E0, EH. replace (0 - 3600) with (- (3600)) by ring. rewrite Rabs_Ropp, Rabs_pos_eq by lra. unfold degrees. pose proof PI_bounds. lra.
Qed.
