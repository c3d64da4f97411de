(** * Proofs of the properties of the command-line tools *)

From Coq Require Import ZArith Ascii String Reals Lra Lia Bool List Psatz.
From Flocq Require Import Core BinarySingleNaN.
From Verif Require Import Outcome Arith ArithR ArithF Spec_Float Spec_Accuracy M_Common M_Calendar M_Time M_DeltaAt M_Earth M_Frames M_Ellipsoid M_SunAngle M_Display M_Tools.
From Verif Require Import Spec_Calendar Spec_Api Spec_Matrix Spec_Frames Spec_Series Spec_Sun Spec_SunAcc Spec_Display Spec_Tools.
From Verif Require Import L_ArithF L_ArithR L_Flit L_Apx L_ApxAngle L_ApxSun L_PAccuracy L_PAccSun L_PSunAngle L_PTimeOfDay L_PDisplay L_FromJulianF L_HMS L_Shows.
From Verif Require Import L_Calendar L_PCalendar L_ApxDat.
From Verif Require L_Pi L_PAngles.
Import ListNotations.
Open Scope string_scope.
Open Scope R_scope.

Definition udeg_expr {A : arith} (x : num A) : num A := div A x (DEGREE (A := A)).
Lemma udeg_eval : forall (A : arith) (x : num A), eval A [x] (udeg_expr (A := exprA) (EVar 0)) = udeg_expr x.
Proof. reflexivity. Qed.

Lemma udeg_R : forall x, udeg_expr (A := realA) x = deg x.
Proof. intros x. unfold udeg_expr, deg, DEGREE. realA_ops. rewrite (Rlit_0 180). pose proof PI_RGT_0. field. lra. Qed.

Definition b_udeg : bnd := Eval vm_compute in match bound [B (-7 * one) (7 * one) 0] (udeg_expr (A := exprA) (EVar 0)) with Some b => b | None => B 0 0 0 end.

(** Radians to degrees. *)
Lemma near_udeg : forall lm, good_libm lm -> forall x v e, fin x = true -> Rabs (B2R x) <= 7 -> Rabs (B2R x - v) <= e ->
  near (div (b64A lm) x (DEGREE (A := b64A lm))) (deg v) (57.3 * e + / 10 ^ 12).
Proof.
  intros lm G x v e F H D. pose proof H as H7. apply Rabs_le_inv in H.
  assert (E : bound [B (-7 * one) (7 * one) 0] (udeg_expr (A := exprA) (EVar 0)) = Some b_udeg) by (vm_compute; reflexivity).
  assert (C : (er b_udeg * 10 ^ 12 <=? 1 * one)%Z = true) by (vm_compute; reflexivity).
  pose proof (bound_ok lm G _ _ _ (apxl_cons (apx_var x (- 7) 7 F H) apxl_nil) _ _ E) as K.
  rewrite (udeg_eval (b64A lm)), (udeg_eval realA), udeg_R in K.
  pose proof (near_of_apx _ _ _ 1 (10 ^ 12) K eq_refl C) as [FK DK]. clear K E C. unfold udeg_expr in FK, DK.
  split; [exact FK|]. set (y := B2R (div (b64A lm) x DEGREE)) in *. clearbody y.
  assert (DD : Rabs (deg (B2R x) - deg v) <= 57.3 * e).
  { unfold deg. pose proof L_Pi.PI_bounds_24 as PB. replace (B2R x * 180 / PI - v * 180 / PI) with (180 / PI * (B2R x - v)) by (field; lra).
    rewrite Rabs_mult. apply Rmult_le_compat; try apply Rabs_pos; [|exact D].
    assert (IP : 0 < / PI) by (apply Rinv_0_lt_compat; lra). rewrite Rabs_pos_eq by (unfold Rdiv; lra).
    apply Rmult_le_reg_r with PI; [lra|]. unfold Rdiv. rewrite Rmult_assoc, Rinv_l by lra. lra. }
  replace (IZR 1 / IZR (10 ^ 12)) with (/ 10 ^ 12) in DK by (change (10 ^ 12)%Z with 1000000000000%Z; lra).
  apply Rabs_le_inv in DK. apply Rabs_le_inv in DD. apply Rabs_le. lra.
Qed.

Lemma near_sum : forall a b A0 B0 e, near a A0 0 -> near b B0 e -> e <= 1 / 10 ^ 10 -> 0 <= A0 + B0 <= 2600000 ->
  near (Fadd a b) (A0 + B0) (e + 3 / 10 ^ 10).
Proof.
  intros a b A0 B0 e [Fa Ea] [Fb Eb] He H. assert (E0 : B2R a = A0) by (apply Rabs_le_inv in Ea; lra).
  apply Rabs_le_inv in Eb. assert (SM : Rabs (B2R a + B2R b) <= 2600001) by (apply Rabs_le; lra).
  destruct (Fadd_ok a b Fa Fb) as [V FF].
  { unfold small. apply Rle_trans with (bpow radix2 30); [|apply bpow_le; lia]. change (bpow radix2 30) with 1073741824. lra. }
  split; [exact FF|]. rewrite V. pose proof (rnd_rel (B2R a + B2R b)) as R.
  change (bpow radix2 (-52)) with (/ 4503599627370496) in R.
  assert (T : bpow radix2 (-1074) <= / 4503599627370496) by (change (/ 4503599627370496) with (bpow radix2 (-52)); apply bpow_le; lia).
  assert (U : / 2 * / 4503599627370496 * Rabs (B2R a + B2R b) <= / 2 * / 4503599627370496 * 2600001) by (apply Rmult_le_compat_l; lra).
  set (s := B2R a + B2R b) in *. apply Rabs_le_inv in SM. set (q := Rabs (rnd s - s)) in *.
  assert (Q : q <= 2.9 / 10 ^ 10) by lra. unfold q in Q. apply Rabs_le_inv in Q. unfold s in *. apply Rabs_le. lra.
Qed.

Lemma near_minus90 : forall lm (x : b64) v e, near x v e -> e <= 1 -> Rabs v <= 200 ->
  near (sub (b64A lm) (lit (b64A lm) 90 0) x) (90 - v) (e + / 10 ^ 12).
Proof.
  intros lm x v e [F E] He Hv. b64A_ops. destruct (Flit_int 90 ltac:(lia)) as [V90 F90].
  apply Rabs_le_inv in E. apply Rabs_le_inv in Hv. assert (SM : Rabs (B2R (Flit 90 0) - B2R x) <= 300) by (rewrite V90; apply Rabs_le; lra).
  destruct (Fsub_ok _ _ F90 F) as [V FF].
  { unfold small. apply Rle_trans with (bpow radix2 30); [|apply bpow_le; lia]. change (bpow radix2 30) with 1073741824. lra. }
  split; [exact FF|]. rewrite V. pose proof (rnd_rel (B2R (Flit 90 0) - B2R x)) as R.
  change (bpow radix2 (-52)) with (/ 4503599627370496) in R.
  assert (T : bpow radix2 (-1074) <= / 4503599627370496) by (change (/ 4503599627370496) with (bpow radix2 (-52)); apply bpow_le; lia).
  set (s := B2R (Flit 90 0) - B2R x) in *.
  assert (U : / 2 * / 4503599627370496 * Rabs s <= / 2 * / 4503599627370496 * 300) by (apply Rmult_le_compat_l; lra).
  set (q := Rabs (rnd s - s)) in *. assert (Q : q <= / 10 ^ 12) by lra. unfold q in Q. apply Rabs_le_inv in Q. unfold s in *. rewrite V90 in *. apply Rabs_le. lra.
Qed.

Lemma rot_anp : forall (A : arith) (u : UT1 A), exists y, rotation_angle (A := A) u = anp (A := A) y.
Proof. intros A u. unfold rotation_angle. destruct (ltb A (ut1_1 u) (ut1_2 u)); eexists; reflexivity. Qed.

Lemma era_small : forall lm u, fin (rotation_angle (A := b64A lm) u) = true -> Rabs (B2R (rotation_angle (A := b64A lm) u)) <= 7.
Proof.
  intros lm u F. destruct (rot_anp (b64A lm) u) as [y E]. rewrite E in *. clear E.
  destruct (fin y) eqn:Fy.
  - destruct (L_PAngles.C28_anp_b64_pf lm y Fy) as (_ & [B0 B1] & _). cbv zeta in B0, B1.
    destruct (C64_constants_pf lm) as (_ & [_ T] & _). pose proof L_Pi.PI_bounds_24 as PB. apply Rabs_le_inv in T.
    apply Rabs_le. lra.
  - pose proof (L_PAngles.C28_anp_b64_not_finite_pf lm y Fy) as NN. set (z := anp (A := b64A lm) y) in *. clearbody z.
    assert (K : forall z : b64, fin z = true -> is_nan z = true -> False) by (intros [] ? ?; discriminate). exfalso. exact (K z F NN).
Qed.

(** Ranges of the exact quantities. *)
Lemma exact_ranges : forall lm, good_libm lm -> forall p g h m s lo la ht ds, usual_inputs g h m s lo la ht ds ->
  forall c' r', sun_new (A := realA) p (parR g h m s lo la ht) = Val c' -> sun_compute (A := realA) c' (B2R ds) = Val r' ->
  sr_jd0 (A := realA) r' = 2400000.5 /\ 15000 <= sr_jd1 (A := realA) r' <= 90000 /\
  utc_total (A := realA) (sr_utc (A := realA) r') = sr_jd0 (A := realA) r' + sr_jd1 (A := realA) r' /\
  2400000 <= tai_total (A := realA) (sr_tai (A := realA) r') <= 2500000 /\
  2400000 <= tt_total (A := realA) (sr_tt (A := realA) r') <= 2500000 /\
  2400000 <= ut1_total (A := realA) (sr_ut1 (A := realA) r') <= 2500000 /\ sr_delta_s (A := realA) r' = B2R ds.
Proof.
  intros lm G p g h m s lo la ht ds (Hg & Hy & Hh & Hm & Fs & Bs & Fo & Bo & Fa & Ba & Ft & Bt & Fd & Bd) c' r' Hc Hr.
  assert (OI : forall X (a b : X), Val a = Val b -> a = b) by congruence.
  assert (OK : forall X Y (a b : X), @Ok X Y a = Ok b -> a = b) by congruence.
  destruct (C51_times_pf p _ _ (B2R ds) Hc) as (q & j0 & j1 & Q1 & Q2 & U & T & A1 & U1 & (o & O1 & O2) & _ & DS).
  rewrite Hr in Q1. apply OI in Q1. subst q.
  destruct (C51_place_pf p _ _ (B2R ds) Hc) as (q & i0 & i1 & Q1 & P2 & J0 & J1 & UE & _).
  rewrite Hr in Q1. apply OI in Q1. subst q. rewrite Q2 in P2. apply OI in P2.
  assert (E0 : i0 = j0) by congruence. assert (E1 : i1 = j1) by congruence. subst i0 i1. clear P2.
  unfold parR in Q2, O1, U, J1. cbn [sp_date sp_time] in Q2, O1, U, J1.
  assert (HJ : to_mjd p g = Val (mjd (of_date g))) by (apply to_mjd_accepted; [exact Hg|lia]).
  pose proof (L_ApxDat.mjd_between g 1901 2098 Hg ltac:(lia) ltac:(lia)) as MB.
  change (mjd (1901, 1, 1)%Z) with 15385%Z in MB. change (mjd (2098, 12, 31)%Z) with 87703%Z in MB.
  unfold to_julian in Q2. rewrite HJ in Q2. cbn [bind] in Q2. set (n := mjd (of_date g)) in *. clearbody n.
  apply OI in Q2. assert (Z0 : MJD_ZERO (A := realA) = j0) by congruence. assert (Z1 : of_int realA n = j1) by congruence. clear Q2.
  rewrite mjd0_R in Z0. realA_ops. 
  assert (N1 : 15385 <= IZR n <= 87703) by (split; apply IZR_le; lia).
  assert (CK : 0 <= clock (MkHMS (A := realA) h m (B2R s)) <= 86400).
  { unfold clock. cbn [hour minute second]. assert (0 <= IZR h <= 23) by (split; apply IZR_le; lia).
    assert (0 <= IZR m <= 59) by (split; apply IZR_le; lia). change (num realA) with R in *. lra. }
  destruct (fr_ok lm G h m s Hh Hm Fs Bs) as [AF RF]. cbv zeta in AF, RF.
  assert (NR : (Bltb (hms_to_fraction (A := b64A lm) (MkHMS (A := b64A lm) h m s)) (Flit 0 0)) || (Bltb (Flit 1 0) (hms_to_fraction (A := b64A lm) (MkHMS (A := b64A lm) h m s))) = false).
  { destruct (C18_hms_roundtrip_b64_partial_pf lm h m s Hh Hm Fs Bs) as (h' & m' & s' & E & _).
    unfold hms_from_fraction in E. b64A_ops.
    match goal with |- ?b = false => destruct b eqn:K end; [|reflexivity]. discriminate E. }
  destruct (dat_sun lm p g _ _ Hg ltac:(lia) AF NR RF) as (x & o' & Ho & Ho' & AD).
  rewrite O1 in Ho'. apply OI in Ho'. apply OK in Ho'. subst o'.
  destruct AD as (_ & DB & _). unfold b_dat in DB. cbn [L_Apx.lo L_Apx.hi] in DB.
  change (-2 * one)%Z with ((-2) * one)%Z in DB. rewrite !val_int in DB.
  assert (DD : -2 <= sr_dat (A := realA) r' <= 40).
  { rewrite O2. unfold datd in DB. realA_ops. destruct o; [exact DB|lra]. }
  apply Rabs_le_inv in Bd. clear AF NR Ho DB O1 O2 UE.
  set (k := clock _) in *. clearbody k. set (tai := tai_total (A := realA) _) in *. set (tt := tt_total (A := realA) _) in *. set (ut := ut1_total (A := realA) _) in *. set (utc := utc_total (A := realA) _) in *.
  set (d := sr_dat (A := realA) r') in *. clearbody tai tt ut utc d. set (a0 := sr_jd0 (A := realA) r') in *. set (a1 := sr_jd1 (A := realA) r') in *. clearbody a0 a1.
  change (num realA) with R in *. subst j0 j1. 
  split; [lra|]. split; [lra|]. split; [lra|]. split; [lra|]. split; [lra|]. split; [lra|exact DS].
Qed.

Lemma bundle_report : forall tie lm, good_libm lm -> forall p g h m s lo la ht ds, usual_inputs g h m s lo la ht ds -> Bsign s = false ->
  forall c r c' r', sun_new (A := b64A lm) p (parF lm g h m s lo la ht) = Val c -> sun_compute (A := b64A lm) c ds = Val r ->
  sun_new (A := realA) p (parR g h m s lo la ht) = Val c' -> sun_compute (A := realA) c' (B2R ds) = Val r' ->
  report (display_bundle tie (parF lm g h m s lo la ht) r) (parR g h m s lo la ht) r'.
Proof.
  intros tie lm G p g h m s lo la ht ds HI SG c r c' r' H1 H2 H3 H4.
  pose proof (exact_ranges lm G p g h m s lo la ht ds HI c' r' H3 H4) as (X0 & X1 & XU & XA & XT & X1U & XD).
  destruct (C72_zenith_angle_pf lm G p g h m s lo la ht ds HI c r c' r' H1 H2 H3 H4) as [ZA _].
  destruct (C72_sun_accuracy_pf lm G p g h m s lo la ht ds HI) as (d & q & d' & q' & K1 & K2 & K3 & K4 & R).
  assert (OI : forall X (a b : X), Val a = Val b -> a = b) by congruence.
  rewrite H1 in K1. apply OI in K1. subst d. rewrite H2 in K2. apply OI in K2. subst q.
  rewrite H3 in K3. apply OI in K3. subst d'. rewrite H4 in K4. apply OI in K4. subst q'.
  assert (ER : sr_era (A := b64A lm) r = rotation_angle (A := b64A lm) (sr_ut1 (A := b64A lm) r)).
  { destruct (sun_compute_eq (A := b64A lm) c ds) as (e & mm & _ & _ & E). rewrite H2 in E. apply OI in E. rewrite E. reflexivity. }
  clear H1 H2 H3 H4.
  destruct R as (J0 & J1 & UT & DSE & DA & A1 & A2 & T1 & T2 & U1 & U2 & HE & HV & HP & HS & _).
  pose proof HI as (Hg & Hy & Hh & Hm & Fs & Bs & Fo & Bo & Fa & Ba & Ft & Bt & Fd & Bd).
  destruct HE as (FE & k & EK). pose proof FE as FE'. rewrite ER in FE'. pose proof (era_small lm _ FE') as SE. rewrite <- ER in SE. clear ER FE'.
  pose proof (near_udeg lm G _ _ _ FE SE EK) as [FD ED].
  set (era := div (b64A lm) (sr_era (A := b64A lm) r) DEGREE) in *.
  unfold display_bundle. cbv zeta. fold era. rewrite DSE, UT. unfold parF. cbn [sp_date sp_time sp_position].
  unfold display_360. cbn [lat lon height360]. unfold utc_total. cbn [utc_1 utc_2].
  assert (SJ : near (Fadd (sr_jd0 (A := b64A lm) r) (sr_jd1 (A := b64A lm) r)) (sr_jd0 (A := realA) r' + sr_jd1 (A := realA) r') (4 / 10 ^ 10)).
  { destruct (near_sum _ _ _ _ _ J0 J1 ltac:(lra) ltac:(lra)) as [F E]. split; [exact F|]. lra. }
  assert (SA : near (tai_total (A := b64A lm) (sr_tai (A := b64A lm) r)) (tai_total (A := realA) (sr_tai (A := realA) r')) (4 / 10 ^ 10)).
  { unfold tai_total in *. b64A_ops. realA_ops. destruct (near_sum _ _ _ _ _ A1 A2 ltac:(lra) ltac:(lra)) as [F E]. split; [exact F|]. lra. }
  assert (ST : near (tt_total (A := b64A lm) (sr_tt (A := b64A lm) r)) (tt_total (A := realA) (sr_tt (A := realA) r')) (4 / 10 ^ 10)).
  { unfold tt_total in *. b64A_ops. realA_ops. destruct (near_sum _ _ _ _ _ T1 T2 ltac:(lra) ltac:(lra)) as [F E]. split; [exact F|]. lra. }
  assert (SU : near (ut1_total (A := b64A lm) (sr_ut1 (A := b64A lm) r)) (ut1_total (A := realA) (sr_ut1 (A := realA) r')) (4 / 10 ^ 10)).
  { unfold ut1_total in *. b64A_ops. realA_ops. destruct (near_sum _ _ _ _ _ U1 U2 ltac:(lra) ltac:(lra)) as [F E]. split; [exact F|]. lra. }
  set (tai := tai_total (A := b64A lm) _) in *. set (tt := tt_total (A := b64A lm) _) in *. set (ut := ut1_total (A := b64A lm) _) in *.
  change (add (b64A lm) (sr_jd0 (A := b64A lm) r) (sr_jd1 (A := b64A lm) r)) with (Fadd (sr_jd0 (A := b64A lm) r) (sr_jd1 (A := b64A lm) r)).
  set (jj := Fadd _ _) in *. set (szd := div (b64A lm) (sr_sza (A := b64A lm) r) DEGREE).
  set (elv := sub (b64A lm) (lit (b64A lm) 90 0) szd).
  assert (SZ : 0.01 <= sr_sza (A := realA) r' <= PI - 0.01 -> near szd (deg (sr_sza (A := realA) r')) (5.3 / 10 ^ 6) /\ near elv (90 - deg (sr_sza (A := realA) r')) (5.3 / 10 ^ 6)).
  { intros Z. destruct (ZA Z) as [[FZ EZ] _]. pose proof L_Pi.PI_bounds_24 as PB.
    assert (B7 : Rabs (B2R (sr_sza (A := b64A lm) r)) <= 7) by (apply Rabs_le_inv in EZ; apply Rabs_le; lra).
    pose proof (near_udeg lm G _ _ _ FZ B7 EZ) as N1. fold szd in N1.
    assert (DG : Rabs (deg (sr_sza (A := realA) r')) <= 200).
    { unfold deg. set (z := sr_sza (A := realA) r') in *. clearbody z. change (num realA) with R in *.
      assert (0 <= z * 180 / PI) by (apply Rmult_le_pos; [lra|apply Rlt_le, Rinv_0_lt_compat; lra]).
      rewrite Rabs_pos_eq by assumption. apply Rmult_le_reg_r with PI; [lra|]. unfold Rdiv. rewrite Rmult_assoc, Rinv_l by lra. lra. }
    pose proof (near_minus90 lm szd _ _ N1 ltac:(lra) DG) as N2. fold elv in N2.
    destruct N1 as [F1 E1]. destruct N2 as [F2 E2]. split; [split; [exact F1|lra]|split; [exact F2|lra]]. }
  clearbody era jj tai tt ut szd elv. clear ZA FE EK SE.
  destruct (C54_form_pf g Hg ltac:(lia)) as (_ & DF).
  pose proof (shows_hms tie lm h m s ltac:(lia) ltac:(lia) Fs SG Bs) as HC.
  assert (DK : deg (sr_era (A := realA) r' + IZR k * (2 * PI)) = deg (sr_era (A := realA) r') + 360 * IZR k).
  { unfold deg. set (z := sr_era (A := realA) r'). clearbody z. change (num realA) with R in *. pose proof PI_RGT_0. field. lra. }
  rewrite DK in ED. clear DK.
  assert (SF : forall plus w n (x : b64) v e, near x v e -> shows n (fmt_float tie plus w n x) v e) by (intros plus w n x v e [F E]; apply shows_float; assumption).
  assert (S0 : forall w n (x : b64), fin x = true -> shows n (fmt_float_sign0 tie w n x) (B2R x) 0).
  { intros w n x F. apply shows_sign0; [exact F|]. unfold Rminus. rewrite Rplus_opp_r, Rabs_R0. lra. }
  assert (NE : forall x : b64, fin x = true -> near x (B2R x) 0).
  { intros x F. split; [exact F|]. unfold Rminus. rewrite Rplus_opp_r, Rabs_R0. lra. }
  unfold report.
  exists (display_date g), (display_hms tie (MkHMS (A := b64A lm) h m s)), (fmt_float tie true 13 6 ds).
  do 21 eexists. exists (fmt_float tie false 7 2 szd), (fmt_float tie false 7 2 elv), k.
  split; [reflexivity|]. unfold parR. cbn [sp_date sp_time sp_position hour minute second lat lon height360].
  rewrite XD, XU.
  split; [exact DF|]. split; [exact HC|]. split; [apply SF, NE, Fd|]. split; [apply SF, SJ|]. split; [apply SF, J0|]. split; [apply SF, J1|].
  split; [apply S0, Fa|]. split; [apply S0, Fo|]. split; [apply S0, Ft|].
  split; [apply SF, (HP I0)|]. split; [apply SF, (HP I1)|]. split; [apply SF, (HP I2)|].
  split; [apply SF, SJ|]. split; [apply SF, DA|]. split; [apply SF, SA|]. split; [apply SF, ST|]. split; [apply SF, SU|].
  split; [apply SF; split; [exact FD|lra]|].
  split; [apply SF, (HV I0)|]. split; [apply SF, (HV I1)|]. split; [apply SF, (HV I2)|].
  split; [apply SF, (HS I0)|]. split; [apply SF, (HS I1)|]. split; [apply SF, (HS I2)|].
  intros Z. destruct (SZ Z) as [Z1 Z2]. split; apply SF; assumption.
Qed.

(** ** The Sun angle tool *)

Lemma neg120 : forall lm, neg (b64A lm) (lit (b64A lm) 120 0) = Flit (-120) 0.
Proof. intros lm. apply B2SF_inj. vm_compute. reflexivity. Qed.
Lemma neg600 : forall lm, neg (b64A lm) (lit (b64A lm) 600 0) = Flit (-600) 0.
Proof. intros lm. apply B2SF_inj. vm_compute. reflexivity. Qed.

Lemma given_opt : forall X (o : option X) d v, given o d v -> opt o d = v.
Proof. intros X o d v [E|[E ->]]; rewrite E; reflexivity. Qed.

Lemma flags_parF : forall lm a g h m s lo la ht d0 d1 st, flags_say a g h m s lo la ht d0 d1 st ->
  flag_parameters (lm := lm) a g = parF lm g h m s lo la ht /\
  opt (f_delta0 a) (neg (b64A lm) (lit (b64A lm) 600 0)) = d0 /\ opt (f_delta1 a) (lit (b64A lm) 600 0) = d1 /\
  opt (f_step a) (lit (b64A lm) 60 0) = st /\
  date_new (opt (f_year a) 2007%Z) (opt (f_month a) 4%Z) (opt (f_day a) 5%Z) = date_new (year g) (month g) (day g).
Proof.
  intros lm a g h m s lo la ht d0 d1 st (H1 & H2 & H3 & H4 & H5 & H6 & H7 & H8 & H9 & H10 & H11 & H12).
  rewrite neg600. unfold flag_parameters, parF. rewrite neg120.
  apply given_opt in H1, H2, H3, H4, H5, H6, H7, H8, H9, H10, H11, H12.
  rewrite H1, H2, H3. change (lit (b64A lm) 0 0) with (Flit 0 0). change (lit (b64A lm) 600 0) with (Flit 600 0). change (lit (b64A lm) 60 0) with (Flit 60 0).
  rewrite H4, H5, H6, H7, H8, H9, H10, H11, H12. repeat split; reflexivity.
Qed.

Lemma usual_offset : forall g h m s lo la ht ds ds', usual_inputs g h m s lo la ht ds -> fin ds' = true -> Rabs (B2R ds') <= 31104000 ->
  usual_inputs g h m s lo la ht ds'.
Proof.
  intros g h m s lo la ht ds ds' (A1 & A2 & A3 & A4 & A5 & A6 & A7 & A8 & A9 & A10 & A11 & A12 & _) F B.
  unfold usual_inputs. repeat (split; [assumption|]). assumption.
Qed.

(** C76: without --scan the tool prints the report of the exact calculation for the requested
    date, time and place, at the time plus --delta0. *)
Lemma C76_report_pf : forall tie lm, good_libm lm -> forall fuel p a g h m s lo la ht d0 d1 st,
  flags_say a g h m s lo la ht d0 d1 st -> usual_inputs g h m s lo la ht d0 -> Bsign s = false ->
  fin d1 = true -> B2R d0 <= B2R d1 -> f_scan a = false -> f_extra a = false -> (1 <= fuel)%nat ->
  exists lines c r, sun_tool tie (lm := lm) fuel p a = Val (Some (lines, None)) /\
    sun_new (A := realA) p (parR g h m s lo la ht) = Val c /\ sun_compute (A := realA) c (B2R d0) = Val r /\
    report lines (parR g h m s lo la ht) r.
Proof.
  intros tie lm G fuel p a g h m s lo la ht d0 d1 st FS HI SG F1 LE NS NX HF.
  destruct (flags_parF lm a g h m s lo la ht d0 d1 st FS) as (E1 & E2 & E3 & E4 & E5).
  destruct (C72_sun_accuracy_pf lm G p g h m s lo la ht d0 HI) as (c & r & c' & r' & K1 & K2 & K3 & K4 & _).
  pose proof (bundle_report tie lm G p g h m s lo la ht d0 HI SG c r c' r' K1 K2 K3 K4) as RP.
  exists (display_bundle tie (parF lm g h m s lo la ht) r), c', r'. split; [|split; [exact K3|split; [exact K4|exact RP]]].
  unfold sun_tool. cbv zeta. rewrite E2, E3, E4, E5, NX, NS.
  pose proof HI as (Hg & _ & _ & _ & _ & _ & _ & _ & _ & _ & _ & _ & Fd & _). rewrite Hg. cbn [bind]. rewrite E1.
  rewrite K1. cbn [bind]. destruct fuel as [|fuel]; [lia|].
  assert (SO : scan_offsets (A := b64A lm) (S fuel) false d0 d1 st = Some [d0]).
  { cbn [scan_offsets]. change (leb (b64A lm) d0 d1) with (Bleb d0 d1). rewrite (Bleb_correct 53 1024 _ _ Fd F1).
    rewrite Rle_bool_true by exact LE. reflexivity. }
  rewrite SO. cbn [tool_lines bind]. rewrite K2. cbn [bind]. rewrite app_nil_r. reflexivity.
Qed.

Lemma tool_lines_scan : forall tie lm par c ds rs, Forall2 (fun d r => sun_compute (A := b64A lm) c d = Val r) ds rs ->
  tool_lines tie (lm := lm) true par c ds = Val (concat (map (cons "") (map (display_bundle tie par) rs))).
Proof.
  intros tie lm par c ds rs F. induction F as [|d r ds rs H F IH]; [reflexivity|].
  cbn [tool_lines]. rewrite H. cbn [bind]. rewrite IH. cbn [bind map concat app]. reflexivity.
Qed.

(** C76: with --scan the tool prints a line with the interval and the step and then,
    each after an empty line, the reports for the offsets delta0, delta0 + step, ... in order,
    accumulated in binary64, as far as delta1. *)
Lemma C76_scan_pf : forall tie lm, good_libm lm -> forall p a g h m s lo la ht d0 d1 st,
  flags_say a g h m s lo la ht d0 d1 st -> usual_inputs g h m s lo la ht d0 -> Bsign s = false ->
  fin d1 = true -> Rabs (B2R d1) <= 31104000 -> fin st = true -> / 10 ^ 7 <= B2R st <= 10 ^ 9 ->
  f_scan a = true -> f_extra a = false ->
  exists c blocks header x y z, sun_new (A := realA) p (parR g h m s lo la ht) = Val c /\
    (forall fuel, (length blocks <= fuel)%nat ->
       sun_tool tie (lm := lm) fuel p a = Val (Some (header :: concat (map (cons "") blocks), None))) /\
    header = "Will scan from " ++ x ++ "s to " ++ y ++ "s in steps of " ++ z /\
    shows 6 x (B2R d0) 0 /\ shows 6 y (B2R d1) 0 /\ shows 6 z (B2R st) 0 /\
    (forall k b, nth_error blocks k = Some b -> exists ds r, 
       Rabs (ds - (B2R d0 + INR k * B2R st)) <= INR k * (bpow radix2 (-52) * (31104000 + B2R st)) /\ ds <= B2R d1 /\
       sun_compute (A := realA) c ds = Val r /\ report b (parR g h m s lo la ht) r) /\
    (exists ds, let n := length blocks in
       Rabs (ds - (B2R d0 + INR n * B2R st)) <= INR n * (bpow radix2 (-52) * (31104000 + B2R st)) /\ B2R d1 < ds).
Proof.
  intros tie lm G p a g h m s lo la ht d0 d1 st FS HI SG F1 B1 Fst Bst NS NX.
  destruct (flags_parF lm a g h m s lo la ht d0 d1 st FS) as (E1 & E2 & E3 & E4 & E5).
  pose proof HI as (Hg & _ & _ & _ & _ & _ & _ & _ & _ & _ & _ & _ & Fd & Bd).
  assert (P1 : bpow radix2 (-1000) <= / 10 ^ 7).
  { apply Rle_trans with (bpow radix2 (-30)); [apply bpow_le; lia|]. change (bpow radix2 (-30)) with (/ 1073741824). lra. }
  assert (P2 : 10 ^ 9 <= bpow radix2 1000).
  { apply Rle_trans with (bpow radix2 30); [change (bpow radix2 30) with 1073741824; lra|apply bpow_le; lia]. }
  destruct (C56_scan_b64_partial_pf lm d0 d1 st 31104000 Fd F1 Fst ltac:(lra) ltac:(lra) Bd B1 ltac:(lra)) as (n & SC & RF & RL & RN & RE).
  destruct (C72_sun_accuracy_pf lm G p g h m s lo la ht d0 HI) as (c & r & c' & r' & K1 & _ & K3 & _).
  assert (OI : forall X (a b : X), Val a = Val b -> a = b) by congruence.
  (* every offset is within the range of the accuracy theorem *)
  assert (RS : forall k, (k < n)%nat -> B2R d0 <= B2R (running_sum d0 st k)).
  { intros k. induction k as [|k IH]; intros Hk; [apply Rle_refl|].
    specialize (IH ltac:(lia)). change (running_sum d0 st (S k)) with (Fadd (running_sum d0 st k) st).
    assert (SM : Rabs (B2R (running_sum d0 st k) + B2R st) <= 10000000000000000000000).
    { pose proof (RL k ltac:(lia)). apply Rabs_le_inv in Bd. apply Rabs_le_inv in B1. apply Rabs_le; lra. }
    destruct (Fadd_ok _ _ (RF k ltac:(lia)) Fst (small_big _ SM)) as [EA _].
    rewrite EA. eapply Rle_trans; [exact IH|]. rewrite <- (rnd_id (B2R (running_sum d0 st k))) at 1 by apply format_B2R. apply rnd_mono. lra. }
  assert (ALL : forall k, (k < n)%nat -> exists q q', sun_compute (A := b64A lm) c (running_sum d0 st k) = Val q /\
     sun_compute (A := realA) c' (B2R (running_sum d0 st k)) = Val q' /\
     report (display_bundle tie (parF lm g h m s lo la ht) q) (parR g h m s lo la ht) q').
  { intros k Hk. assert (HI' : usual_inputs g h m s lo la ht (running_sum d0 st k)).
    { apply usual_offset with d0; [exact HI|apply RF; lia|]. pose proof (RS k Hk). pose proof (RL k Hk).
      apply Rabs_le_inv in Bd. apply Rabs_le_inv in B1. apply Rabs_le. lra. }
    destruct (C72_sun_accuracy_pf lm G p g h m s lo la ht _ HI') as (e & q & e' & q' & L1 & L2 & L3 & L4 & _).
    rewrite K1 in L1. apply OI in L1. subst e. rewrite K3 in L3. apply OI in L3. subst e'.
    exists q, q'. split; [exact L2|]. split; [exact L4|]. 
    exact (bundle_report tie lm G p g h m s lo la ht _ HI' SG c q c' q' K1 L2 K3 L4). }
  assert (RSQ : exists rs, Forall2 (fun d r => sun_compute (A := b64A lm) c d = Val r) (map (running_sum d0 st) (seq 0 n)) rs /\
     length rs = n /\ forall k q, nth_error rs k = Some q -> sun_compute (A := b64A lm) c (running_sum d0 st k) = Val q).
  { assert (Q : forall j i, (i + j = n)%nat -> exists rs, Forall2 (fun d r => sun_compute (A := b64A lm) c d = Val r) (map (running_sum d0 st) (seq i j)) rs /\
     length rs = j /\ forall k q, nth_error rs k = Some q -> sun_compute (A := b64A lm) c (running_sum d0 st (i + k)) = Val q).
    { induction j as [|j IH]; intros i Hi.
      - exists []. split; [constructor|]. split; [reflexivity|]. intros [|k] q; discriminate.
      - destruct (IH (S i) ltac:(lia)) as (rs & Q1 & Q2 & Q3). destruct (ALL i ltac:(lia)) as (q & _ & L & _).
        exists (q :: rs). split; [cbn [seq map]; constructor; assumption|]. split; [cbn [length]; lia|].
        intros [|k] q0 H0.
        + cbn [nth_error] in H0. assert (q = q0) by congruence. subst q0. rewrite Nat.add_0_r. exact L.
        + cbn [nth_error] in H0. replace (i + S k)%nat with (S i + k)%nat by lia. exact (Q3 k q0 H0). }
    exact (Q n 0%nat eq_refl). }
  destruct RSQ as (rs & Q1 & Q2 & Q3).
  exists c', (map (display_bundle tie (parF lm g h m s lo la ht)) rs).
  exists ("Will scan from " ++ fmt_float tie true 13 6 d0 ++ "s to " ++ fmt_float tie true 13 6 d1 ++ "s in steps of " ++ fmt_float tie false 13 6 st).
  exists (fmt_float tie true 13 6 d0), (fmt_float tie true 13 6 d1), (fmt_float tie false 13 6 st).
  assert (SF : forall plus w n (x : b64), fin x = true -> shows n (fmt_float tie plus w n x) (B2R x) 0).
  { intros plus w k x F. apply shows_float; [exact F|]. unfold Rminus. rewrite Rplus_opp_r, Rabs_R0. lra. }
  split; [exact K3|]. split.
  { intros fuel HF. rewrite map_length, Q2 in HF. unfold sun_tool. cbv zeta. rewrite E2, E3, E4, E5, NX, NS.
    rewrite Hg. cbn [bind]. rewrite E1. rewrite K1. cbn [bind]. rewrite (SC fuel HF).
    rewrite (tool_lines_scan _ _ _ _ _ _ Q1). cbn [bind app]. reflexivity. }
  split; [reflexivity|]. split; [apply SF, Fd|]. split; [apply SF, F1|]. split; [apply SF, Fst|].
  split.
  - intros k b Hb. rewrite nth_error_map in Hb. destruct (nth_error rs k) as [q|] eqn:Eq; [|discriminate Hb].
    assert (Eb : display_bundle tie (parF lm g h m s lo la ht) q = b) by (cbn [option_map] in Hb; congruence). subst b. clear Hb.
    assert (Hk : (k < n)%nat) by (rewrite <- Q2; apply nth_error_Some; congruence).
    destruct (ALL k Hk) as (q0 & q' & L1 & L2 & L3). pose proof (Q3 k q Eq) as L4. rewrite L1 in L4. apply OI in L4. subst q0.
    exists (B2R (running_sum d0 st k)), q'. split; [apply RE; lia|]. split; [apply RL; exact Hk|]. split; [exact L2|exact L3].
  - exists (B2R (running_sum d0 st n)). cbv zeta. rewrite map_length, Q2. split; [apply RE; lia|exact RN].
Qed.

(** C76: leftover arguments and dates that are not in the calendar are reported as errors,
    whatever the other flags, before anything is printed. *)
Lemma C76_errors_pf : forall tie lm fuel p a g h m s lo la ht d0 d1 st, flags_say a g h m s lo la ht d0 d1 st ->
  (f_extra a = true -> sun_tool tie (lm := lm) fuel p a = Val (Some ([], Some BadArguments))) /\
  (f_extra a = false -> ((-4799 <= year g)%Z /\ valid_civil (of_date g) -> False) ->
     exists e, sun_tool tie (lm := lm) fuel p a = Val (Some ([], Some (BadDate e))) /\
       (e = BadYear <-> (year g < -4799)%Z) /\ (e = BadMonth <-> (-4799 <= year g)%Z /\ ~ (1 <= month g <= 12)%Z) /\
       (e = BadDay <-> (-4799 <= year g)%Z /\ (1 <= month g <= 12)%Z /\ ~ (1 <= day g <= month_length (year g) (month g))%Z)).
Proof.
  intros tie lm fuel p a g h m s lo la ht d0 d1 st FS.
  destruct (flags_parF lm a g h m s lo la ht d0 d1 st FS) as (E1 & E2 & E3 & E4 & E5).
  unfold sun_tool. cbv zeta. rewrite E2, E3, E4, E5. split; intros NX; rewrite NX; [reflexivity|].
  intros NV. destruct (C01_date_new_characterised_pf (year g) (month g) (day g)) as (r & R0 & R1 & R2 & R3 & R4).
  rewrite R0. cbn [bind]. destruct r as [g'|e].
  - exfalso. apply NV. apply R1. assert (EG : forall g', date_new (year g) (month g) (day g) = Val (Ok g') -> g' = MkDate (year g) (month g) (day g)).
    { clear. intros g' H. rewrite date_new_spec in H. repeat match type of H with context [if ?b then _ else _] => destruct b end; congruence. }
    rewrite (EG g' R0). reflexivity.
  - exists e. split; [reflexivity|]. 
    assert (EQ : forall e', (@Err GregorianDate CalendarError e = Err e') <-> e = e') by (intros e'; split; congruence).
    rewrite EQ in R2, R3, R4. split; [exact R2|]. split; [exact R3|exact R4].
Qed.

(** C77, refuted: without --delta0 the tool reports for ten minutes before the requested
    time. *)
Lemma C77_requested_time_refuted_pf : forall tie lm, good_libm lm -> forall p,
  exists lines, sun_tool tie (lm := lm) 1 p no_flags = Val (Some (lines, None)) /\
  nth_error lines 1 = Some "Time:                00:00:00.000000   -600.000000s".
Proof.
  intros tie lm G p. 
  assert (E0 : B2R (Flit 0 0) = 0 /\ fin (Flit 0 0) = true) by apply lit_0.
  destruct (Flit_int (-600) ltac:(lia)) as [E6 F6]. destruct (Flit_int 600 ltac:(lia)) as [E7 F7]. destruct (Flit_int (-120) ltac:(lia)) as [E8 F8].
  destruct E0 as [E0 F0].
  assert (HI : usual_inputs (MkDate 2007 4 5) 0 0 (Flit 0 0) (Flit (-120) 0) (Flit 0 0) (Flit 0 0) (Flit (-600) 0)).
  { unfold usual_inputs. cbn [year]. rewrite !E0, E6, E8.
    repeat match goal with |- _ /\ _ => split end; try assumption; try lia; try lra; try (apply Rabs_le; lra). reflexivity. }
  assert (FS : flags_say no_flags (MkDate 2007 4 5) 0 0 (Flit 0 0) (Flit (-120) 0) (Flit 0 0) (Flit 0 0) (Flit (-600) 0) (Flit 600 0) (Flit 60 0)).
  { unfold flags_say, given, no_flags. cbn [year month day f_year f_month f_day f_hour f_min f_sec f_lat f_lon f_height f_delta0 f_delta1 f_step].
    repeat (split; [right; split; reflexivity|]). right; split; reflexivity. }
  destruct (flags_parF lm _ _ _ _ _ _ _ _ _ _ _ FS) as (P1 & P2 & P3 & P4 & P5).
  destruct (C72_sun_accuracy_pf lm G p _ _ _ _ _ _ _ _ HI) as (c & r & c' & r' & K1 & K2 & K3 & K4 & _ & _ & _ & DS & _).
  exists (display_bundle tie (parF lm (MkDate 2007 4 5) 0 0 (Flit 0 0) (Flit (-120) 0) (Flit 0 0) (Flit 0 0)) r).
  split.
  - unfold sun_tool. cbv zeta. rewrite P2, P3, P4, P5. cbn [f_extra f_scan no_flags].
    pose proof HI as (Hg & _). rewrite Hg. cbn [bind]. rewrite P1, K1. cbn [bind].
    assert (SO : scan_offsets (A := b64A lm) 1 false (Flit (-600) 0) (Flit 600 0) (Flit 60 0) = Some [Flit (-600) 0]).
    { cbn [scan_offsets]. change (leb (b64A lm) (Flit (-600) 0) (Flit 600 0)) with (Bleb (Flit (-600) 0) (Flit 600 0)). rewrite (Bleb_correct 53 1024 _ _ F6 F7).
      rewrite E6, E7, Rle_bool_true by lra. reflexivity. }
    rewrite SO. cbn [tool_lines bind]. rewrite K2. cbn [bind]. rewrite app_nil_r. reflexivity.
  - unfold display_bundle. cbv zeta. cbn [nth_error]. rewrite DS. apply (f_equal Some). vm_compute. reflexivity.
Qed.

(** C77, partial: with --delta0 0 the report is for the requested time. *)
Lemma C77_requested_time_partial_pf : forall tie lm, good_libm lm -> forall fuel p a g h m s lo la ht d0 d1 st,
  flags_say a g h m s lo la ht d0 d1 st -> usual_inputs g h m s lo la ht d0 -> Bsign s = false ->
  B2R d0 = 0 -> fin d1 = true -> 0 <= B2R d1 -> f_scan a = false -> f_extra a = false -> (1 <= fuel)%nat ->
  exists lines c r, sun_tool tie (lm := lm) fuel p a = Val (Some (lines, None)) /\
    sun_new (A := realA) p (parR g h m s lo la ht) = Val c /\ sun_compute (A := realA) c 0 = Val r /\
    report lines (parR g h m s lo la ht) r.
Proof.
  intros tie lm G fuel p a g h m s lo la ht d0 d1 st FS HI SG Z F1 LE NS NX HF.
  pose proof (C76_report_pf tie lm G fuel p a g h m s lo la ht d0 d1 st FS HI SG F1 ltac:(lra) NS NX HF) as H.
  rewrite Z in H. exact H.
Qed.

(** C78, refuted: an hour out of range is not reported as an error, the tool panics. *)
Lemma C78_bad_time_refuted_pf : forall tie lm fuel p,
  sun_tool tie (lm := lm) fuel p (MkFlags None None None (Some 25%Z) None None None None None None None None false false) = Panic.
Proof.
  intros tie lm fuel p. unfold sun_tool. cbv zeta. cbn [f_extra f_year f_month f_day opt].
  assert (D : date_new 2007 4 5 = Val (Ok (MkDate 2007 4 5))) by reflexivity. rewrite D. clear D.
  cbn [bind]. 
  match goal with |- bind (sun_new p ?q) _ = _ => assert (S : sun_new (A := b64A lm) p q = Panic) end.
  2: { rewrite S. reflexivity. }
  unfold sun_new, flag_parameters. cbv zeta. cbn [sp_date sp_time sp_position f_hour f_min f_sec f_lat f_lon f_height opt].
  assert (J : exists j, to_julian (A := b64A lm) p (MkDate 2007 4 5) = Val j) by (destruct p; eexists; reflexivity).
  destruct J as [[j0 j1] J]. rewrite J. cbn [bind].
  assert (D : match delta_at (A := b64A lm) p (MkDate 2007 4 5) (hms_to_fraction (A := b64A lm) (MkHMS (A := b64A lm) 25 0 (lit (b64A lm) 0 0))) with Val (Err _) => true | _ => false end = true)
    by (destruct p; vm_compute; reflexivity).
  destruct (delta_at (A := b64A lm) p (MkDate 2007 4 5) (hms_to_fraction (A := b64A lm) (MkHMS (A := b64A lm) 25 0 (lit (b64A lm) 0 0)))) as [[o|e]|]; [discriminate D| |discriminate D].
  reflexivity.
Qed.

(** C78, partial: in the usual range there is no panic; with delta0 > delta1 and without --scan the tool prints
    nothing and succeeds. *)
Lemma C78_silent_partial_pf : forall tie lm, good_libm lm -> forall fuel p a g h m s lo la ht d0 d1 st,
  flags_say a g h m s lo la ht d0 d1 st -> usual_inputs g h m s lo la ht d0 -> fin d1 = true -> B2R d1 < B2R d0 ->
  f_scan a = false -> f_extra a = false -> sun_tool tie (lm := lm) fuel p a = Val (Some ([], None)).
Proof.
  intros tie lm G fuel p a g h m s lo la ht d0 d1 st FS HI F1 LE NS NX.
  destruct (flags_parF lm a g h m s lo la ht d0 d1 st FS) as (E1 & E2 & E3 & E4 & E5).
  destruct (C72_sun_accuracy_pf lm G p g h m s lo la ht d0 HI) as (c & r & c' & r' & K1 & K2 & K3 & K4 & _).
  unfold sun_tool. cbv zeta. rewrite E2, E3, E4, E5, NX, NS.
  pose proof HI as (Hg & _ & _ & _ & _ & _ & _ & _ & _ & _ & _ & _ & Fd & _). rewrite Hg. cbn [bind]. rewrite E1.
  rewrite K1. cbn [bind]. 
  assert (SO : scan_offsets (A := b64A lm) fuel false d0 d1 st = Some []).
  { destruct fuel; cbn [scan_offsets]; change (leb (b64A lm) d0 d1) with (Bleb d0 d1); rewrite (Bleb_correct 53 1024 _ _ Fd F1);
    rewrite Rle_bool_false by exact LE; reflexivity. }
  rewrite SO. cbn [tool_lines bind app]. reflexivity.
Qed.

(** ** The Julian date tool *)

Lemma of_date_mk : forall g, MkDate (year g) (month g) (day g) = g.
Proof. intros []. reflexivity. Qed.

(** C79: `gregorian` prints the date, the time, the Julian date and the fraction of day. *)
Lemma C79_gregorian_pf : forall tie lm p y mo d ho mi se h m s,
  (0 <= y <= 9999)%Z -> valid_civil (y, mo, d) -> given ho 12%Z h -> given mi 0%Z m -> given se (Flit 0 0) s ->
  (0 <= h < 24)%Z -> (0 <= m < 60)%Z -> fin s = true -> Bsign s = false -> 0 <= B2R s < 60 ->
  exists ds ts js fs n, tool_gregorian tie (lm := lm) p (Some y) (Some mo) (Some d) ho mi se =
    Val (["Gregorian date: " ++ ds; "Time: " ++ ts; "Julian date: " ++ js; "Fraction of day: " ++ fs], None) /\
  shows_date ds (MkDate y mo d) /\ shows_clock ts h m (B2R s) 0 /\ day_count mjd_epoch (y, mo, d) n /\
  shows 6 js (2400000.5 + IZR n + (3600 * IZR h + 60 * IZR m + B2R s) / 86400) (5 / 10 ^ 10) /\
  shows 6 fs ((3600 * IZR h + 60 * IZR m + B2R s) / 86400) (1 / 10 ^ 15).
Proof.
  intros tie lm p y mo d ho mi se h m s Hy Hv Gh Gm Gs Hh Hm Fs SG Bs.
  apply given_opt in Gh, Gm, Gs.
  destruct (C01_date_new_characterised_pf y mo d) as (r & R0 & R1 & _). pose proof (proj2 R1 ltac:(split; [lia|exact Hv])) as R. subst r.
  assert (AC : accepted (MkDate y mo d)) by exact R0.
  destruct (C02_to_julian_exact_pf lm p (MkDate y mo d) AC ltac:(cbn [year]; lia)) as (a & b & n & J & Fa & Ea & Fb & Eb & DC).
  unfold of_date in DC. cbn [year month day] in DC.
  assert (NB : (-678942 <= n <= 2973484)%Z).
  { rewrite (day_count_fun _ _ Hv DC). pose proof (L_ApxDat.mjd_between (MkDate y mo d) 0 9999 AC ltac:(cbn [year]; lia) ltac:(cbn [year]; lia)) as MB.
    change (mjd (0, 1, 1)%Z) with (-678941)%Z in MB. change (mjd (9999, 12, 31)%Z) with 2973483%Z in MB. unfold of_date in MB. cbn [year month day] in MB. lia. }
  assert (N1 : -678942 <= IZR n <= 2973484) by (split; apply IZR_le; lia).
  destruct (hms_to_fraction_F lm h m s ltac:(lia) ltac:(lia) Fs ltac:(lra)) as (tot & A1 & A2 & A3 & A4 & A5).
  set (T := 3600 * IZR h + 60 * IZR m + B2R s).
  assert (ET : hms_seconds h m (B2R s) = T) by (unfold hms_seconds, T; rewrite plus_IZR, !mult_IZR; ring). rewrite ET in A2.
  assert (BT : 0 <= T < 86400).
  { unfold T. assert (0 <= IZR h <= 23) by (split; apply IZR_le; lia). assert (0 <= IZR m <= 59) by (split; apply IZR_le; lia). lra. }
  set (fd := Fdiv tot (Flit 86400 0)) in *. clearbody T fd. 
  assert (RT : Rabs (B2R tot - T) <= / 100000000000).
  { rewrite A2. eapply Rle_trans; [apply (rnd_error T 17); [lia|]|].
    - change (bpow radix2 17) with 131072. apply Rabs_le. lra.
    - change (bpow radix2 (17 - 53)) with (/ 68719476736). lra. }
  assert (BQ : 0 <= B2R tot <= 86400).
  { rewrite A2. rewrite <- (rnd_id 0) at 1 by apply generic_format_0. rewrite <- (rnd_id (IZR 86400)) by (apply format_IZR; lia). split; apply rnd_mono; lra. }
  assert (RF : Rabs (B2R fd - T / 86400) <= 2 / 10 ^ 16).
  { assert (E : Rabs (rnd (B2R tot / 86400) - B2R tot / 86400) <= / 2 * bpow radix2 (0 - 53)).
    { apply rnd_error; [lia|]. change (bpow radix2 0) with 1. apply Rabs_le. lra. }
    change (bpow radix2 (0 - 53)) with (/ 9007199254740992) in E. rewrite <- A5 in E.
    apply Rabs_le_inv in E. apply Rabs_le_inv in RT. apply Rabs_le. lra. }
  assert (EAB : B2R (Fadd a b) = 2400000.5 + IZR n /\ fin (Fadd a b) = true).
  { destruct (Fadd_ok a b Fa Fb) as [E F]; [apply small_big; rewrite Ea, Eb; apply Rabs_le; lra|]. split; [|exact F].
    rewrite E, Ea, Eb. transitivity (2400000 + / 2 + IZR n); [|lra].
    replace (2400000 + / 2 + IZR n) with (IZR (4800001 + 2 * n) * bpow radix2 (-1)) by (change (bpow radix2 (-1)) with (/ 2); rewrite plus_IZR, mult_IZR; lra).
    apply rnd_id. apply format_dyadic; lia. }
  destruct EAB as [EAB FAB]. 
  assert (RFJ : fin (Fadd (Fadd a b) fd) = true /\ Rabs (B2R (Fadd (Fadd a b) fd) - (2400000.5 + IZR n + T / 86400)) <= 5 / 10 ^ 10).
  { apply Rabs_le_inv in RF. destruct (Fadd_ok (Fadd a b) fd FAB A4) as [E F]; [apply small_big; rewrite EAB; apply Rabs_le; lra|]. split; [exact F|].
    rewrite E, EAB.
    assert (E2 : Rabs (rnd (2400000.5 + IZR n + B2R fd) - (2400000.5 + IZR n + B2R fd)) <= / 2 * bpow radix2 (23 - 53)).
    { apply rnd_error; [lia|]. change (bpow radix2 23) with 8388608. apply Rabs_le. lra. }
    change (bpow radix2 (23 - 53)) with (/ 1073741824) in E2. apply Rabs_le_inv in E2. apply Rabs_le. lra. }
  destruct RFJ as [FJ RJ].
  destruct (C54_form_pf (MkDate y mo d) AC ltac:(cbn [year]; lia)) as (_ & DF).
  exists (display_date (MkDate y mo d)), (display_hms tie (MkHMS (A := b64A lm) h m s)), (fmt_float tie false 0 6 (Fadd (Fadd a b) fd)), (fmt_float tie false 0 6 fd), n.
  split.
  - unfold tool_gregorian. rewrite R0. cbn [bind]. cbv zeta. rewrite J. cbn [bind].
    change (lit (b64A lm) 0 0) with (Flit 0 0). rewrite Gh, Gm, Gs. unfold hms_new. rewrite A3. reflexivity.
  - split; [exact DF|]. split; [apply shows_hms; try assumption; lia|]. split; [exact DC|].
    split; apply shows_float; try assumption. lra.
Qed.

(** C79: the errors of `gregorian`. *)
Lemma C79_errors_pf : forall tie lm p y mo d ho mi se,
  (y = None \/ mo = None \/ d = None -> tool_gregorian tie (lm := lm) p y mo d ho mi se = Val ([], Some BadArguments)) /\
  (forall y' mo' d', y = Some y' -> mo = Some mo' -> d = Some d' -> ~ ((-4799 <= y')%Z /\ valid_civil (y', mo', d')) ->
     exists e, tool_gregorian tie (lm := lm) p y mo d ho mi se = Val ([], Some (BadDate e)) /\
       (e = BadYear <-> (y' < -4799)%Z) /\ (e = BadMonth <-> (-4799 <= y')%Z /\ ~ (1 <= mo' <= 12)%Z) /\
       (e = BadDay <-> (-4799 <= y')%Z /\ (1 <= mo' <= 12)%Z /\ ~ (1 <= d' <= month_length y' mo')%Z)).
Proof.
  intros tie lm p y mo d ho mi se. split.
  - intros H. unfold tool_gregorian. destruct y as [y|]; [|reflexivity]. destruct mo as [mo|]; [|reflexivity]. destruct d as [d|]; [|reflexivity].
    exfalso. destruct H as [H|[H|H]]; discriminate H.
  - intros y' mo' d' -> -> -> NV. destruct (C01_date_new_characterised_pf y' mo' d') as (r & R0 & R1 & R2 & R3 & R4).
    unfold tool_gregorian. rewrite R0. cbn [bind]. destruct r as [g'|e].
    + exfalso. apply NV. apply R1.
      assert (EG : forall g', date_new y' mo' d' = Val (Ok g') -> g' = MkDate y' mo' d').
      { clear. intros g' H. rewrite date_new_spec in H. repeat match type of H with context [if ?b then _ else _] => destruct b end; congruence. }
      rewrite (EG g' R0). reflexivity.
    + exists e. split; [reflexivity|].
      assert (EQ : forall e', (@Err GregorianDate CalendarError e = Err e') <-> e = e') by (intros e'; split; congruence).
      rewrite EQ in R2, R3, R4. split; [exact R2|]. split; [exact R3|exact R4].
Qed.

(** C80: `julian` prints the sum, the date and the time of day of the instant. *)
Lemma C80_julian_partial_pf : forall tie show lm p x y o2, given o2 (Flit 0 0) y -> fin x = true -> fin y = true ->
  Rabs (B2R x) <= 2251799813685248 -> Rabs (B2R y) <= 2251799813685248 -> 1721060 <= B2R x + B2R y <= 5373484 ->
  exists js ds ts g f n h m s,
    tool_julian tie show (lm := lm) p (Some x) o2 false =
      Val (["Julian date: " ++ js; "Gregorian date: " ++ ds; "Fraction of day: " ++ show f; "Time: " ++ ts], None) /\
    shows 14 js (B2R x + B2R y) (bpow radix2 (-31)) /\
    valid_civil (of_date g) /\ shows_date ds g /\ day_count mjd_epoch (of_date g) n /\
    fin f = true /\ 0 <= B2R f <= 1 /\
    Rabs (2400000.5 + IZR n + B2R f - (B2R x + B2R y)) <= bpow radix2 (-53) * (Rabs (Rmin (B2R x) (B2R y)) + 3) /\
    shows_clock ts h m s 0 /\ (0 <= h <= 24)%Z /\ (0 <= m < 60)%Z /\ 0 <= s < 60 /\
    Rabs ((3600 * IZR h + 60 * IZR m + s) / 86400 - B2R f) <= / 10 ^ 16.
Proof.
  intros tie show lm p x y o2 G2 Fx Fy Bx By H. apply given_opt in G2.
  destruct (C07_from_julian_accuracy_pf lm p x y Fx Fy Bx By ltac:(lra)) as (g & f & n & E & V & Ff & Bf & DC & AC).
  destruct (hms_from_fraction_F_full lm f Ff Bf) as (s & sec & Fs & Es & Bs & EH & Fsec & Esec & Sg).
  destruct (split_seconds _ Bs) as (T & T1 & T2 & T3 & T4). set (t := Zfloor (B2R s)) in *.
  set (h := (t / 3600)%Z) in *. set (m := ((t mod 3600) / 60)%Z) in *.
  assert (MB : (0 <= m < 60)%Z) by (unfold m; pose proof (Z.mod_pos_bound t 3600 ltac:(lia)); split; [apply Z.div_pos; lia|apply Z.div_lt_upper_bound; lia]).
  assert (SB : 0 <= B2R sec < 60).
  { rewrite Esec. pose proof (Zfloor_lb (B2R s)) as L. pose proof (Zfloor_ub (B2R s)) as U. fold t in L, U.
    pose proof (Z.mod_pos_bound t 60 ltac:(lia)) as M. assert (0 <= IZR (t mod 60) <= 59) by (split; apply IZR_le; lia). lra. }
  assert (NB : (-678941 <= n <= 2973483)%Z).
  { assert (MM : Rabs (Rmin (B2R x) (B2R y)) <= 2251799813685248) by (unfold Rmin; destruct (Rle_dec (B2R x) (B2R y)); assumption).
    pose proof (Rabs_pos (Rmin (B2R x) (B2R y))). change (bpow radix2 (-53)) with (/ 9007199254740992) in AC. apply Rabs_le_inv in AC.
    assert (-678942 < n)%Z by (apply lt_IZR; lra). assert (n < 2973484)%Z by (apply lt_IZR; lra). lia. }
  assert (YB : (0 <= year g <= 9999)%Z).
  { rewrite (day_count_fun _ _ V DC) in NB. split.
    - destruct (Z.lt_ge_cases (year g) 0) as [L|L]; [|exact L]. exfalso.
      assert (K : (mjd (of_date g) < mjd (0, 1, 1))%Z) by (apply mjd_lt; [exact V|unfold valid_civil; cbn; lia|unfold civil_lt, of_date; lia]).
      change (mjd (0, 1, 1)%Z) with (-678941)%Z in K. lia.
    - destruct (Z.lt_ge_cases 9999 (year g)) as [L|L]; [|exact L]. exfalso.
      assert (K : (mjd (9999, 12, 31) < mjd (of_date g))%Z) by (apply mjd_lt; [unfold valid_civil; cbn; lia|exact V|unfold civil_lt, of_date; lia]).
      change (mjd (9999, 12, 31)%Z) with 2973483%Z in K. lia. }
  assert (ACC : accepted g).
  { unfold accepted. destruct (C01_date_new_characterised_pf (year g) (month g) (day g)) as (r & R0 & R1 & _).
    pose proof (proj2 R1 ltac:(split; [lia|exact V])) as R. subst r. rewrite R0, of_date_mk. reflexivity. }
  destruct (C54_form_pf g ACC YB) as (_ & DF).
  assert (RS : fin (Fadd x y) = true /\ Rabs (B2R (Fadd x y) - (B2R x + B2R y)) <= bpow radix2 (-31)).
  { destruct (Fadd_ok x y Fx Fy) as [E1 F1]; [apply small_big; apply Rabs_le; lra|]. split; [exact F1|]. rewrite E1.
    eapply Rle_trans; [apply (rnd_error _ 23); [lia|]|].
    - change (bpow radix2 23) with 8388608. apply Rabs_le. lra.
    - change (bpow radix2 (23 - 53)) with (/ 1073741824). change (bpow radix2 (-31)) with (/ 2147483648). lra. }
  destruct RS as [FS RS].
  exists (fmt_float tie false 18 14 (Fadd x y)), (display_date g), (display_hms tie (MkHMS (A := b64A lm) h m sec)), g, f, n, h, m, (B2R sec).
  split.
  { unfold tool_julian. cbv zeta. change (lit (b64A lm) 0 0) with (Flit 0 0). rewrite G2. rewrite E. cbn [bind]. rewrite EH. reflexivity. }
  split; [apply shows_float; assumption|]. split; [exact V|]. split; [exact DF|]. split; [exact DC|]. split; [exact Ff|]. split; [exact Bf|].
  split. { replace (2400000.5 + IZR n + B2R f) with (2400000 + / 2 + IZR n + B2R f) by lra. exact AC. }
  assert (HB : (0 <= h <= 24)%Z) by (unfold h; split; [apply Z.div_pos; lia|apply Z.div_le_upper_bound; lia]).
  split; [apply shows_hms; try assumption; lia|]. split; [exact HB|]. split; [exact MB|]. split; [exact SB|].
  assert (ES : 3600 * IZR h + 60 * IZR m + B2R sec = B2R s).
  { rewrite Esec. assert (EZ : t = (3600 * h + 60 * m + t mod 60)%Z).
    { unfold h, m. pose proof (Z.div_mod t 3600 ltac:(lia)). pose proof (Z.div_mod (t mod 3600) 60 ltac:(lia)).
      assert ((t mod 3600) mod 60 = t mod 60)%Z; [|lia].
      rewrite (Z.mod_eq t 3600) by lia. replace (t - 3600 * (t / 3600))%Z with (t + (- 60 * (t / 3600)) * 60)%Z by ring. apply Z.mod_add. lia. }
    assert (ER : IZR t = 3600 * IZR h + 60 * IZR m + IZR (t mod 60)) by (rewrite EZ at 1; rewrite !plus_IZR, !mult_IZR; ring). lra. }
  rewrite ES, Es.
  assert (RE : Rabs (rnd (86400 * B2R f) - 86400 * B2R f) <= / 2 * bpow radix2 (17 - 53)).
  { apply rnd_error; [lia|]. change (bpow radix2 17) with 131072. apply Rabs_le. lra. }
  change (bpow radix2 (17 - 53)) with (/ 68719476736) in RE. apply Rabs_le_inv in RE. apply Rabs_le. lra.
Qed.

(** C80: instants out of range are reported as errors after the sum has been printed. *)
Lemma C80_rejects_pf : forall tie show lm p x y o2, given o2 (Flit 0 0) y -> fin x = true -> fin y = true ->
  ~ (fin (Fadd x y) = true /\ -32000 <= B2R (Fadd x y) <= 1000000000) ->
  exists js, tool_julian tie show (lm := lm) p (Some x) o2 false = Val (["Julian date: " ++ js], Some (BadDate BadJulian)).
Proof.
  intros tie show lm p x y o2 G2 Fx Fy H. apply given_opt in G2.
  pose proof (proj2 (C10_from_julian_rejects_finite_partial_pf lm p x y Fx Fy) H) as E.
  exists (fmt_float tie false 18 14 (Fadd x y)).
  unfold tool_julian. cbv zeta. change (lit (b64A lm) 0 0) with (Flit 0 0). rewrite G2. rewrite E. reflexivity.
Qed.

Lemma julian_run : forall tie show lm p x o2 g F h m S,
  match from_julian (A := b64A lm) p x (opt o2 (Flit 0 0)) with Val (Ok (g', f)) => Some (g', B2SF f) | _ => None end = Some (g, B2SF F) ->
  match hms_from_fraction (A := b64A lm) F with Ok (MkHMS h' m' s) => Some ((h', m'), B2SF s) | Err _ => None end = Some ((h, m), B2SF S) ->
  tool_julian tie show (lm := lm) p (Some x) o2 false =
    Val (["Julian date: " ++ fmt_float tie false 18 14 (Fadd x (opt o2 (Flit 0 0))); "Gregorian date: " ++ display_date g; "Fraction of day: " ++ show F;
      "Time: " ++ display_hms tie (MkHMS (A := b64A lm) h m S)], None).
Proof.
  intros tie show lm p x o2 g F h m S0 K1 K2. unfold tool_julian. cbv zeta. change (lit (b64A lm) 0 0) with (Flit 0 0).
  assert (SI : forall a b : b64, B2SF a = B2SF b -> a = b) by (intros; apply B2SF_inj; assumption).
  destruct (from_julian (A := b64A lm) p x (opt o2 (Flit 0 0))) as [[[g' f]|]|]; try discriminate K1.
  assert (Eg : g' = g) by congruence. assert (Ef : f = F) by (apply SI; congruence). subst g' f. clear K1. cbn [bind].
  destruct (hms_from_fraction (A := b64A lm) F) as [[h' m' s']|]; try discriminate K2.
  assert (Eh : h' = h) by congruence. assert (Em : m' = m) by congruence. assert (Es : s' = S0) by (apply SI; congruence). subst h' m' s'.
  reflexivity.
Qed.

(** C80, refuted: the time can be 24:00:00 of the day before, and a Julian date
    that is not a number has a date and a time. *)
Lemma C80_times_refuted_pf : forall tie show lm p,
  (exists l f, tool_julian tie show (lm := lm) p (Some (Fof 2451545 0)) (Some (Fof (2 ^ 53 - 1) (-54))) false =
     Val ([l; "Gregorian date: 2000-01-01"; "Fraction of day: " ++ show f; "Time: 24:00:00.000000"], None)) /\
  (exists f t, tool_julian tie show (lm := lm) p (Some B754_nan) None false =
     Val (["Julian date:                NaN"; "Gregorian date: -4713-11-25"; "Fraction of day: " ++ show f; "Time: " ++ t], None)).
Proof.
  intros tie show lm p.
  split.
  - exists ("Julian date: " ++ fmt_float tie false 18 14 (Fadd (Fof 2451545 0) (Fof (2 ^ 53 - 1) (-54)))), (Fof 1 0).
    refine (eq_trans (julian_run tie show lm p (Fof 2451545 0) (Some (Fof (2 ^ 53 - 1) (-54))) (MkDate 2000 1 1) (Fof 1 0) 24%Z 0%Z (Fof 0 0) _ _) _).
    3: { assert (T : display_hms tie (MkHMS (A := b64A lm) 24 0 (Fof 0 0)) = "24:00:00.000000") by (vm_compute; reflexivity). rewrite T. reflexivity. }
    + destruct p; vm_compute; reflexivity.
    + vm_compute; reflexivity.
  - exists B754_nan, "00:00:000000NaN".
    refine (eq_trans (julian_run tie show lm p B754_nan None (MkDate (-4713) 11 25) B754_nan 0%Z 0%Z B754_nan _ _) _).
    3: reflexivity.
    + destruct p; vm_compute; reflexivity.
    + vm_compute; reflexivity.
Qed.

(** C76 to C80 on a concrete run each: the default flags, 2000-01-01 12:00 and JD
    2451545. *)
Example C76_example_pf : forall tie lm, good_libm lm -> forall p,
  exists lines c r, sun_tool tie (lm := lm) 1 p no_flags = Val (Some (lines, None)) /\
    sun_new (A := realA) p (sun_default (A := realA)) = Val c /\ sun_compute (A := realA) c (-600) = Val r /\
    report lines (sun_default (A := realA)) r.
Proof.
  intros tie lm G p.
  destruct lit_0 as [E0 F0]. destruct (Flit_int (-600) ltac:(lia)) as [E6 F6]. destruct (Flit_int 600 ltac:(lia)) as [E7 F7]. destruct (Flit_int (-120) ltac:(lia)) as [E8 F8].
  assert (EQ : parR (MkDate 2007 4 5) 0 0 (Flit 0 0) (Flit (-120) 0) (Flit 0 0) (Flit 0 0) = sun_default (A := realA)).
  { unfold parR, sun_default. rewrite !E0, E8. realA_ops. rewrite !Rlit_0. reflexivity. }
  rewrite <- EQ, <- E6.
  apply (C76_report_pf tie lm G 1 p no_flags (MkDate 2007 4 5) 0 0 (Flit 0 0) (Flit (-120) 0) (Flit 0 0) (Flit 0 0) (Flit (-600) 0) (Flit 600 0) (Flit 60 0)).
  - unfold flags_say, given, no_flags. cbn [year month day f_year f_month f_day f_hour f_min f_sec f_lat f_lon f_height f_delta0 f_delta1 f_step].
    repeat (split; [right; split; reflexivity|]). right; split; reflexivity.
  - unfold usual_inputs. cbn [year]. rewrite !E0, E6, E8.
    repeat match goal with |- _ /\ _ => split end; try assumption; try lia; try lra; try (apply Rabs_le; lra). reflexivity.
  - vm_compute. reflexivity.
  - exact F7.
  - rewrite E6, E7. lra.
  - reflexivity.
  - reflexivity.
  - lia.
Qed.

Example C77_example_pf : forall tie lm, good_libm lm -> forall p, exists lines c r,
  sun_tool tie (lm := lm) 1 p (MkFlags None None None None None None None None None (Some (Flit 0 0)) None None false false) = Val (Some (lines, None)) /\
  sun_new (A := realA) p (sun_default (A := realA)) = Val c /\ sun_compute (A := realA) c 0 = Val r /\ report lines (sun_default (A := realA)) r.
Proof.
  intros tie lm G p.
  destruct lit_0 as [E0 F0]. destruct (Flit_int 600 ltac:(lia)) as [E7 F7]. destruct (Flit_int (-120) ltac:(lia)) as [E8 F8].
  assert (EQ : parR (MkDate 2007 4 5) 0 0 (Flit 0 0) (Flit (-120) 0) (Flit 0 0) (Flit 0 0) = sun_default (A := realA)).
  { unfold parR, sun_default. rewrite !E0, E8. realA_ops. rewrite !Rlit_0. reflexivity. }
  rewrite <- EQ.
  apply (C77_requested_time_partial_pf tie lm G 1 p _ (MkDate 2007 4 5) 0 0 (Flit 0 0) (Flit (-120) 0) (Flit 0 0) (Flit 0 0) (Flit 0 0) (Flit 600 0) (Flit 60 0)).
  - unfold flags_say, given. cbn [year month day f_year f_month f_day f_hour f_min f_sec f_lat f_lon f_height f_delta0 f_delta1 f_step].
    repeat (split; [right; split; reflexivity|]). split; [left; reflexivity|]. split; [right; split; reflexivity|]. right; split; reflexivity.
  - unfold usual_inputs. cbn [year]. rewrite !E0, E8.
    repeat match goal with |- _ /\ _ => split end; try assumption; try lia; try lra; try (apply Rabs_le; lra). reflexivity.
  - vm_compute. reflexivity.
  - exact E0.
  - exact F7.
  - rewrite E7. lra.
  - reflexivity.
  - reflexivity.
  - lia.
Qed.

Example C78_example_pf : forall tie lm, good_libm lm -> forall p,
  sun_tool tie (lm := lm) 1 p (MkFlags None None None None None None None None None (Some (Flit 1 0)) (Some (Flit 0 0)) None false false) = Val (Some ([], None)).
Proof.
  intros tie lm G p.
  destruct lit_0 as [E0 F0]. destruct (Flit_int 1 ltac:(lia)) as [E6 F6]. destruct (Flit_int (-120) ltac:(lia)) as [E8 F8].
  apply (C78_silent_partial_pf tie lm G 1 p _ (MkDate 2007 4 5) 0 0 (Flit 0 0) (Flit (-120) 0) (Flit 0 0) (Flit 0 0) (Flit 1 0) (Flit 0 0) (Flit 60 0)).
  - unfold flags_say, given. cbn [year month day f_year f_month f_day f_hour f_min f_sec f_lat f_lon f_height f_delta0 f_delta1 f_step].
    repeat (split; [right; split; reflexivity|]). split; [left; reflexivity|]. split; [left; reflexivity|]. right; split; reflexivity.
  - unfold usual_inputs. cbn [year]. rewrite !E0, E6, E8.
    repeat match goal with |- _ /\ _ => split end; try assumption; try lia; try lra; try (apply Rabs_le; lra). reflexivity.
  - exact F0.
  - rewrite E0, E6. lra.
  - reflexivity.
  - reflexivity.
Qed.

Example C79_example_pf : forall tie lm p,
  tool_gregorian tie (lm := lm) p (Some 2000%Z) (Some 1%Z) (Some 1%Z) None None None =
  Val (["Gregorian date: 2000-01-01"; "Time: 12:00:00.000000"; "Julian date: 2451545.000000"; "Fraction of day: 0.500000"], None).
Proof. intros tie lm p. destruct p; vm_compute; reflexivity. Qed.

Example C80_example_pf : forall tie show lm p, exists f, B2R f = / 2 /\
  tool_julian tie show (lm := lm) p (Some (Fof 2451545 0)) None false =
  Val (["Julian date: 2451545.00000000000000"; "Gregorian date: 2000-01-01"; "Fraction of day: " ++ show f; "Time: 12:00:00.000000"], None).
Proof.
  intros tie show lm p. exists (Fof 1 (-1)). split.
  { rewrite <- SF2R_B2SF. assert (SF : B2SF (Fof 1 (-1)) = SpecFloat.S754_finite false 4503599627370496 (-53)) by (vm_compute; reflexivity).
    rewrite SF. cbn [SF2R]. unfold Defs.F2R, cond_Zopp. cbn [Defs.Fnum Defs.Fexp]. change (bpow radix2 (-53)) with (/ 9007199254740992). lra. }
  refine (eq_trans (julian_run tie show lm p (Fof 2451545 0) None (MkDate 2000 1 1) (Fof 1 (-1)) 12%Z 0%Z (Fof 0 0) _ _) _).
  - destruct p; vm_compute; reflexivity.
  - vm_compute; reflexivity.
  - assert (T : display_hms tie (MkHMS (A := b64A lm) 12 0 (Fof 0 0)) = "12:00:00.000000") by (vm_compute; reflexivity).
    assert (J : fmt_float tie false 18 14 (Fadd (Fof 2451545 0) (opt None (Flit 0 0))) = "2451545.00000000000000") by (vm_compute; reflexivity).
    rewrite T, J. reflexivity.
Qed.
