(** * Error bounds: times, Earth, Sun vector and angle of the Sun angle calculator *)

From Coq Require Import ZArith Reals Lra Lia Bool List.
From Flocq Require Import Core BinarySingleNaN.
From Verif Require Import Outcome Arith ArithR ArithF Spec_Float Spec_Accuracy M_Common M_Calendar M_Time M_DeltaAt M_Earth M_Frames M_Ellipsoid M_SunAngle.
From Verif Require Import Spec_Calendar Spec_Api Spec_Matrix Spec_Frames Spec_Series Spec_C2t Spec_Sun.
From Verif Require Import L_ArithF L_ArithR L_Flit L_Matrix L_PMatrix L_Series L_PSeries L_Frames L_PFrames L_Calendar L_PCalendar L_PSunAngle L_Apx L_ApxMod L_ApxAngle L_ApxNut L_ApxCio L_Fro L_ApxFrames L_ApxC2i L_ApxEpv L_ApxDat L_ApxVec L_PAccuracy L_PAccFrames L_PAccC2t L_PAccGeo.
Import ListNotations.
Open Scope R_scope.

(** ** The times as expressions *)
Section Times.
Context {A : arith}.
Definition frE (s m h : num A) : num A :=
  div A (add A s (mul A (lit A 60 0) (add A m (mul A (lit A 60 0) h)))) (lit A 86400 0).
Definition jd1E (n fr ds : num A) : num A := add A n (add A fr (div A ds (lit A 86400 0))).
Definition tai2E (n fr ds dat : num A) : num A := add A (jd1E n fr ds) (div A dat (lit A 86400 0)).
Definition tt2E (n fr ds dat : num A) : num A := add A (tai2E n fr ds dat) (DTAT (A := A)).
Definition tdb2E (n fr ds dat : num A) : num A := add A (tt2E n fr ds dat) (div A (lit A 0 0) (D2S (A := A))).
Definition ut2E (n fr ds : num A) : num A := add A (jd1E n fr ds) (div A (neg A (lit A 72073685 (-9))) (lit A 86400 0)).
End Times.
Definition V i := EVar i.
Lemma frE_eval : forall (A : arith) (s m h : num A), eval A [s; m; h] (frE (A := exprA) (V 0) (V 1) (V 2)) = frE s m h.
Proof. reflexivity. Qed.
Lemma times_eval : forall (A : arith) (n fr ds dat : num A),
  eval A [n; fr; ds; dat] (jd1E (A := exprA) (V 0) (V 1) (V 2)) = jd1E n fr ds /\
  eval A [n; fr; ds; dat] (tai2E (A := exprA) (V 0) (V 1) (V 2) (V 3)) = tai2E n fr ds dat /\
  eval A [n; fr; ds; dat] (tt2E (A := exprA) (V 0) (V 1) (V 2) (V 3)) = tt2E n fr ds dat /\
  eval A [n; fr; ds; dat] (tdb2E (A := exprA) (V 0) (V 1) (V 2) (V 3)) = tdb2E n fr ds dat /\
  eval A [n; fr; ds; dat] (ut2E (A := exprA) (V 0) (V 1) (V 2)) = ut2E n fr ds.
Proof. intros. repeat split. Qed.
Definition get (o : option bnd) : bnd := match o with Some b => b | None => B 0 0 (-1) end.
Definition b_fr : bnd := Eval vm_compute in get (bound [B 0 (60 * one) 0; B 0 (59 * one) 0; B 0 (23 * one) 0] (frE (A := exprA) (V 0) (V 1) (V 2))).
Definition b_dat : bnd := B (-2 * one) (40 * one) (17 * one / 1000000000000000).
Definition b_n : bnd := Eval vm_compute in B (15385 * one) (87704 * one) 0.
Definition b_ds : bnd := Eval vm_compute in b_sym 31104000.
Definition b_fr1 : bnd := Eval vm_compute in B 0 one (er b_fr).
Definition sun_env : list bnd := [b_n; b_fr1; b_ds; b_dat].
Definition b_jd1 : bnd := Eval vm_compute in get (bound sun_env (jd1E (A := exprA) (V 0) (V 1) (V 2))).
Definition b_tai : bnd := Eval vm_compute in get (bound sun_env (tai2E (A := exprA) (V 0) (V 1) (V 2) (V 3))).
Definition b_tt : bnd := Eval vm_compute in get (bound sun_env (tt2E (A := exprA) (V 0) (V 1) (V 2) (V 3))).
Definition b_tdb : bnd := Eval vm_compute in get (bound sun_env (tdb2E (A := exprA) (V 0) (V 1) (V 2) (V 3))).
Definition b_ut : bnd := Eval vm_compute in get (bound sun_env (ut2E (A := exprA) (V 0) (V 1) (V 2))).

Lemma hms_frE : forall (A : arith) h m (s : num A), hms_to_fraction (A := A) (MkHMS (A := A) h m s) = frE s (of_int A m) (of_int A h).
Proof. reflexivity. Qed.

Lemma fr_ok : forall lm, good_libm lm -> forall h m s, (0 <= h < 24)%Z -> (0 <= m < 60)%Z -> fin s = true -> 0 <= B2R s < 60 ->
  let fr' := clock (MkHMS (A := realA) h m (B2R s)) / 86400 in
  apx (hms_to_fraction (A := b64A lm) (MkHMS (A := b64A lm) h m s)) fr' b_fr1 /\ 0 <= fr' <= 1.
Proof.
  intros lm G h m s Hh Hm Fs Bs fr'.
  assert (RR : 0 <= fr' <= 1).
  { unfold fr', clock. cbn [hour minute second]. assert (0 <= IZR h <= 23) by (split; apply IZR_le; lia).
    assert (0 <= IZR m <= 59) by (split; apply IZR_le; lia). change (num realA) with R in *. lra. }
  split; [|exact RR].
  destruct (FofZ_ok h ltac:(lia)) as (Vh & Fh & _). destruct (FofZ_ok m ltac:(lia)) as (Vm & Fm & _).
  pose proof (apx_var s 0 60 Fs ltac:(lra)) as As.
  pose proof (apx_var (FofZ m) 0 59 Fm ltac:(rewrite Vm; split; apply IZR_le; lia)) as Am.
  pose proof (apx_var (FofZ h) 0 23 Fh ltac:(rewrite Vh; split; apply IZR_le; lia)) as Ah. rewrite Vh in Ah. rewrite Vm in Am.
  assert (E : bound [B (0 * one) (60 * one) 0; B (0 * one) (59 * one) 0; B (0 * one) (23 * one) 0] (frE (A := exprA) (V 0) (V 1) (V 2)) = Some b_fr) by (vm_compute; reflexivity).
  pose proof (bound_ok lm G _ _ _ (apxl_cons As (apxl_cons Am (apxl_cons Ah apxl_nil))) _ _ E) as K.
  rewrite (frE_eval (b64A lm)), (frE_eval realA) in K.
  rewrite hms_frE.
  assert (EQ : frE (A := realA) (B2R s) (IZR m) (IZR h) = fr').
  { unfold fr', clock, frE. cbn [hour minute second]. realA_ops. rlit_in_goal. unfold Rdiv. lra. }
  rewrite EQ in K. apply (apx_refine _ _ _ 0 one) in K; [|rewrite val_0, val_one; exact RR]. exact K.
Qed.

(** The calculator made by [new]. *)
Definition cal (A : arith) (n : Z) (dat fr : num A) (pos zen : vec3 A) : SunAngleCalculator A :=
  MkSAC (A := A) (MJD_ZERO (A := A)) (of_int A n) dat fr (neg A (lit A 72073685 (-9))) (lit A 0 0)
    (mul A (lit A 349282 (-7)) (c_as2r A)) (mul A (lit A 4833163 (-7)) (c_as2r A)) pos zen.

Lemma x_chain : forall (A : arith) n (dat fr ds : num A) pos zen, let c := cal A n dat fr pos zen in let j := MJD_ZERO (A := A) in let k := of_int A n in
  ltb A (jd1E k fr ds) j = true -> ltb A (tai2E k fr ds dat) j = true -> ltb A (tt2E k fr ds dat) j = true ->
  x_utc c ds = MkUTC (A := A) j (jd1E k fr ds) /\ x_tai c ds = MkTAI (A := A) j (tai2E k fr ds dat) /\ x_tt c ds = MkTT (A := A) j (tt2E k fr ds dat) /\
  x_ut1 c ds = MkUT1 (A := A) j (ut2E k fr ds) /\ x_tdb c ds = MkTDB (A := A) j (tdb2E k fr ds dat).
Proof.
  intros A n dat fr ds pos zen c j k H1 H2 H3.
  assert (E1 : x_utc c ds = MkUTC (A := A) j (jd1E k fr ds)) by reflexivity.
  assert (E2 : x_tai c ds = MkTAI (A := A) j (tai2E k fr ds dat)).
  { unfold x_tai. rewrite E1. unfold tai_from_utc. cbn [utc_1 utc_2]. rewrite H1. reflexivity. }
  assert (E3 : x_tt c ds = MkTT (A := A) j (tt2E k fr ds dat)).
  { unfold x_tt. rewrite E2. unfold tt_from_tai. cbn [tai_1 tai_2]. rewrite H2. reflexivity. }
  split; [exact E1|]. split; [exact E2|]. split; [exact E3|]. split; [reflexivity|].
  unfold x_tdb. rewrite E3. unfold tdb_from_tt. cbn [tt_1 tt_2]. rewrite H3. reflexivity.
Qed.

Lemma mjd0_F : fin (Flit 24000005 (-1)) = true /\ B2R (Flit 24000005 (-1)) = 2400000.5.
Proof. exact mjd0_ok. Qed.
Lemma mjd0_R : MJD_ZERO (A := realA) = 2400000.5.
Proof. unfold MJD_ZERO. realA_ops. rlit_in_goal. lra. Qed.
Lemma below_mjd0 : forall x r b, apx x r b -> (hi b + er b <=? 100000 * one)%Z = true -> Bltb x (Flit 24000005 (-1)) = true.
Proof.
  intros x r b (F & H & E) C. apply Z.leb_le in C. apply val_le in C. rewrite val_add, val_int in C. destruct mjd0_F as [F0 V0].
  rewrite (Bltb_correct 53 1024 x _ F F0), V0. apply Rlt_bool_true. apply Rabs_le_inv in E. lra.
Qed.

Lemma times_ok : forall lm, good_libm lm -> forall n fr fr' ds dat dat', (15385 <= n <= 87704)%Z -> apx fr fr' b_fr1 ->
  fin ds = true -> Rabs (B2R ds) <= 31104000 -> apx dat dat' b_dat ->
  let k := FofZ n in let k' := IZR n in let ds' := B2R ds in
  apx (jd1E (A := b64A lm) k fr ds) (jd1E (A := realA) k' fr' ds') b_jd1 /\
  apx (tai2E (A := b64A lm) k fr ds dat) (tai2E (A := realA) k' fr' ds' dat') b_tai /\
  apx (tt2E (A := b64A lm) k fr ds dat) (tt2E (A := realA) k' fr' ds' dat') b_tt /\
  apx (tdb2E (A := b64A lm) k fr ds dat) (tdb2E (A := realA) k' fr' ds' dat') b_tdb /\
  apx (ut2E (A := b64A lm) k fr ds) (ut2E (A := realA) k' fr' ds') b_ut.
Proof.
  intros lm G n fr fr' ds dat dat' Hn Hf Fd Bd Hd k k' ds'. apply Rabs_le_inv in Bd.
  destruct (FofZ_ok n ltac:(lia)) as (Vn & Fn & _).
  pose proof (apx_var (FofZ n) 15385 87704 Fn ltac:(rewrite Vn; split; apply IZR_le; lia)) as An. rewrite Vn in An.
  pose proof (apx_var ds (-31104000) 31104000 Fd Bd) as Ad.
  pose proof (apxl_cons An (apxl_cons Hf (apxl_cons Ad (apxl_cons Hd apxl_nil)))) as H.
  destruct (times_eval (b64A lm) (FofZ n) fr ds dat) as (F1 & F2 & F3 & F4 & F5).
  destruct (times_eval realA (IZR n) fr' (B2R ds) dat') as (R1 & R2 & R3 & R4 & R5).
  unfold k, k', ds'. rewrite <- F1, <- F2, <- F3, <- F4, <- F5. rewrite <- R1, <- R2, <- R3, <- R4, <- R5.
  split; [apply (bound_ok lm G _ _ _ H); vm_compute; reflexivity|].
  split; [apply (bound_ok lm G _ _ _ H); vm_compute; reflexivity|].
  split; [apply (bound_ok lm G _ _ _ H); vm_compute; reflexivity|].
  split; apply (bound_ok lm G _ _ _ H); vm_compute; reflexivity.
Qed.

(** ** Earth and Sun *)
Definition sunE {A : arith} (x : num A) : num A := mul A (AUM (A := A)) (neg A x).
Lemma sunE_eval : forall (A : arith) (x : num A), eval A [x] (sunE (A := exprA) (EVar 0)) = sunE x.
Proof. reflexivity. Qed.
Lemma sun_get : forall (A : arith) (e : vec3 A) i, vget (vscale (vneg e) (AUM (A := A))) i = sunE (vget e i).
Proof. intros A e i. destruct i; reflexivity. Qed.
Definition hp_sun : bnd := B (-2 * one) (2 * one) (19 * one / 10000000000000).
Definition hv_sun : bnd := B (-2 * one) (2 * one) (40 * one / 1000000000000000).
Lemma years_sun : years_chk b_mjd0 b_tdb hp_sun hv_sun hp_sun hv_sun = true.
Proof. vm_cast_no_check (@eq_refl bool true). Qed.

Lemma vec_ext : forall u v : vec3 realA, (forall i, coord u i = coord v i) -> u = v.
Proof. intros [a b c] [x y z] H. pose proof (H I0) as H0. pose proof (H I1) as H1. pose proof (H I2) as H2. cbn in H0, H1, H2. congruence. Qed.

Lemma earth_ok : forall lm, good_libm lm -> forall b rb e e', apx b rb b_tdb -> 15019.5 <= rb <= 88069.5 ->
  earth_pos_vel (A := b64A lm) (MkTDB (A := b64A lm) (MJD_ZERO (A := b64A lm)) b) = Val e ->
  earth_pos_vel (A := realA) (MkTDB (A := realA) (MJD_ZERO (A := realA)) rb) = Val e' ->
  (forall i, apx (vget (A := b64A lm) (pv_p (A := b64A lm) (heliocentric (A := b64A lm) e)) i) (coord (pv_p (A := realA) (heliocentric (A := realA) e')) i) hp_sun) /\
  0.96 <= hl (coord (pv_p (A := realA) (heliocentric (A := realA) e'))) <= 1.04.
Proof.
  intros lm G b rb e e' Hb Rb E E'. destruct mjd0_F as [F0 V0].
  assert (Ha : apx (Flit 24000005 (-1)) (MJD_ZERO (A := realA)) b_mjd0).
  { rewrite mjd0_R. pose proof (apx_mjd0 _ F0 V0) as K. rewrite V0 in K. exact K. }
  assert (Y : Rabs (years (tdb (MJD_ZERO (A := realA)) rb)) <= 100).
  { unfold years, tdb. cbn [tdb_1 tdb_2]. rewrite mjd0_R. apply Rabs_le. lra. }
  destruct (epv_chk lm G _ b _ rb _ _ hp_sun hv_sun hp_sun hv_sun Ha Hb Y years_sun) as (r & Er & H).
  assert (OI : forall x y : EarthPosVel (b64A lm), Val x = Val y -> x = y) by (intros; congruence).
  assert (ER : e = r) by (apply OI; rewrite <- E, <- Er; reflexivity). subst r. clear Er.
  rewrite earth_pos_vel_val in E'.
  assert (OI' : forall x y : EarthPosVel realA, Val x = Val y -> x = y) by (intros; congruence).
  apply OI' in E'. subst e'. split.
  - intros i. destruct (H i) as (H1 & _). destruct (epv_real (MJD_ZERO (A := realA)) rb i) as [R1 _].
    unfold pos3, tdb in R1. unfold coord. rewrite R1. exact H1.
  - destruct (C43_distance_pf _ Y) as (r & Er & D). rewrite earth_pos_vel_val in Er. apply OI' in Er. subst r. cbv zeta in D.
    change (R_sqrt.sqrt (sprod ?p ?p)) with (length3 p) in D. rewrite length3_hl in D. exact D.
Qed.

Lemma sun_vec_ok : forall lm, good_libm lm -> forall (e : vec3 (b64A lm)) e', (forall i, apx (vget (A := b64A lm) e i) (coord e' i) hp_sun) ->
  vnear (vscale (A := b64A lm) (vneg (A := b64A lm) e) (AUM (A := b64A lm))) (sun_of e') (1.7321 * 0.285).
Proof.
  intros lm G e e' H. apply vnear_of. intros i.
  pose proof (checkb_ok lm G _ _ _ (sunE (A := exprA) (EVar 0)) (B (-300000000000 * one) (300000000000 * one) (285 * one / 1000)) (apxl_cons (H i) apxl_nil)) as K.
  rewrite (sunE_eval (b64A lm)), (sunE_eval realA) in K. specialize (K ltac:(vm_compute; reflexivity)).
  rewrite <- scale_R. unfold coord at 1. rewrite (sun_get realA). unfold near. rewrite (sun_get (b64A lm)).
  split; [apply K|]. replace 0.285 with (285 / 1000) by lra. apply (apx_err _ _ _ _ _ K); vm_compute; reflexivity.
Qed.

(** ** The celestial-to-terrestrial matrix *)
Lemma frames_sun : frames_chk b_mjd0 b_tt q_mjd = true.
Proof. vm_cast_no_check (@eq_refl bool true). Qed.
Lemma cio10_sun : cio_chk10 b_mjd0 b_tt f_mjd g_mjd = true.
Proof. vm_cast_no_check (@eq_refl bool true). Qed.
Definition poleE {A : arith} (m : Z) : num A := mul A (lit A m (-7)) (c_as2r A).
Lemma pole_eval : forall (A : arith) m, eval A [] (poleE (A := exprA) m) = poleE m.
Proof. reflexivity. Qed.
Lemma pole_ok : forall lm, good_libm lm ->
  near (poleE (A := b64A lm) 349282) (arcsec 0.0349282) (1 / 1000000000000000000) /\
  near (poleE (A := b64A lm) 4833163) (arcsec 0.4833163) (1 / 1000000000000000000).
Proof.
  intros lm G.
  assert (RX : forall m, poleE (A := realA) m = arcsec (IZR m / 10000000)).
  { intros m. unfold poleE, arcsec. realA_ops. unfold Rlit. change (Z.pow_pos 10 7) with 10000000%Z. lra. }
  assert (K : forall m, chk [] (poleE (A := exprA) m) 1 1000000000000000000 = true -> near (poleE (A := b64A lm) m) (arcsec (IZR m / 10000000)) (1 / 1000000000000000000)).
  { intros m C. pose proof (chk_near lm G _ _ _ _ _ _ apxl_nil C) as K. rewrite (pole_eval (b64A lm)), (pole_eval realA), RX in K. exact K. }
  split; [replace 0.0349282 with (349282 / 10000000) by lra|replace 0.4833163 with (4833163 / 10000000) by lra]; apply K; vm_compute; reflexivity.
Qed.

Definition b_turn : bnd := B (-10 * one) (20 * one) (13 * one / 100000000000).
Lemma era_ok : forall lm, good_libm lm -> forall u ru, apx u ru b_ut ->
  near_angle (rotation_angle (A := b64A lm) (MkUT1 (A := b64A lm) (MJD_ZERO (A := b64A lm)) u))
    (era_of (MkUT1 (A := realA) (MJD_ZERO (A := realA)) ru)) (13 / 100000000000).
Proof.
  intros lm G u ru Hu. destruct mjd0_F as [F0 V0].
  assert (Ha : apx (Flit 24000005 (-1)) (MJD_ZERO (A := realA)) b_mjd0).
  { rewrite mjd0_R. pose proof (apx_mjd0 _ F0 V0) as K. rewrite V0 in K. exact K. }
  eapply near_angle_of_apxm; [refine (apxm_era_chk lm G _ u _ _ _ _ b_turn Ha Hu _)|..]; vm_compute; reflexivity.
Qed.

Lemma c2t_sun : forall lm, good_libm lm -> forall b rb u ru m m', apx b rb b_tt -> 15019.5 <= rb <= 88069.5 -> apx u ru b_ut ->
  celestial_to_terrestrial (A := b64A lm) (MkTT (A := b64A lm) (MJD_ZERO (A := b64A lm)) b) (MkUT1 (A := b64A lm) (MJD_ZERO (A := b64A lm)) u)
    (poleE (A := b64A lm) 349282) (poleE (A := b64A lm) 4833163) = Val m ->
  celestial_to_terrestrial (A := realA) (MkTT (A := realA) (MJD_ZERO (A := realA)) rb) (MkUT1 (A := realA) (MJD_ZERO (A := realA)) ru)
    (arcsec 0.0349282) (arcsec 0.4833163) = Val m' ->
  mfro m m' (2.64 / 10 ^ 10) /\ proper m'.
Proof.
  intros lm G b rb u ru m m' Hb Rb Hu Em Em'. destruct mjd0_F as [F0 V0].
  assert (Ha : apx (Flit 24000005 (-1)) (MJD_ZERO (A := realA)) b_mjd0).
  { rewrite mjd0_R. pose proof (apx_mjd0 _ F0 V0) as K. rewrite V0 in K. exact K. }
  set (t := centuries (MkTT (A := realA) (MJD_ZERO (A := realA)) rb)).
  assert (Ht : Rabs t <= 10) by (unfold t, centuries; cbn [tt_1 tt_2]; rewrite mjd0_R; apply Rabs_le; lra).
  assert (Ht5 : Rabs t <= 50) by lra.
  rewrite (proj2 (C69_exact_pf _ Ht5)) in Em'.
  assert (OI : forall x y : mat3 realA, Val x = Val y -> x = y) by (intros; congruence).
  assert (PM : proper m').
  { destruct C35_frames_proper_pf as (_ & _ & _ & _ & _ & _ & PT).
    destruct (PT (MkTT (A := realA) (MJD_ZERO (A := realA)) rb) (MkUT1 (A := realA) (MJD_ZERO (A := realA)) ru) (arcsec 0.0349282) (arcsec 0.4833163)) as (q & Eq & Pq).
    rewrite (proj2 (C69_exact_pf _ Ht5)) in Eq. rewrite Em' in Eq. apply OI in Eq. subst q. exact Pq. }
  apply OI in Em'. split; [|exact PM]. rewrite <- Em'.
  destruct (rbpn_ok lm G _ b _ rb _ _ q_mjd Ha Hb frames_sun q_mjd_ok) as (n & E & H). fold t in H. destruct fg_mjd as [[V1 V2] V3].
  apply (mfro_le _ _ _ _ (val f_mjd)) in H; [|eapply Rle_trans; [|exact V1]; unfold qr, q_mjd, den; cbn [q1 q2 q3 qE qS qD]; lra].
  destruct (cio_chk10_ok lm G _ b _ rb _ _ f_mjd g_mjd n Ha Hb cio10_sun Ht E H ltac:(lra) ltac:(lra)) as (q & Eq & Hq & Pq). fold t in Hq, Pq.
  apply (mfro_le _ _ _ _ (2 / 10 ^ 13)) in Hq; [|lra].
  destruct (pole_ok lm G) as [Nx Ny].
  destruct (c2t_ok lm G _ (MkUT1 (A := b64A lm) (MJD_ZERO (A := b64A lm)) u) _ _ _ _ _ _ t _ q _ _ Nx Ny ltac:(lra) ltac:(lra) Eq Hq Pq ltac:(lra) (era_ok lm G u ru Hu) ltac:(lra)) as (w & Ew & Hw).
  assert (OIF : forall x y : mat3 (b64A lm), Val x = Val y -> x = y) by (intros; congruence).
  assert (EW : w = m) by (apply OIF; rewrite <- Ew, <- Em; reflexivity). rewrite EW in Hw.
  eapply mfro_le; [exact Hw|lra].
Qed.
