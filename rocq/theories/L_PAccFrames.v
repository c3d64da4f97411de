(** * Accuracy of the binary64 frame matrices: lemmas for the properties *)

From Coq Require Import ZArith Reals Lra Lia Bool List.
From Flocq Require Import Core BinarySingleNaN.
From Verif Require Import Outcome Arith ArithR ArithF Spec_Float Spec_Accuracy M_Common M_Time M_Earth M_Frames Spec_Matrix Spec_Frames Spec_Series.
From Verif Require Import L_ArithF L_ArithR L_Matrix L_Frames L_PFrames L_Apx L_ApxMod L_ApxAngle L_ApxNut L_Fro L_ApxFrames L_PAccuracy.
Import ListNotations.
Open Scope R_scope.

Lemma mfro_ortho : forall lm (M : mat3 (b64A lm)) M' f, proper M' -> mfro M M' f ->
  forall i j, Rabs (B2R (mget (A := b64A lm) M i I0) * B2R (mget (A := b64A lm) M j I0) + B2R (mget (A := b64A lm) M i I1) * B2R (mget (A := b64A lm) M j I1)
    + B2R (mget (A := b64A lm) M i I2) * B2R (mget (A := b64A lm) M j I2) - kron i j) <= 2 * f + f * f.
Proof.
  intros lm M M' f [P _] [_ H] i j. set (e := errm M M') in *.
  assert (F0 : 0 <= f) by (eapply Rle_trans; [apply fro_nonneg|exact H]).
  assert (EE : forall i k, B2R (mget (A := b64A lm) M i k) = entry M' i k + e i k) by (intros; unfold e, errm; ring).
  assert (ER : forall i, e i I0 * e i I0 + e i I1 * e i I1 + e i I2 * e i I2 <= f * f).
  { intros k. rewrite <- erow_sq. apply Rle_trans with (fro e * fro e).
    - rewrite fro_sq. pose proof (Rle_0_sqr (erow e I0)). pose proof (Rle_0_sqr (erow e I1)). pose proof (Rle_0_sqr (erow e I2)). unfold Rsqr in *. destruct k; lra.
    - apply Rmult_le_compat; try exact H; apply fro_nonneg. }
  assert (CS : forall a b c x y z g, 0 <= g -> (a * a + b * b + c * c) * (x * x + y * y + z * z) <= g * g -> Rabs (a * x + b * y + c * z) <= g).
  { intros a b c x y z g G0 K. apply abs_le_sq; [exact G0|].
    pose proof (Rle_0_sqr (a * y - b * x)). pose proof (Rle_0_sqr (a * z - c * x)). pose proof (Rle_0_sqr (b * z - c * y)). unfold Rsqr in *. lra. }
  assert (K1 : forall i j, Rabs (entry M' i I0 * e j I0 + entry M' i I1 * e j I1 + entry M' i I2 * e j I2) <= f).
  { intros k l. apply CS; [exact F0|]. rewrite (P k k). replace (kron k k) with 1 by (destruct k; reflexivity). rewrite Rmult_1_l. apply ER. }
  assert (K2 : Rabs (e i I0 * e j I0 + e i I1 * e j I1 + e i I2 * e j I2) <= f * f).
  { apply CS; [nra|]. apply Rmult_le_compat; try apply ER.
    - pose proof (Rle_0_sqr (e i I0)). pose proof (Rle_0_sqr (e i I1)). pose proof (Rle_0_sqr (e i I2)). unfold Rsqr in *. lra.
    - pose proof (Rle_0_sqr (e j I0)). pose proof (Rle_0_sqr (e j I1)). pose proof (Rle_0_sqr (e j I2)). unfold Rsqr in *. lra. }
  rewrite !EE, <- (P i j).
  match goal with |- Rabs ?x <= _ => replace x with ((entry M' i I0 * e j I0 + entry M' i I1 * e j I1 + entry M' i I2 * e j I2)
    + (entry M' j I0 * e i I0 + entry M' j I1 * e i I1 + entry M' j I2 * e i I2) + (e i I0 * e j I0 + e i I1 * e j I1 + e i I2 * e j I2)) by ring end.
  eapply Rle_trans; [apply Rabs_triang|]. apply Rplus_le_compat; [|exact K2]. eapply Rle_trans; [apply Rabs_triang|].
  pose proof (K1 i j). pose proof (K1 j i). lra.
Qed.

Definition q_gen : errs := MkErrs 1600 2200 7900 700 25800 52500.
Definition q_mjd : errs := MkErrs 1 240 110 240 570 670.
Lemma frames_gen : frames_chk (B (-4194304 * one) (4194304 * one) 0) (B (-4194304 * one) (4194304 * one) 0) q_gen = true.
Proof. vm_cast_no_check (@eq_refl bool true). Qed.
Lemma frames_mjd : frames_chk b_mjd0 (B (-100000 * one) (100000 * one) 0) q_mjd = true.
Proof. vm_cast_no_check (@eq_refl bool true). Qed.
Lemma q_gen_ok : qok q_gen.
Proof. unfold qok, qr, q_gen, den. cbn [q1 q2 q3 qE qS qD]. lra. Qed.
Lemma q_mjd_ok : qok q_mjd.
Proof. unfold qok, qr, q_mjd, den. cbn [q1 q2 q3 qE qS qD]. lra. Qed.

Lemma pn_proper : forall t a b, proper (product [N_matrix (eps_A t) a b; P_matrix t; B_matrix]).
Proof. intros. rewrite product_3. apply proper_mm; [apply proper_mm; [apply N_proper|apply P_proper]|apply B_proper]. Qed.

(** For every split of every date with parts up to 2^22 days, every entry of the
    binary64 bias-precession-nutation matrix is within 2.4e-13 of the exact product of
    the nutation, precession and bias matrices, and its rows are orthonormal to 5e-13. *)
Lemma C68_precession_nutation_accuracy_pf : forall lm, good_libm lm -> forall a b : b64, fin a = true -> fin b = true ->
  Rabs (B2R a) <= 4194304 -> Rabs (B2R b) <= 4194304 ->
  let t := centuries (MkTT (A := realA) (B2R a) (B2R b)) in
  exists m, precession_nutation (A := b64A lm) (MkTT (A := b64A lm) a b) = Val m /\
  (forall i j, near (mget (A := b64A lm) m i j)
    (entry (product [N_matrix (eps_A t) (nut_dpsi t) (nut_deps t); P_matrix t; B_matrix]) i j) (2.4 / 10 ^ 13)) /\
  (forall i j, Rabs (B2R (mget (A := b64A lm) m i I0) * B2R (mget (A := b64A lm) m j I0)
    + B2R (mget (A := b64A lm) m i I1) * B2R (mget (A := b64A lm) m j I1)
    + B2R (mget (A := b64A lm) m i I2) * B2R (mget (A := b64A lm) m j I2) - kron i j) <= 5 / 10 ^ 13).
Proof.
  intros lm G a b Fa Fb Ha Hb t. apply Rabs_le_inv in Ha, Hb.
  pose proof (apx_var a (-4194304) 4194304 Fa Ha) as Xa. pose proof (apx_var b (-4194304) 4194304 Fb Hb) as Xb.
  destruct (rbpn_ok lm G a b _ _ _ _ q_gen Xa Xb frames_gen q_gen_ok) as (m & E & H). exists m. split; [exact E|]. fold t in H.
  apply (mfro_le _ _ _ _ (2.4 / 10 ^ 13)) in H; [|unfold qr, q_gen, den; cbn [q1 q2 q3 qE qS qD]; lra].
  split; [intros i j; exact (mfro_near _ _ _ _ i j H)|].
  intros i j. eapply Rle_trans; [apply (mfro_ortho _ _ _ _ (pn_proper _ _ _) H)|lra].
Qed.

(** With the date split as a modified Julian date between 1585 and 2132 the entries are
    within 5e-14 and the rows orthonormal to 1.1e-13. *)
Lemma C68_precession_nutation_accuracy_mjd_pf : forall lm, good_libm lm -> forall a b : b64, fin a = true -> fin b = true ->
  B2R a = 2400000.5 -> Rabs (B2R b) <= 100000 ->
  let t := centuries (MkTT (A := realA) (B2R a) (B2R b)) in
  exists m, precession_nutation (A := b64A lm) (MkTT (A := b64A lm) a b) = Val m /\
  (forall i j, near (mget (A := b64A lm) m i j)
    (entry (product [N_matrix (eps_A t) (nut_dpsi t) (nut_deps t); P_matrix t; B_matrix]) i j) (5 / 10 ^ 14)) /\
  (forall i j, Rabs (B2R (mget (A := b64A lm) m i I0) * B2R (mget (A := b64A lm) m j I0)
    + B2R (mget (A := b64A lm) m i I1) * B2R (mget (A := b64A lm) m j I1)
    + B2R (mget (A := b64A lm) m i I2) * B2R (mget (A := b64A lm) m j I2) - kron i j) <= 1.1 / 10 ^ 13).
Proof.
  intros lm G a b Fa Fb Ha Hb t. apply Rabs_le_inv in Hb.
  pose proof (apx_mjd0 a Fa Ha) as Xa. pose proof (apx_var b (-100000) 100000 Fb Hb) as Xb.
  destruct (rbpn_ok lm G a b _ _ _ _ q_mjd Xa Xb frames_mjd q_mjd_ok) as (m & E & H). exists m. split; [exact E|]. fold t in H.
  apply (mfro_le _ _ _ _ (5 / 10 ^ 14)) in H; [|unfold qr, q_mjd, den; cbn [q1 q2 q3 qE qS qD]; lra].
  split; [intros i j; exact (mfro_near _ _ _ _ i j H)|].
  intros i j. eapply Rle_trans; [apply (mfro_ortho _ _ _ _ (pn_proper _ _ _) H)|lra].
Qed.

(** The three matrices of bias_and_precession, for every split with parts up to 2^22
    days. *)
Lemma C68_bias_precession_accuracy_pf : forall lm, good_libm lm -> forall a b : b64, fin a = true -> fin b = true ->
  Rabs (B2R a) <= 4194304 -> Rabs (B2R b) <= 4194304 ->
  let t := centuries (MkTT (A := realA) (B2R a) (B2R b)) in
  exists rb rp rbp, bias_and_precession (A := b64A lm) (MkTT (A := b64A lm) a b) = Val (rb, rp, rbp) /\
  forall i j, near (mget (A := b64A lm) rb i j) (entry B_matrix i j) (1.2 / 10 ^ 14) /\
    near (mget (A := b64A lm) rp i j) (entry (P_matrix t) i j) (4 / 10 ^ 14) /\
    near (mget (A := b64A lm) rbp i j) (entry (product [P_matrix t; B_matrix]) i j) (5.5 / 10 ^ 14).
Proof.
  intros lm G a b Fa Fb Ha Hb t. apply Rabs_le_inv in Ha, Hb.
  pose proof (apx_var a (-4194304) 4194304 Fa Ha) as Xa. pose proof (apx_var b (-4194304) 4194304 Fb Hb) as Xb.
  pose proof (rp_ok lm G a b _ _ _ _ q_gen Xa Xb frames_gen q_gen_ok) as HP. pose proof (rb_ok lm G) as HB. fold t in HP.
  apply (mfro_le _ _ _ _ (4 / 10 ^ 14)) in HP; [|unfold qr, q_gen, den; cbn [q1 q2 q3 qE qS qD]; lra].
  apply (mfro_le _ _ _ _ (1.13 / 10 ^ 14)) in HB; [|lra].
  pose proof (mfro_compose lm G _ _ _ _ _ _ (P_proper t) B_proper HP HB ltac:(lra) ltac:(lra)) as HPB.
  do 3 eexists. split; [apply bp_val|]. intros i j. rewrite product_2.
  split; [eapply near_le; [apply (mfro_near _ _ _ _ i j HB)|lra]|].
  split; [eapply near_le; [apply (mfro_near _ _ _ _ i j HP)|lra]|].
  eapply near_le; [apply (mfro_near _ _ _ _ i j HPB)|lra].
Qed.

(** The polar motion matrix, for all finite pole coordinates. *)
Lemma C68_polar_motion_accuracy_pf : forall lm, good_libm lm -> forall xp yp sp : b64, fin xp = true -> fin yp = true -> fin sp = true ->
  exists m, polar_motion_matrix (A := b64A lm) xp yp sp = Val m /\
  forall i j, near (mget (A := b64A lm) m i j) (entry (W_matrix (B2R xp) (B2R yp) (B2R sp)) i j) (1.2 / 10 ^ 14).
Proof.
  intros lm G xp yp sp Fx Fy Fs. eexists. split; [apply pm_val|]. intros i j.
  assert (Z : forall x : b64, fin x = true -> near x (B2R x) 0).
  { intros x F. split; [exact F|]. rewrite Rminus_diag_eq by reflexivity. rewrite Rabs_R0. apply Rle_refl. }
  pose proof (prod3_ok lm G I0 _ _ _ I1 _ _ _ I2 _ _ _ (near_angle_of_near _ _ _ (near_neg _ _ _ (Z yp Fy)))
    (near_angle_of_near _ _ _ (near_neg _ _ _ (Z xp Fx))) (near_angle_of_near _ _ _ (Z sp Fs)) ltac:(lra) ltac:(lra) ltac:(lra)) as H.
  unfold W_matrix, R1, R2, R3. rewrite product_3. eapply near_le; [apply (mfro_near _ _ _ _ i j H)|lra].
Qed.

(** C68 at TT 2400000.5 + 53736: the pole coordinate x. *)
Example C68_example_pf : forall lm, good_libm lm -> exists m,
  precession_nutation (A := b64A lm) (MkTT (A := b64A lm) (Flit 24000005 (-1)) (Flit 53736 0)) = Val m /\
  let t := 2191.5 / 36525 in
  near (mget (A := b64A lm) m I2 I0)
    (entry (product [N_matrix (eps_A t) (nut_dpsi t) (nut_deps t); P_matrix t; B_matrix]) I2 I0) (5 / 10 ^ 14).
Proof.
  intros lm G. destruct mjd0_ok as [Fa Va]. destruct (int_ok 53736 eq_refl) as [Fb Vb].
  destruct (C68_precession_nutation_accuracy_mjd_pf lm G _ _ Fa Fb Va ltac:(rewrite Vb; apply Rabs_le; lra)) as (m & E & H & _).
  exists m. split; [exact E|]. cbv zeta. specialize (H I2 I0). rewrite Va, Vb in H.
  replace (2191.5 / 36525) with (centuries (MkTT (A := realA) 2400000.5 53736)); [exact H|].
  unfold centuries. cbn [tt_1 tt_2]. lra.
Qed.
