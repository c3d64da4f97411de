(** * The converter of any ellipsoid of flattening up to 0.006, in binary64 *)

From Coq Require Import ZArith Reals Lra Lia Bool List Psatz.
From Flocq Require Import Core BinarySingleNaN.
From Verif Require Import Outcome Arith ArithR ArithF Spec_Float Spec_Accuracy M_Common M_Ellipsoid Spec_Matrix.
From Verif Require Import L_ArithF L_ArithR L_Flit L_PMatrix L_Rel L_Ellipsoid L_Halley L_ApxEl.
Open Scope R_scope.

Local Notation er1 x r k b := (er 1 1 x r k b 0 0).
Lemma one_N : bpow radix2 (-57) <= 1 <= 1.
Proof. split; [change 1 with (bpow radix2 0); apply bpow_le; lia|lra]. Qed.
Lemma one_R : 0.9 <= 1 <= 1024. Proof. lra. Qed.
Lemma M11 : M 1 1 0 0 = 1. Proof. unfold M. cbn [pow]. lra. Qed.
Lemma er1_make : forall x r k b, fin x = true -> Rabs (B2R x - r) <= k * U -> Rabs r <= b -> 0 <= k <= 10 ^ 6 * b -> / 10 ^ 30 <= b <= 10 ^ 30 -> er1 x r k b.
Proof. intros x r k b F E B K Hb. split; [exact F|]. rewrite M11, !Rmult_1_r. repeat split; try assumption; try lra; lia. Qed.
Lemma er1_close : forall x r k b, er1 x r k b -> close x r k.
Proof. intros x r k b (F & E & _). rewrite M11, Rmult_1_r in E. split; assumption. Qed.

Lemma lit_1em32 : close (Flit 1 (-32)) (/ 10 ^ 32) (/ 10 ^ 32).
Proof.
  unfold close. rewrite fin_SF, B2R_SF.
  match goal with |- context [B2SF ?t] =>
    let x := fresh "x" in set (x := B2SF t); let v := eval vm_compute in x in
    let E := fresh "E" in assert (E : x = v) by (vm_compute; reflexivity); rewrite E; clear E x end.
  cbn [SF2R cond_Zopp Z.opp is_finite_SF]. unfold F2R. cbn [Fnum Fexp].
  match goal with |- context [bpow radix2 ?e] => let v := eval cbv in e in match v with Zneg ?q => let w := eval vm_compute in (2 ^ Zpos q)%Z in change (bpow radix2 e) with (/ IZR w) end end.
  split; [reflexivity|]. unfold U. apply Rabs_le. lra.
Qed.
Lemma lit_15 : B2R (Flit 15 (-1)) = 1.5 /\ fin (Flit 15 (-1)) = true.
Proof.
  rewrite fin_SF, B2R_SF.
  match goal with |- context [B2SF ?t] =>
    let x := fresh "x" in set (x := B2SF t); let v := eval vm_compute in x in
    let E := fresh "E" in assert (E : x = v) by (vm_compute; reflexivity); rewrite E; clear E x end.
  cbn [SF2R cond_Zopp Z.opp is_finite_SF]. unfold F2R. cbn [Fnum Fexp].
  match goal with |- context [bpow radix2 ?e] => let v := eval cbv in e in match v with Zneg ?q => let w := eval vm_compute in (2 ^ Zpos q)%Z in change (bpow radix2 e) with (/ IZR w) end end.
  split; [lra|reflexivity].
Qed.

Section Parts.
Variables a f : b64.
Hypothesis Fa : fin a = true.
Hypothesis Ff : fin f = true.
Hypothesis Ha : / 10 ^ 6 <= B2R a <= 10 ^ 12.
Hypothesis Hf : 0 <= B2R f <= 0.006.
Let a0 := B2R a.
Let kf := B2R f.

Definition e2F := Fmul (Fsub (Flit 2 0) f) f.
Definition ec2F := Fsub (Flit 1 0) e2F.

Lemma e2_ok : close e2F (kG kf) 0.02 /\ 0 <= B2R e2F.
Proof.
  destruct (Flit_int 2 ltac:(lia)) as [E2 F2]. pose proof U_pos as UP. unfold e2F, kG, kE. fold kf in Hf.
  assert (B1 : Rabs (B2R (Flit 2 0) - kf) <= bpow radix2 1) by (rewrite E2; change (bpow radix2 1) with 2; apply Rabs_le; lra).
  destruct (Fsub_ok (Flit 2 0) f F2 Ff) as [ES FS]; [apply (small_le _ 1); [lia|exact B1]|].
  pose proof (rnd_error _ 1 ltac:(lia) B1) as Q1. fold kf in ES. rewrite E2 in *. change (1 - 53)%Z with (-52)%Z in Q1.
  assert (UU : / 2 * bpow radix2 (-52) = U) by (change (bpow radix2 (-52)) with (/ 4503599627370496); unfold U; lra). rewrite UU, <- ES in Q1.
  set (d := Fsub (Flit 2 0) f) in *. clearbody d. apply Rabs_le_inv in Q1.
  assert (B2 : Rabs (B2R d * kf) <= bpow radix2 (-6)).
  { change (bpow radix2 (-6)) with (/ 64). rewrite Rabs_pos_eq by (apply Rmult_le_pos; lra). apply Rle_trans with (2.1 * 0.006); [apply Rmult_le_compat; lra|lra]. }
  destruct (Fmul_ok d f FS Ff) as [EM FM]; [apply (small_le _ (-6)); [lia|exact B2]|].
  split; [|rewrite EM; apply rnd_ge; [apply generic_format_0|fold kf; apply Rmult_le_pos; lra]].
  split; [exact FM|]. rewrite EM. fold kf. pose proof (rnd_error _ (-6) ltac:(lia) B2) as Q2. change (-6 - 53)%Z with (-59)%Z in Q2.
  assert (UU2 : / 2 * bpow radix2 (-59) = / 128 * U) by (change (bpow radix2 (-59)) with (/ 576460752303423488); unfold U; lra). rewrite UU2 in Q2.
  replace (rnd (B2R d * kf) - (1 - (1 - kf) * (1 - kf))) with ((rnd (B2R d * kf) - B2R d * kf) + (B2R d - (2 - kf)) * kf) by ring.
  eapply Rle_trans; [apply Rabs_triang|]. rewrite Rabs_mult, (Rabs_pos_eq kf) by lra.
  assert (Rabs (B2R d - (2 - kf)) * kf <= U * 0.006) by (apply Rmult_le_compat; try apply Rabs_pos; try lra; apply Rabs_le; lra). lra.
Qed.
Lemma ec2_ok : close ec2F (kE kf * kE kf) 0.6 /\ 0.98 <= B2R ec2F <= 1.
Proof.
  destruct (Flit_int 1 ltac:(lia)) as [E1 F1]. destruct e2_ok as [[Fe Ee] E0]. destruct (k_bounds kf Hf) as (BE & BG & _). pose proof U_pos as UP.
  unfold ec2F. set (e := e2F) in *. clearbody e.
  assert (EK : kE kf * kE kf = 1 - kG kf) by (unfold kG; ring). rewrite EK. set (g := kG kf) in *. clearbody g. apply Rabs_le_inv in Ee.
  assert (BN : Rabs (B2R (Flit 1 0) - B2R e) <= bpow radix2 0) by (rewrite E1; change (bpow radix2 0) with 1; apply Rabs_le; lra).
  destruct (Fsub_ok (Flit 1 0) e F1 Fe) as [ES FS]; [apply (small_le _ 0); [lia|exact BN]|].
  pose proof (rnd_error _ 0 ltac:(lia) BN) as Q. change (0 - 53)%Z with (-53)%Z in Q.
  assert (UU : bpow radix2 (-53) = U) by (change (bpow radix2 (-53)) with (/ 9007199254740992); unfold U; lra). rewrite UU in Q.
  rewrite ES. rewrite E1 in *. apply Rabs_le_inv in Q. unfold close. rewrite ES. set (t := rnd (1 - B2R e)) in *.
  assert (T1 : t <= 1) by (apply rnd_le; [change 1 with (bpow radix2 0); apply generic_format_bpow; unfold FLT_exp; lia|lra]). clearbody t.
  split; [split; [exact FS|apply Rabs_le; lra]|lra].
Qed.
Lemma ec_ok : close (Fsqrt ec2F) (kE kf) 1.
Proof.
  destruct ec2_ok as [[F E] B]. destruct (k_bounds kf Hf) as (BE & _). pose proof U_pos as UP. set (u := ec2F) in *. clearbody u. set (k := kE kf) in *. clearbody k.
  destruct (Fsqrt_ok u F ltac:(lra)) as [ES FS]. split; [exact FS|]. rewrite ES.
  assert (S1 : 0.98 <= sqrt (B2R u) <= 1).
  { split; [rewrite <- (sqrt_square 0.98) by lra; apply sqrt_le_1; lra|rewrite <- sqrt_1 at 1; apply sqrt_le_1; lra]. }
  assert (SS : sqrt (B2R u) * sqrt (B2R u) = B2R u) by (apply sqrt_sqrt; lra).
  set (q := sqrt (B2R u)) in *. clearbody q.
  assert (BN : Rabs q <= bpow radix2 0) by (change (bpow radix2 0) with 1; apply Rabs_le; lra).
  pose proof (rnd_error _ 0 ltac:(lia) BN) as Q. change (0 - 53)%Z with (-53)%Z in Q.
  assert (UU : bpow radix2 (-53) = U) by (change (bpow radix2 (-53)) with (/ 9007199254740992); unfold U; lra). rewrite UU in Q.
  assert (D : Rabs (q - k) <= 0.4 * U).
  { rewrite <- SS in E. replace (q * q - k * k) with ((q - k) * (q + k)) in E by ring. rewrite Rabs_mult, (Rabs_pos_eq (q + k)) in E by lra.
    pose proof (Rabs_pos (q - k)). assert (Rabs (q - k) * 1.97 <= Rabs (q - k) * (q + k)) by (apply Rmult_le_compat_l; lra). lra. }
  replace (rnd q - k) with ((rnd q - q) + (q - k)) by ring. eapply Rle_trans; [apply Rabs_triang|]. lra.
Qed.
Lemma e4_ok : close (Fmul (Fmul e2F e2F) (Flit 15 (-1))) (kT kf) 0.0012.
Proof.
  destruct e2_ok as [[F E] _]. destruct (k_bounds kf Hf) as (_ & BG & _). destruct lit_15 as [L LF].
  assert (H1 : er1 e2F (kG kf) 0.02 0.012) by (apply er1_make; try assumption; try lra; apply Rabs_le; lra).
  pose proof (er_mul 1 1 one_N one_R _ _ _ _ _ _ _ _ _ _ _ _ 0.000625 0.000144 H1 H1 ltac:(lia) ltac:(lia) ltac:(lra) ltac:(lra) ltac:(lra) ltac:(lra)) as H2.
  assert (H3 : er1 (Flit 15 (-1)) 1.5 0 1.5) by (apply er1_make; try assumption; try lra; rewrite ?L; apply Rabs_le; lra).
  pose proof (er_mul 1 1 one_N one_R _ _ _ _ _ _ _ _ _ _ _ _ 0.0012 0.000216 H2 H3 ltac:(lia) ltac:(lia) ltac:(lra) ltac:(lra) ltac:(lra) ltac:(lra)) as H4.
  apply er1_close in H4. unfold kT. replace (3 / 2 * (kG kf * kG kf)) with (kG kf * kG kf * 1.5) by lra. exact H4.
Qed.
Lemma b_ok : close (Fmul a (Fsqrt ec2F)) (a0 * kE kf) (3 * a0).
Proof.
  destruct ec_ok as [F E]. destruct (k_bounds kf Hf) as (BE & _). fold a0 in Ha.
  assert (H1 : er1 (Fsqrt ec2F) (kE kf) 1 1) by (apply er1_make; try assumption; try lra; apply Rabs_le; lra).
  assert (H2 : er1 a a0 0 a0) by (apply er1_make; try assumption; try lra; fold a0; [rewrite Rminus_diag_eq, Rabs_R0 by reflexivity; lra|apply Rabs_le; lra]).
  pose proof (er_mul 1 1 one_N one_R _ _ _ _ _ _ _ _ _ _ _ _ (3 * a0) a0 H2 H1 ltac:(lia) ltac:(lia) ltac:(lra) ltac:(lra) ltac:(lra) ltac:(lra)) as H3.
  apply er1_close in H3. exact H3.
Qed.
Lemma aeps_ok : close (Fmul (Fmul a a) (Flit 1 (-32))) (a0 * a0 / 10 ^ 32) (4 * (a0 * a0 / 10 ^ 32)).
Proof.
  fold a0 in Ha. pose proof U_pos as UP. destruct lit_1em32 as [LF LE].
  assert (A2 : / 10 ^ 12 <= a0 * a0 <= 10 ^ 24) by (split; [apply Rle_trans with (/ 10 ^ 6 * / 10 ^ 6)|apply Rle_trans with (10 ^ 12 * 10 ^ 12)]; try lra; apply Rmult_le_compat; lra).
  assert (H2 : er1 a a0 0 a0) by (apply er1_make; try assumption; try lra; fold a0; [rewrite Rminus_diag_eq, Rabs_R0 by reflexivity; lra|apply Rabs_le; lra]).
  pose proof (er_mul 1 1 one_N one_R _ _ _ _ _ _ _ _ _ _ _ _ (1.01 * (a0 * a0)) (a0 * a0) H2 H2 ltac:(lia) ltac:(lia) ltac:(lra) ltac:(lra) ltac:(lra) ltac:(lra)) as H3.
  apply er1_close in H3. destruct H3 as [F3 E3]. set (x := Fmul a a) in *. clearbody x. set (g := a0 * a0) in *. clearbody g. set (l := Flit 1 (-32)) in *. clearbody l.
  assert (E4 : Rabs (B2R x * B2R l - g / 10 ^ 32) <= 2.5 * (g / 10 ^ 32) * U).
  { replace (B2R x * B2R l - g / 10 ^ 32) with ((B2R x - g) * / 10 ^ 32 + B2R x * (B2R l - / 10 ^ 32)) by (unfold Rdiv; ring).
    eapply Rle_trans; [apply Rabs_triang|]. rewrite !Rabs_mult, (Rabs_pos_eq (/ 10 ^ 32)) by lra.
    assert (GU : 0 <= g * U <= 0.001 * g) by (split; [apply Rmult_le_pos; lra|rewrite (Rmult_comm 0.001); apply Rmult_le_compat_l; lra]).
    assert (XB : Rabs (B2R x) <= 1.1 * g) by (apply Rabs_le_inv in E3; apply Rabs_le; lra).
    assert (Rabs (B2R x) * Rabs (B2R l - / 10 ^ 32) <= 1.1 * g * (/ 10 ^ 32 * U)) by (apply Rmult_le_compat; try apply Rabs_pos; lra). lra. }
  assert (SM : Rabs (B2R x * B2R l) <= 2 * (g / 10 ^ 32)).
  { apply Rabs_le_inv in E4. assert (0 <= g / 10 ^ 32 * U <= 0.001 * (g / 10 ^ 32)) by (split; [apply Rmult_le_pos; lra|rewrite (Rmult_comm 0.001); apply Rmult_le_compat_l; lra]). apply Rabs_le; lra. }
  destruct (Fmul_ok x l F3 LF) as [EM FM]; [apply (small_le _ 0); [lia|]; change (bpow radix2 0) with 1; lra|].
  split; [exact FM|]. rewrite EM.
  assert (Q : Rabs (rnd (B2R x * B2R l) - B2R x * B2R l) <= U * (1.0001 * (1.2 * (g / 10 ^ 32)))).
  { apply rnd_U.
    - apply Rabs_le_inv in E4. assert (0 <= g / 10 ^ 32 * U <= 0.001 * (g / 10 ^ 32)) by (split; [apply Rmult_le_pos; lra|rewrite (Rmult_comm 0.001); apply Rmult_le_compat_l; lra]). apply Rabs_le; lra.
    - apply Rle_trans with (bpow radix2 (-200)); [apply bpow_le; lia|]. change (bpow radix2 (-200)) with (/ IZR (2 ^ 200)). apply Rle_trans with (/ 10 ^ 44); [|lra].
      apply Rinv_le; [apply pow_lt; lra|]. rewrite pow_IZR. apply IZR_le. vm_compute. discriminate. }
  replace (rnd (B2R x * B2R l) - g / 10 ^ 32) with ((rnd (B2R x * B2R l) - B2R x * B2R l) + (B2R x * B2R l - g / 10 ^ 32)) by ring.
  eapply Rle_trans; [apply Rabs_triang|]. assert (0 <= g / 10 ^ 32 * U) by (apply Rmult_le_pos; lra). lra.
Qed.

Lemma conv_any : forall lm, exists c, conv_new (A := b64A lm) (MkEll (A := b64A lm) a f) = Ok c /\ good_conv a0 kf c.
Proof.
  intros lm. pose proof e2_ok as [K2 _]. pose proof ec2_ok as [K3 B3]. destruct (Flit_int 0 ltac:(lia)) as [E0 F0]. destruct (Flit_int 1 ltac:(lia)) as [E1 F1].
  eexists. split.
  - unfold conv_new. cbn [el_a el_f]. b64A_ops. fold e2F. fold ec2F.
    rewrite !Bltb_correct, !Bleb_correct by (try assumption; apply K3). rewrite !E0, !E1.
    rewrite !Rlt_bool_false, !Rle_bool_false by lra. cbn [orb]. cbv zeta. reflexivity.
  - unfold good_conv. cbn [cv_el cv_e2 cv_e4t cv_ec2 cv_ec cv_b cv_aeps2 el_a].
    refine (conj _ (conj K2 (conj e4_ok (conj K3 (conj ec_ok (conj b_ok aeps_ok)))))).
    split; [exact Fa|]. fold a0. rewrite Rminus_diag_eq, Rabs_R0 by reflexivity. pose proof U_pos. lra.
Qed.
End Parts.
