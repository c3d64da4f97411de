(** * Lemmas for C96: geocentric to geodetic in binary64 on any ellipsoid of flattening up to 0.006 *)

From Coq Require Import ZArith Reals Lra Lia Bool List Psatz.
From Flocq Require Import Core BinarySingleNaN.
From Verif Require Import Outcome Arith ArithR ArithF Spec_Float Spec_Accuracy M_Common M_Ellipsoid Spec_Matrix Spec_Ell.
From Verif Require Import L_ArithF L_ArithR L_Flit L_PMatrix L_Rel L_Ellipsoid L_Halley L_ApxEl L_GdAny.
From Verif Require L_Pi L_PEllipsoid L_PAccGd L_ApxGd.
Open Scope R_scope.

Section Any.
Variables a0 kf : R.
Hypothesis RA0 : / 10 ^ 6 <= a0 <= 10 ^ 12.
Hypothesis Hkf : 0 <= kf <= 0.006.
Local Notation rc0 := (L_ApxEl.rc0 kf).
Local Notation rc2 := (L_ApxEl.rc2 kf).
Local Notation rc3 := (L_ApxEl.rc3 kf).
Local Notation ra0 := (L_ApxEl.ra0 kf).
Local Notation ra2 := (L_ApxEl.ra2 kf).
Local Notation ra3 := (L_ApxEl.ra3 kf).
Local Notation rd0 := (L_ApxEl.rd0 kf).
Local Notation rf0 := (L_ApxEl.rf0 kf).
Local Notation rb0 := (L_ApxEl.rb0 kf).
Local Notation rs1 := (L_ApxEl.rs1 kf).
Local Notation rcc := (L_ApxEl.rcc kf).
Local Notation rH := (L_ApxEl.rH kf).
Local Notation kE := (L_ApxEl.kE kf).
Local Notation kG := (L_ApxEl.kG kf).
Local Notation kT := (L_ApxEl.kT kf).

Lemma phih_R : forall N S, 0 <= N ->
  gc2gd_phi_height (A := realA) (convR a0 kf) (a0 * N * (a0 * N)) (a0 * S) =
  if Rlt_bool (a0 * a0 * / 10 ^ 32) (a0 * N * (a0 * N)) then (atan (rs1 N S / rcc N S), a0 * rH N S (rs1 N S) (rcc N S))
  else (PI / 2, a0 * S - a0 * kE).
Proof.
  intros N S HN. unfold gc2gd_phi_height. change (cv_aeps2 (convR a0 kf)) with (a0 * a0 * / 10 ^ 32). realA_ops.
  destruct (Rlt_bool _ _).
  - rewrite sqrt_square by (apply Rmult_le_pos; lra). unfold gc2gd_step, convR. cbn [cv_el el_a el_f cv_e2 cv_ec cv_e4t cv_ec2 cv_b]. realA_ops. cbv zeta.
    replace (a0 * S / a0) with S by (field; lra). replace (a0 * N / a0) with N by (field; lra).
    assert (EG : (2 - kf) * kf = kG) by (unfold L_ApxEl.kG, L_ApxEl.kE; ring). rewrite EG. fold kE.
    assert (ET : kG * kG * 1.5 = kT) by (unfold L_ApxEl.kT; lra). rewrite ET. 
    change (kE * N) with (rc0 N). change (rc0 N * rc0 N) with (rc2 N). change (S * S) with (rs2 S). change (rc2 N + rs2 S) with (ra2 N S).
    change (sqrt (ra2 N S)) with (ra0 N S). change (ra2 N S * ra0 N S) with (ra3 N S). change (rs2 S * S) with (rs3 S). change (rc2 N * rc0 N) with (rc3 N).
    change (kE * S * ra3 N S + kG * rs3 S) with (rd0 N S). change (N * ra3 N S - kG * rc3 N) with (rf0 N S). change (kT * rs2 S * rc2 N * N * (ra0 N S - kE)) with (rb0 N S).
    change (rd0 N S * rf0 N S - rb0 N S * S) with (rs1 N S). change (kE * (rf0 N S * rf0 N S - rb0 N S * rc0 N)) with (rcc N S).
    f_equal. unfold L_ApxEl.rH. set (s := rs1 N S). set (c := rcc N S). set (g := sqrt (kE * kE * (s * s) + c * c)). set (v := sqrt (s * s + c * c)). clearbody s c g v. unfold Rdiv. ring.
  - rewrite !(Rlit_0 2). reflexivity.
Qed.

Lemma p2_F : forall x y, fin x = true -> fin y = true -> B2R x * B2R x + B2R y * B2R y <= 10 ^ 40 ->
  let p2 := Fadd (Fmul x x) (Fmul y y) in let P := B2R x * B2R x + B2R y * B2R y in
  fin p2 = true /\ 0 <= B2R p2 /\ Rabs (B2R p2 - P) <= 2.001 * U * P + bpow radix2 (-1000).
Proof.
  intros x y Fx Fy HP p2 P. pose proof (Rle_0_sqr (B2R x)) as X0. pose proof (Rle_0_sqr (B2R y)) as Y0. unfold Rsqr in X0, Y0. fold P in HP. pose proof U_pos as UP.
  assert (SM : forall t, Rabs t <= 2 * 10 ^ 40 -> small t).
  { intros t Ht. apply (small_le _ 140); [lia|]. eapply Rle_trans; [exact Ht|]. change (bpow radix2 140) with (IZR (2 ^ 140)). change (2 ^ 140)%Z with 1393796574908163946345982392040522594123776%Z. lra. }
  set (tiny := / 2 * bpow radix2 (-1074)). assert (TN : 0 < tiny) by (unfold tiny; pose proof (bpow_gt_0 radix2 (-1074)); lra).
  assert (T2 : 4 * tiny <= bpow radix2 (-1000)).
  { unfold tiny. apply Rle_trans with (bpow radix2 1 * bpow radix2 (-1074)); [change (bpow radix2 1) with 2; lra|]. rewrite <- bpow_plus. apply bpow_le. lia. }
  assert (RR : forall t, Rabs (rnd t - t) <= U * Rabs t + tiny).
  { intros t. pose proof (rnd_rel t) as E. fold tiny in E. replace (/ 2 * bpow radix2 (-52)) with U in E by (unfold U; change (bpow radix2 (-52)) with (/ 4503599627370496); lra). exact E. }
  assert (T3 : tiny <= 1) by (assert (bpow radix2 (-1000) <= 1) by (change 1 with (bpow radix2 0); apply bpow_le; lia); lra).
  destruct (Fmul_ok x x Fx Fx) as [E1 F1]; [apply SM; rewrite Rabs_pos_eq by exact X0; unfold P in HP; lra|].
  destruct (Fmul_ok y y Fy Fy) as [E2 F2]; [apply SM; rewrite Rabs_pos_eq by exact Y0; unfold P in HP; lra|].
  pose proof (RR (B2R x * B2R x)) as Q1. rewrite (Rabs_pos_eq (B2R x * B2R x)) in Q1 by exact X0.
  pose proof (RR (B2R y * B2R y)) as Q2. rewrite (Rabs_pos_eq (B2R y * B2R y)) in Q2 by exact Y0.
  pose proof (L_PAccGd.rnd_ge_0 _ X0) as G1. pose proof (L_PAccGd.rnd_ge_0 _ Y0) as G2.
  apply Rabs_le_inv in Q1. apply Rabs_le_inv in Q2. unfold P in *.
  set (xx := B2R x * B2R x) in *. set (yy := B2R y * B2R y) in *. clearbody xx yy. set (rx := rnd xx) in *. set (ry := rnd yy) in *.
  assert (UX : 0 <= U * xx <= 0.01 * xx) by (split; [apply Rmult_le_pos; lra|apply Rmult_le_compat_r; lra]). assert (UY : 0 <= U * yy <= 0.01 * yy) by (split; [apply Rmult_le_pos; lra|apply Rmult_le_compat_r; lra]).
  destruct (Fadd_ok (Fmul x x) (Fmul y y) F1 F2) as [E3 F3]; [rewrite E1, E2; apply SM; apply Rabs_le; lra|].
  rewrite E1, E2 in E3. split; [exact F3|]. unfold p2. rewrite E3. split; [apply L_PAccGd.rnd_ge_0; lra|].
  pose proof (RR (rx + ry)) as Q3. rewrite (Rabs_pos_eq (rx + ry)) in Q3 by lra.
  replace (rnd (rx + ry) - (xx + yy)) with ((rnd (rx + ry) - (rx + ry)) + ((rx - xx) + (ry - yy))) by ring.
  eapply Rle_trans; [apply Rabs_triang|].
  assert (Q4 : Rabs ((rx - xx) + (ry - yy)) <= U * xx + U * yy + 2 * tiny) by (apply Rabs_le; lra).
  assert (U * (rx + ry) <= U * (xx + yy) + U * (U * xx + U * yy + 2 * tiny)) by (rewrite <- Rmult_plus_distr_l; apply Rmult_le_compat_l; lra).
  assert (U * (U * xx + U * yy + 2 * tiny) <= U * 0.001 * (xx + yy) + 0.1 * tiny).
  { replace (U * (U * xx + U * yy + 2 * tiny)) with (U * U * (xx + yy) + 2 * U * tiny) by ring. apply Rplus_le_compat; [|apply Rmult_le_compat_r; lra].
    apply Rmult_le_compat_r; [lra|]. apply Rmult_le_compat_l; lra. }
  lra.
Qed.

Lemma A2_b : / 10 ^ 12 <= a0 * a0 <= 10 ^ 24.
Proof. split; [apply Rle_trans with (/ 10 ^ 6 * / 10 ^ 6)|apply Rle_trans with (10 ^ 12 * 10 ^ 12)]; try lra; apply Rmult_le_compat; lra. Qed.

Lemma p_er : forall N R0, bpow radix2 (-57) <= N <= R0 -> 0.9 <= R0 <= 1024 -> forall p2, fin p2 = true -> 0 <= B2R p2 ->
  Rabs (B2R p2 - a0 * N * (a0 * N)) <= 2.001 * U * (a0 * N * (a0 * N)) + bpow radix2 (-1000) ->
  er N R0 (Fsqrt p2) (a0 * N) (2.1 * a0) a0 1 0.
Proof.
  intros N R0 HN HR p2 F P0 E. pose proof (N_pos N R0 HN) as NP. pose proof U_pos as UP. pose proof A2_b as A2.
  assert (M20 : M N R0 2 0 = N * N) by (unfold M; ring).
  assert (ML : bpow radix2 (-700) <= M N R0 2 0) by (apply M_low; try assumption; lia).
  assert (NN : 0 < N * N) by (apply Rmult_lt_0_compat; lra).
  assert (EA : a0 * N * (a0 * N) = a0 * a0 * (N * N)) by ring. rewrite EA in *.
  assert (TN : bpow radix2 (-1000) <= 0.001 * U * (a0 * a0 * (N * N))).
  { rewrite M20 in ML. apply Rle_trans with (bpow radix2 (-64) * (bpow radix2 (-64) * bpow radix2 (-700))); [rewrite <- !bpow_plus; apply bpow_le; lia|].
    assert (B64 : bpow radix2 (-64) <= 0.001 * U) by (unfold U; change (bpow radix2 (-64)) with (/ 18446744073709551616); lra).
    assert (B64' : bpow radix2 (-64) <= a0 * a0) by (change (bpow radix2 (-64)) with (/ 18446744073709551616); lra).
    pose proof (bpow_gt_0 radix2 (-64)). pose proof (bpow_gt_0 radix2 (-700)).
    apply Rmult_le_compat; try lra; [apply Rmult_le_pos; lra|]. apply Rmult_le_compat; lra. }
  assert (X : er N R0 p2 (a0 * a0 * (N * N)) (2.002 * (a0 * a0)) (a0 * a0) (1 + 1) (0 + 0)).
  { cbn [Nat.add]. split; [exact F|]. rewrite M20. split; [eapply Rle_trans; [exact E|]; lra|]. split; [rewrite Rabs_pos_eq by (apply Rmult_le_pos; lra); lra|].
    repeat split; try lra; lia. }
  replace (a0 * N) with (sqrt (a0 * a0 * (N * N))) by (rewrite <- EA; apply sqrt_square; apply Rmult_le_pos; lra).
  assert (QQ : 2.002 * (a0 * a0) / (1.99 * a0) = 2.002 / 1.99 * a0) by (field; lra).
  apply (er_sqrt N R0 HN HR _ _ _ _ 1 0 _ _ a0 X); try lra. cbn [Nat.add]. rewrite M20. lra.
Qed.

Lemma phih_F : forall lm, good_libm lm -> forall c : EllipsoidConverter (b64A lm), good_conv a0 kf c -> forall (p2 az : b64) N S R0,
  0 <= N -> 0 <= S -> 0.9 <= R0 <= 1024 -> N * N + S * S = R0 * R0 -> fin p2 = true -> 0 <= B2R p2 ->
  Rabs (B2R p2 - a0 * N * (a0 * N)) <= 2.001 * U * (a0 * N * (a0 * N)) + bpow radix2 (-1000) ->
  fin az = true -> B2R az = a0 * S ->
  let w := gc2gd_phi_height (A := b64A lm) c p2 az in
  let w' := gc2gd_phi_height (A := realA) (convR a0 kf) (a0 * N * (a0 * N)) (a0 * S) in
  near (fst w) (fst w') (1.8 / 10 ^ 14) /\ near (snd w) (snd w') (a0 * (27 * U * R0)).
Proof.
  intros lm G c GC p2 az N S R0 N0 S0 HR NS Fp P0 Ep Fz Ez w w'. pose proof U_pos as UP. pose proof A2_b as A2.
  assert (SR : S <= R0) by nra. assert (NR : N <= R0) by nra.
  assert (ST : forall (HN : bpow radix2 (-57) <= N <= R0),
    near (lm_atan lm (Fdiv (fst (gc2gd_step (A := b64A lm) c (Fsqrt p2) az)) (snd (gc2gd_step (A := b64A lm) c (Fsqrt p2) az)))) (atan (rs1 N S / rcc N S)) (159.1 * U) /\
    near (h_e (el_a (A := b64A lm) (cv_el (A := b64A lm) c)) (cv_ec2 (A := b64A lm) c) (Fsqrt p2) az
       (fst (gc2gd_step (A := b64A lm) c (Fsqrt p2) az)) (snd (gc2gd_step (A := b64A lm) c (Fsqrt p2) az)))
      (a0 * rH N S (rs1 N S) (rcc N S)) (a0 * (26.5 * U * R0))).
  { intros HN. pose proof (p_er N R0 HN HR p2 Fp P0 Ep) as Hp.
    assert (Hz : er N R0 az (a0 * S) 0 a0 0 1).
    { apply er_exact; [exact Fz|exact Ez| |lra|lia|lia]. rewrite Rabs_pos_eq by (apply Rmult_le_pos; lra). unfold M. cbn [pow]. rewrite Rmult_1_l, Rmult_1_r. apply Rmult_le_compat_l; lra. }
    destruct (step_F a0 kf RA0 Hkf N S R0 HN HR S0 NS lm c (Fsqrt p2) az GC Hp Hz) as [Hs Hc].
    destruct (phi_F a0 kf RA0 Hkf N S R0 HN HR S0 NS _ _ Hs Hc) as [FD ED]. destruct GC as (Ka & _ & _ & Ke2 & _).
    destruct (height_F a0 kf RA0 Hkf N S R0 HN HR S0 NS _ _ _ _ _ _ Ka Ke2 Hp Hz Hs Hc) as [FH EH].
    set (q := Fdiv (fst (gc2gd_step (A := b64A lm) c (Fsqrt p2) az)) (snd (gc2gd_step (A := b64A lm) c (Fsqrt p2) az))) in *. clearbody q.
    set (hh := h_e _ _ _ _ _ _) in *. clearbody hh.
    split; [|split; [exact FH|exact EH]]. destruct (good_atan lm G q FD) as [FA EA]. split; [exact FA|].
    replace (B2R (lm_atan lm q) - atan (rs1 N S / rcc N S)) with ((B2R (lm_atan lm q) - atan (B2R q)) + (atan (B2R q) - atan (rs1 N S / rcc N S))) by ring.
    eapply Rle_trans; [apply Rabs_triang|]. assert (E52 : bpow radix2 (-52) = 2 * U) by (change (bpow radix2 (-52)) with (/ 4503599627370496); unfold U; lra). lra. }
  assert (B57 : bpow radix2 (-57) <= 7 / 10 ^ 18) by (change (bpow radix2 (-57)) with (/ 144115188075855872); lra).
  unfold w, w'. clear w w'. rewrite (phih_R N S N0). unfold gc2gd_phi_height. b64A_ops.
  destruct GC as (Ka & Kg & Kt & Ke2 & Ke & [Fb Eb] & [Fe Ee]). rewrite Bltb_correct by assumption.
  destruct (gc2gd_step (A := b64A lm) c (Fsqrt p2) az) as [s1 cc]. cbn [fst snd] in ST.
  set (ae := B2R (cv_aeps2 (A := b64A lm) c)) in *. clearbody ae.
  assert (T1 : bpow radix2 (-1000) <= / 10 ^ 60).
  { apply Rle_trans with (bpow radix2 (-200)); [apply bpow_le; lia|]. change (bpow radix2 (-200)) with (/ IZR (2 ^ 200)).
    apply Rinv_le; [apply pow_lt; lra|]. rewrite pow_IZR. apply IZR_le. vm_compute. discriminate. }
  assert (T2 : bpow radix2 (-1000) <= a0 * a0 * / 10 ^ 45) by lra. clear T1.
  assert (EA : a0 * N * (a0 * N) = a0 * a0 * (N * N)) by ring. rewrite EA in *.
  assert (AE : 0.999999 * (a0 * a0 * / 10 ^ 32) <= ae <= 1.000001 * (a0 * a0 * / 10 ^ 32)).
  { apply Rabs_le_inv in Ee. unfold Rdiv in Ee. set (g := a0 * a0 * / 10 ^ 32) in *. assert (0 < g) by (unfold g; lra). clearbody g.
    assert (0 <= g * U <= 0.0000001 * g) by (split; [apply Rmult_le_pos; lra|rewrite (Rmult_comm 0.0000001); apply Rmult_le_compat_l; unfold U; lra]). lra. }
  assert (NN : 0 <= N * N) by apply Rle_0_sqr. apply Rabs_le_inv in Ep.
  assert (WN : 0 <= a0 * a0 * (N * N)) by (apply Rmult_le_pos; lra).
  assert (UN : 0 <= U * (a0 * a0 * (N * N)) <= 0.000001 * (a0 * a0 * (N * N))) by (split; [apply Rmult_le_pos; lra|apply Rmult_le_compat_r; lra]).
  assert (NLO : a0 * a0 * (0.99 / 10 ^ 32) <= a0 * a0 * (N * N) -> bpow radix2 (-57) <= N).
  { intros H. apply Rle_trans with (1 := B57). apply Rmult_le_reg_l in H; [|lra]. assert (T : 0 <= 7 / 10 ^ 18) by lra. assert (TT : 7 / 10 ^ 18 * (7 / 10 ^ 18) <= N * N) by lra. clear - N0 T TT. nra. }
  assert (NHI : a0 * a0 * (N * N) <= a0 * a0 * (1.01 / 10 ^ 32) -> N <= 11 / 10 ^ 17).
  { intros H. apply Rmult_le_reg_l in H; [|lra]. assert (T : 0 <= 11 / 10 ^ 17) by lra. assert (TT : N * N <= 11 / 10 ^ 17 * (11 / 10 ^ 17)) by lra. clear - N0 T TT. nra. }
  (* the pole branch *)
  assert (PF : near (Fdiv (Flit 314159265358979323846264338327950288 (-35)) (Flit 2 0)) (PI / 2) (2 * U)).
  { destruct L_PAccGd.half_pi_F as [FH EH]. split; [exact FH|]. eapply Rle_trans; [exact EH|]. unfold U. lra. }
  assert (AR : 0.9 * a0 <= a0 * R0 <= 1024 * a0) by (rewrite (Rmult_comm a0); split; apply Rmult_le_compat_r; lra).
  assert (AS : 0 <= a0 * S <= a0 * R0) by (split; [apply Rmult_le_pos|apply Rmult_le_compat_l]; lra).
  assert (AU : 0 <= a0 * U) by (apply Rmult_le_pos; lra).
  assert (ARU : 0.9 * (a0 * U) <= a0 * R0 * U) by (replace (0.9 * (a0 * U)) with (0.9 * a0 * U) by ring; apply Rmult_le_compat_r; lra).
  assert (HF : near (Fsub az (cv_b (A := b64A lm) c)) (a0 * S - a0 * kE) (a0 * (10 * U * R0))).
  { set (b := cv_b (A := b64A lm) c) in *. clearbody b. destruct (k_bounds kf Hkf) as (BE & _). apply Rabs_le_inv in Eb. rewrite <- Ez.
    assert (KE : 0.994 * a0 <= a0 * kE <= a0) by (split; [rewrite (Rmult_comm 0.994)|rewrite <- (Rmult_1_r a0) at 2]; apply Rmult_le_compat_l; lra).
    assert (AU2 : a0 * U <= 0.0001 * a0) by (rewrite (Rmult_comm 0.0001); apply Rmult_le_compat_l; lra).
    assert (BB : 0.9 * a0 <= B2R b <= 1.001 * a0) by lra.
    assert (SZ : Rabs (B2R az - B2R b) <= 2 * (a0 * R0)) by (rewrite Ez; apply Rabs_le; lra).
    destruct (Fsub_ok az b Fz Fb) as [ES FS].
    { apply (small_le _ 60); [lia|]. eapply Rle_trans; [exact SZ|]. change (bpow radix2 60) with (IZR (2 ^ 60)). change (2 ^ 60)%Z with 1152921504606846976%Z. lra. }
    split; [exact FS|]. rewrite ES.
    assert (RU : Rabs (rnd (B2R az - B2R b) - (B2R az - B2R b)) <= U * (1.0001 * (2 * (a0 * R0)))).
    { apply rnd_U; [exact SZ|]. apply Rle_trans with (bpow radix2 (-60)); [apply bpow_le; lia|]. change (bpow radix2 (-60)) with (/ IZR (2 ^ 60)). change (2 ^ 60)%Z with 1152921504606846976%Z. lra. }
    replace (rnd (B2R az - B2R b) - (B2R az - a0 * kE)) with ((rnd (B2R az - B2R b) - (B2R az - B2R b)) + (a0 * kE - B2R b)) by ring.
    eapply Rle_trans; [apply Rabs_triang|]. assert (Rabs (a0 * kE - B2R b) <= 3 * a0 * U) by (apply Rabs_le; lra).
    lra. }
  assert (W : 161.4 * U <= 1.8 / 10 ^ 14) by (unfold U; lra).
  assert (WX : 14 / 10 ^ 17 <= 1.3 * U) by (unfold U; lra). assert (WY : 2 / 10 ^ 18 <= 0.1 * U) by (unfold U; lra).
  assert (XX : forall t, Rabs t <= 2 / 10 ^ 18 -> Rabs (a0 * t) <= 0.1 * (a0 * U)).
  { intros t Ht. rewrite Rabs_mult, (Rabs_pos_eq a0) by lra. replace (0.1 * (a0 * U)) with (a0 * (0.1 * U)) by ring. apply Rmult_le_compat_l; lra. }
  destruct (Rlt_bool_spec ae (B2R p2)) as [B|B]; destruct (Rlt_bool_spec (a0 * a0 * / 10 ^ 32) (a0 * a0 * (N * N))) as [B'|B']; cbv zeta; cbn [fst snd].
  - destruct ST as [ST1 ST2]; [split; [apply NLO; lra|exact NR]|]. split; (split; [apply ST1 || apply ST2|]).
    + eapply Rle_trans; [apply ST1|]. lra.
    + eapply Rle_trans; [apply ST2|]. lra.
  - assert (HN : bpow radix2 (-57) <= N <= R0) by (split; [apply NLO; lra|exact NR]).
    destruct (ST HN) as [[FA EA'] [FB EB]]. destruct (axis a0 kf RA0 Hkf N S R0 HN HR S0 NS) as [X1 X2]; [apply NHI; lra|].
    unfold h_e in FB, EB. split; (split; [exact FA || exact FB|]).
    + set (t := lm_atan lm _) in *. clearbody t. apply Rabs_le_inv in EA'. apply Rabs_le. lra.
    + set (t := Fdiv (Fsub _ _) _) in *. clearbody t. apply XX in X2. apply Rabs_le_inv in EB. apply Rabs_le_inv in X2. apply Rabs_le. lra.
  - assert (HN : bpow radix2 (-57) <= N <= R0) by (split; [apply NLO; lra|exact NR]).
    destruct (axis a0 kf RA0 Hkf N S R0 HN HR S0 NS) as [X1 X2]; [apply NHI; lra|]. destruct PF as [FA EA']. destruct HF as [FB EB].
    split; (split; [exact FA || exact FB|]).
    + set (t := Fdiv _ _) in *. clearbody t. apply Rabs_le_inv in EA'. apply Rabs_le. lra.
    + set (t := Fsub _ _) in *. clearbody t. apply XX in X2. apply Rabs_le_inv in EB. apply Rabs_le_inv in X2. apply Rabs_le. lra.
  - destruct PF as [FA EA']. destruct HF as [FB EB]. split; (split; [exact FA || exact FB|]).
    + eapply Rle_trans; [exact EA'|]. lra.
    + eapply Rle_trans; [exact EB|]. lra.
Qed.
End Any.

Lemma conv_ok_f : forall lm (a f : b64) c, conv_new (A := b64A lm) (MkEll (A := b64A lm) a f) = Ok c -> fin f = true -> 0 <= B2R f.
Proof.
  intros lm a f c H F. unfold conv_new in H. cbn [el_a el_f] in H. b64A_ops. destruct (Flit_int 0 ltac:(lia)) as [E0 F0].
  rewrite (Bltb_correct _ _ f (Flit 0 0) F F0), E0 in H. destruct (Rlt_bool_spec (B2R f) 0); [discriminate H|assumption].
Qed.
Lemma conv_good : forall lm (a f : b64) c, conv_new (A := b64A lm) (MkEll (A := b64A lm) a f) = Ok c -> fin a = true -> fin f = true ->
  / 10 ^ 6 <= B2R a <= 10 ^ 12 -> B2R f <= 0.006 -> 0 <= B2R f <= 0.006 /\ good_conv (B2R a) (B2R f) c.
Proof.
  intros lm a f c H Fa Ff Ha Hf. pose proof (conv_ok_f lm a f c H Ff) as P. split; [lra|].
  destruct (conv_any a f Fa Ff Ha (conj P Hf) lm) as (c' & E & G). rewrite E in H. injection H as <-. exact G.
Qed.

(** C96, binary64: every finite radius from 1e-6 to 1e12 and flattening from 0 to 0.006 is
    accepted. *)
Lemma C96_accepted_pf : forall lm (a f : b64), fin a = true -> fin f = true -> / 10 ^ 6 <= B2R a <= 10 ^ 12 -> 0 <= B2R f <= 0.006 ->
  exists c, conv_new (A := b64A lm) (MkEll (A := b64A lm) a f) = Ok c.
Proof. intros lm a f Fa Ff Ha Hf. destruct (conv_any a f Fa Ff Ha Hf lm) as (c & E & _). exists c. exact E. Qed.

(** C96, binary64, any ellipsoid of flattening up to 0.006, every point from 0.9 to 1000
    equatorial radii from the centre: the computed latitude is within 1.8e-14 rad and the
    computed height within 3e-15 of the distance of what the same formulas give without
    rounding; so is the longitude, within 2^-51 rad, unless x^2 + y^2 underflows. *)
Lemma C96_accuracy_pf : forall lm, good_libm lm -> forall c c' a f x y z,
  conv_new (A := b64A lm) (MkEll (A := b64A lm) a f) = Ok c -> conv_new (A := realA) (MkEll (A := realA) (B2R a) (B2R f)) = Ok c' ->
  fin a = true -> fin f = true -> / 10 ^ 6 <= B2R a <= 10 ^ 12 -> B2R f <= 0.006 ->
  fin x = true -> fin y = true -> fin z = true ->
  let r := sqrt (B2R x ^ 2 + B2R y ^ 2 + B2R z ^ 2) in 0.9 * B2R a <= r <= 1000 * B2R a ->
  let g := geocentric_to_geodetic (A := b64A lm) c (V3 (A := b64A lm) x y z) in
  let g' := geocentric_to_geodetic (A := realA) c' (V3 (A := realA) (B2R x) (B2R y) (B2R z)) in
  near (phi (A := b64A lm) g) (phi (A := realA) g') (1.8 / 10 ^ 14) /\
  near (height (A := b64A lm) g) (height (A := realA) g') (3 / 10 ^ 15 * r) /\
  (/ 10 ^ 300 <= B2R x ^ 2 + B2R y ^ 2 \/ B2R x = 0 /\ B2R y = 0 ->
   near_angle (elong (A := b64A lm) g) (elong (A := realA) g') (bpow radix2 (-51))).
Proof.
  intros lm G c c' a f x y z Hc Hc' Fa Ff Ha Hf Fx Fy Fz r Hr g g'. apply conv_new_ok_inv in Hc'. destruct Hc' as (_ & _ & ->).
  destruct (conv_good lm a f c Hc Fa Ff Ha Hf) as [Hf2 GC]. clear Hc Fa Ff Hf.
  pose proof (A2_b (B2R a) Ha) as A2. unfold g'. clear g'. set (a0 := B2R a) in *. set (kf := B2R f) in *. clearbody a0 kf. clear a f.
  set (P := B2R x * B2R x + B2R y * B2R y). assert (P0 : 0 <= P) by (unfold P; pose proof (Rle_0_sqr (B2R x)); pose proof (Rle_0_sqr (B2R y)); unfold Rsqr in *; lra).
  pose proof (Rle_0_sqr (B2R z)) as Z0. unfold Rsqr in Z0.
  assert (ER : r = sqrt (P + B2R z * B2R z)) by (unfold r, P; f_equal; ring).
  assert (RR : r * r = P + B2R z * B2R z) by (rewrite ER; apply sqrt_sqrt; lra).
  clearbody r. clear ER.
  set (N := sqrt P / a0). set (S := Rabs (B2R z) / a0). set (R0 := r / a0).
  assert (EN : a0 * N * (a0 * N) = P) by (unfold N; replace (a0 * (sqrt P / a0)) with (sqrt P) by (field; lra); apply sqrt_sqrt, P0).
  assert (ES : a0 * S = Rabs (B2R z)) by (unfold S; field; lra).
  assert (N0 : 0 <= N) by (unfold N; pose proof (sqrt_pos P); apply Rmult_le_pos; [lra|left; apply Rinv_0_lt_compat; lra]).
  assert (S0 : 0 <= S) by (unfold S; pose proof (Rabs_pos (B2R z)); apply Rmult_le_pos; [lra|left; apply Rinv_0_lt_compat; lra]).
  assert (ER0 : a0 * R0 = r) by (unfold R0; field; lra).
  assert (HR : 0.9 <= R0 <= 1024) by (split; apply (Rmult_le_reg_l a0); rewrite ?ER0; lra).
  assert (NS : N * N + S * S = R0 * R0).
  { assert (A : Rabs (B2R z) * Rabs (B2R z) = B2R z * B2R z) by (rewrite <- Rabs_mult; apply Rabs_pos_eq, Z0).
    apply (Rmult_eq_reg_l (a0 * a0)); [|lra].
    transitivity (a0 * N * (a0 * N) + a0 * S * (a0 * S)); [ring|]. rewrite EN, ES, A, <- RR, <- ER0. ring. }
  assert (P16 : P <= 10 ^ 40). { assert (r * r <= 10 ^ 15 * 10 ^ 15) by (apply Rmult_le_compat; lra). lra. }
  destruct (p2_F x y Fx Fy P16) as (Fp & Pp & Ep). fold P in Ep. set (p2 := Fadd (Fmul x x) (Fmul y y)) in *.
  assert (Ep' := Ep). rewrite <- EN in Ep.
  destruct (phih_F a0 kf Ha Hf2 lm G c GC p2 (Babs z) N S R0 N0 S0 HR NS Fp Pp Ep) as [K1 K2]; [rewrite is_finite_Babs; exact Fz|rewrite B2R_Babs; symmetry; exact ES|].
  rewrite EN, ES in K1, K2. rewrite to_gd_R. cbv zeta. cbn [phi height elong]. fold P.
  set (w' := gc2gd_phi_height (A := realA) (convR a0 kf) P (Rabs (B2R z))) in *. clearbody w'.
  unfold g, geocentric_to_geodetic. cbn [v0 v1 v2]. unfold sq. b64A_ops. fold p2.
  destruct (gc2gd_phi_height (A := b64A lm) c p2 (Babs z)) as [ph h]. cbn [fst snd] in K1, K2. cbn [phi height elong].
  destruct lit_0 as [L0 LF]. rewrite !Bltb_correct by assumption. rewrite !L0.
  split; [|split].
  - destruct K1 as [FA EA]. destruct (Rlt_bool (B2R z) 0).
    + split; [rewrite is_finite_Bopp; exact FA|]. rewrite B2R_Bopp. replace (- B2R ph - - fst w') with (- (B2R ph - fst w')) by ring. rewrite Rabs_Ropp. exact EA.
    + split; assumption.
  - destruct K2 as [FB EB]. split; [exact FB|]. eapply Rle_trans; [exact EB|]. replace (a0 * (27 * U * R0)) with (27 * U * (a0 * R0)) by ring. rewrite ER0. apply Rmult_le_compat_r; [lra|]. unfold U. lra.
  - intros HL. assert (PP : B2R x ^ 2 + B2R y ^ 2 = P) by (unfold P; ring). rewrite PP in HL.
    assert (T1 : bpow radix2 (-1000) <= / 2 * / 10 ^ 300).
    { replace (bpow radix2 (-1000)) with (/ IZR (2 ^ 1000)) by reflexivity.
      apply Rle_trans with (/ (2 * IZR (10 ^ 300))).
      - apply Rinv_le; [apply Rmult_lt_0_compat; [lra|apply IZR_lt; reflexivity]|]. rewrite <- mult_IZR. apply IZR_le. vm_compute. discriminate.
      - rewrite Rinv_mult, pow_IZR. change (Z.of_nat 300) with 300%Z. apply Rle_refl. }
    pose proof U_pos as UP. apply Rabs_le_inv in Ep'.
    destruct HL as [HL|[HX HY]].
    + assert (0 < / 10 ^ 300) by (apply Rinv_0_lt_compat, pow_lt; lra). assert (0 <= U * P <= 0.01 * P) by (split; [apply Rmult_le_pos; lra|apply Rmult_le_compat_r; lra]).
      rewrite !Rlt_bool_true by lra.
      destruct (good_atan2 lm G y x Fy Fx) as [FA (k & Hk & EA)].
      { destruct (Req_dec (B2R x) 0) as [E1|E1]; [|left; exact E1]. right. intros E2. unfold P in *. rewrite E1, E2 in *. lra. }
      split; [exact FA|]. exists k. exact EA.
    + assert (EP : P = 0) by (unfold P; rewrite HX, HY; ring). rewrite EP. rewrite (Rlt_bool_false 0 0) by lra.
      assert (EZ : B2R p2 = 0).
      { destruct (Fmul_ok x x Fx Fx) as [E1 F1]; [rewrite HX; unfold small; rewrite Rmult_0_r, Rabs_R0; apply bpow_ge_0|].
        destruct (Fmul_ok y y Fy Fy) as [E2 F2]; [rewrite HY; unfold small; rewrite Rmult_0_r, Rabs_R0; apply bpow_ge_0|].
        assert (RZ : rnd (0 * 0) = 0) by (rewrite Rmult_0_r; apply rnd_id, generic_format_0). rewrite HX, RZ in E1. rewrite HY, RZ in E2.
        destruct (Fadd_ok _ _ F1 F2) as [E3 _]; [rewrite E1, E2; unfold small; rewrite Rplus_0_r, Rabs_R0; apply bpow_ge_0|].
        unfold p2. rewrite E3, E1, E2, Rplus_0_r. apply rnd_id, generic_format_0. }
      rewrite EZ, Rlt_bool_false by lra. split; [exact LF|]. exists 0%Z. rewrite L0, Rmult_0_l, Rplus_0_r, Rminus_0_r, Rabs_R0. apply bpow_ge_0.
Qed.

(** The distance from the centre, from the geodetic coordinates. *)
Lemma ell_dist : forall a f lo la h, 0 < a -> 0 <= f <= 0.006 -> - (a / 12) <= h ->
  let w := ellipsoid_at a f lo la h in let r := sqrt (v0 (A := realA) w ^ 2 + v1 (A := realA) w ^ 2 + v2 (A := realA) w ^ 2) in
  0.9 * a <= r <= Rabs h + a.
Proof.
  intros a f lo la h Ha Hf Hh w r. destruct (k_bounds f Hf) as (BE & _). set (k := kE f) in *.
  set (n := h / a). assert (EH : h = a * n) by (unfold n; field; lra).
  assert (Hn : - / 12 <= n) by (apply (Rmult_le_reg_l a); [exact Ha|]; rewrite <- EH; lra). clearbody n. subst h.
  set (d := sqrt (k * k * (sin la * sin la) + cos la * cos la)). pose proof (g_range f Hf la) as GR. fold k in GR. fold d in GR.
  assert (DD : d * d = k * k * (sin la * sin la) + cos la * cos la).
  { apply sqrt_sqrt. pose proof (Rle_0_sqr (k * sin la)). pose proof (Rle_0_sqr (cos la)). unfold Rsqr in *. lra. }
  set (v := / d * / d * (cos la * cos la + k * k * (k * k) * (sin la * sin la))).
  assert (E : v0 (A := realA) w ^ 2 + v1 (A := realA) w ^ 2 + v2 (A := realA) w ^ 2 = a * a * (v + 2 * n * d + n * n)).
  { unfold w, ellipsoid_at. cbn [v0 v1 v2]. change (1 - f) with k.
    replace (cos la ^ 2 + k ^ 2 * sin la ^ 2) with (k * k * (sin la * sin la) + cos la * cos la) by ring. fold d.
    transitivity (a * a * ((/ d + n) * (/ d + n) * (cos la * cos la) * (sin lo * sin lo + cos lo * cos lo) + (k * k * / d + n) * (k * k * / d + n) * (sin la * sin la))); [unfold Rdiv; ring|].
    rewrite sc1. pose proof (sc1 la) as T. f_equal. unfold v.
    transitivity (/ d * / d * (cos la * cos la + k * k * (k * k) * (sin la * sin la)) + 2 * n * (/ d * (k * k * (sin la * sin la) + cos la * cos la)) + n * n * (sin la * sin la + cos la * cos la)); [ring|].
    rewrite T, <- DD. field. lra. }
  unfold r. rewrite E. 
  assert (V : k * k <= v <= 1).
  { pose proof (Rle_0_sqr (sin la)) as A. pose proof (Rle_0_sqr (cos la)) as B. unfold Rsqr in A, B.
    set (s2 := sin la * sin la) in *. set (c2 := cos la * cos la) in *. clearbody s2 c2. set (q := k * k) in *. assert (K : 0 < q <= 1) by (unfold q; nra). clearbody q.
    assert (EV : v = (c2 + q * q * s2) / (q * s2 + c2)) by (unfold v; rewrite <- DD; field; lra).
    assert (D0 : 0 < q * s2 + c2) by (rewrite <- DD; apply Rmult_lt_0_compat; lra).
    assert (KK : q * q <= q) by nra. assert (K1 : q * q * s2 <= q * s2) by (apply Rmult_le_compat_r; lra). assert (K2 : q * c2 <= c2) by nra.
    rewrite EV. split; [|apply L_ApxGd.div_le; lra]. apply (Rmult_le_reg_r (q * s2 + c2)); [exact D0|]. unfold Rdiv. rewrite Rmult_assoc, Rinv_l, Rmult_1_r by lra. lra. }
  clearbody v. assert (VL : 0.988 <= v) by nra. clear E w r DD.
  set (t := v + 2 * n * d + n * n).
  assert (TL : 0.9 * 0.9 <= t).
  { unfold t. destruct (Rle_or_lt 0 n).
    - assert (0 <= n * d) by (apply Rmult_le_pos; lra). pose proof (Rle_0_sqr n). unfold Rsqr in *. lra.
    - assert (n <= n * d) by nra. nra. }
  assert (TU : t <= (Rabs n + 1) * (Rabs n + 1)).
  { unfold t. assert (n * d <= Rabs n) by (pose proof (Rle_abs n); pose proof (Rabs_pos n); apply Rle_trans with (Rabs n * d); [apply Rmult_le_compat_r; lra|nra]).
    assert (HH : Rabs n * Rabs n = n * n) by (rewrite <- Rabs_mult; apply Rabs_pos_eq, Rle_0_sqr). lra. }
  clearbody t. pose proof (Rabs_pos n) as NP.
  assert (ST : sqrt (a * a * t) = a * sqrt t) by (rewrite sqrt_mult_alt, sqrt_square by nra; reflexivity). rewrite ST.
  rewrite Rabs_mult, (Rabs_pos_eq a) by lra.
  assert (S1 : 0.9 <= sqrt t) by (rewrite <- (sqrt_square 0.9) by lra; apply sqrt_le_1; lra).
  assert (S2 : sqrt t <= Rabs n + 1) by (rewrite <- (sqrt_square (Rabs n + 1)) by lra; apply sqrt_le_1_alt; exact TU).
  assert (a * 0.9 <= a * sqrt t) by (apply Rmult_le_compat_l; lra).
  assert (a * sqrt t <= a * (Rabs n + 1)) by (apply Rmult_le_compat_l; lra). lra.
Qed.

Lemma tol_any : forall f n, 0 <= f <= 0.006 -> -0.1 <= n ->
  0 <= 5 * f ^ 4 * Rabs n ^ 3 / (1 + n) ^ 4 + 125 * f ^ 5 * n ^ 2 / (1 + n) ^ 3 <= / 10 ^ 9.
Proof.
  intros f n Hf Hn. destruct (L_PEllipsoid.halley_profile n Hn) as [X Y].
  replace (5 * f ^ 4 * Rabs n ^ 3 / (1 + n) ^ 4) with (5 * (f ^ 4 * (Rabs n ^ 3 / (1 + n) ^ 4))) by (field; lra).
  replace (125 * f ^ 5 * n ^ 2 / (1 + n) ^ 3) with (125 * (f ^ 5 * (n ^ 2 / (1 + n) ^ 3))) by (field; lra).
  assert (F4 : 0 <= f ^ 4 <= 0.006 ^ 4) by (split; [apply pow_le; lra|apply pow_incr; lra]).
  assert (F5 : 0 <= f ^ 5 <= 0.006 ^ 5) by (split; [apply pow_le; lra|apply pow_incr; lra]).
  set (X' := Rabs n ^ 3 / (1 + n) ^ 4) in *. set (Y' := n ^ 2 / (1 + n) ^ 3) in *. clearbody X' Y'.
  assert (0 <= f ^ 4 * X' <= 0.006 ^ 4 * 0.12) by (split; [apply Rmult_le_pos; lra|apply Rmult_le_compat; lra]).
  assert (0 <= f ^ 5 * Y' <= 0.006 ^ 5 * 0.15) by (split; [apply Rmult_le_pos; lra|apply Rmult_le_compat; lra]). lra.
Qed.

Lemma at_exact : forall a f lo la h, 0 <= a -> 0 <= f < 1 ->
  geodetic_to_geocentric (A := realA) (convR a f) (MkGeod (A := realA) lo la h) = Ok (ellipsoid_at a f lo la h).
Proof.
  intros a f lo la h Ha Hf. rewrite (to_gc_R a f lo la h) by exact Hf. unfold ellipsoid_at, uu, dd. cbv zeta.
  replace (cos la ^ 2 + (1 - f) ^ 2 * sin la ^ 2) with (cos la * cos la + (1 - f) * (1 - f) * (sin la * sin la)) by ring.
  f_equal. unfold Rdiv. f_equal; ring.
Qed.

(** C96, binary64: from the Cartesian coordinates of any place from a twelfth of the
    equatorial radius below to 990 radii above the ellipsoid, the computed latitude, height
    and longitude are those of the place, up to the truncation error of the formula (tol,
    which vanishes on the ellipsoid) and the rounding error. *)
Lemma C96_geodetic_pf : forall lm, good_libm lm -> forall c a f x y z lo la h,
  conv_new (A := b64A lm) (MkEll (A := b64A lm) a f) = Ok c ->
  fin a = true -> fin f = true -> / 10 ^ 6 <= B2R a <= 10 ^ 12 -> B2R f <= 0.006 ->
  fin x = true -> fin y = true -> fin z = true ->
  - PI < lo <= PI -> - (PI / 2) <= la <= PI / 2 -> - (B2R a / 12) <= h <= 990 * B2R a ->
  ellipsoid_at (B2R a) (B2R f) lo la h = V3 (A := realA) (B2R x) (B2R y) (B2R z) ->
  let g := geocentric_to_geodetic (A := b64A lm) c (V3 (A := b64A lm) x y z) in
  let n := h / B2R a in
  let tol := 5 * B2R f ^ 4 * Rabs n ^ 3 / (1 + n) ^ 4 + 125 * B2R f ^ 5 * n ^ 2 / (1 + n) ^ 3 in
  near (phi (A := b64A lm) g) la (tol + 1.9 / 10 ^ 14) /\
  near (height (A := b64A lm) g) h ((Rabs h + 1.01 * B2R a) * (3.1 / 10 ^ 15)) /\
  (/ 10 ^ 300 <= B2R x ^ 2 + B2R y ^ 2 -> near_angle (elong (A := b64A lm) g) lo (bpow radix2 (-51))).
Proof.
  intros lm G c a f x y z lo la h Hc Fa Ff Ha Hf Fx Fy Fz Hlo Hla Hh E g n tol.
  pose proof (conv_ok_f lm a f c Hc Ff) as Hf0.
  pose proof (conv_new_R (B2R a) (B2R f) ltac:(lra) ltac:(lra)) as H'.
  pose proof (at_exact (B2R a) (B2R f) lo la h ltac:(lra) ltac:(lra)) as EX.
  pose proof (ell_dist (B2R a) (B2R f) lo la h ltac:(lra) ltac:(lra) ltac:(lra)) as RD. cbv zeta in RD. rewrite E in RD, EX. cbn [v0 v1 v2] in RD.
  destruct (C96_accuracy_pf lm G c _ a f x y z Hc H' Fa Ff Ha Hf Fx Fy Fz) as (A1 & A2 & A3).
  { assert (Rabs h <= 990 * B2R a) by (apply Rabs_le; lra). lra. }
  destruct (L_PEllipsoid.C47_tolerance_pf (B2R a) (B2R f) _ lo la h _ H' ltac:(lra) ltac:(lra) Hla Hlo ltac:(lra) EX) as [T1 T2].
  fold g in A1, A2, A3. set (g' := geocentric_to_geodetic (A := realA) _ _) in *. fold n in T1, T2. fold tol in T1, T2.
  assert (Hn : -0.1 <= n) by (apply (Rmult_le_reg_l (B2R a)); [lra|]; replace (B2R a * n) with h by (unfold n; field; lra); lra).
  assert (T0 : 0 <= tol <= / 10 ^ 9) by (apply tol_any; lra).
  clearbody tol. split; [|split].
  - destruct A1 as [F1 A1]. split; [exact F1|]. apply Rabs_le_inv in A1. apply Rabs_le_inv in T1. apply Rabs_le. lra.
  - destruct A2 as [F2 A2]. split; [exact F2|]. set (r := sqrt _) in *. set (b := Rabs h + 1.01 * B2R a) in *.
    pose proof (Rabs_pos h) as HP. assert (B0 : 0 < b) by (unfold b; lra). assert (RB : r <= b) by (unfold b; lra).
    assert (TQ : (tol + 2 / 10 ^ 16) ^ 2 <= 0.1 / 10 ^ 15) by (apply Rle_trans with ((1.1 / 10 ^ 9) ^ 2); [apply pow_incr|]; lra).
    assert (b * (tol + 2 / 10 ^ 16) ^ 2 <= b * (0.1 / 10 ^ 15)) by (apply Rmult_le_compat_l; lra).
    replace (B2R (height (A := b64A lm) g) - h) with ((B2R (height (A := b64A lm) g) - height (A := realA) g') + (height (A := realA) g' - h)) by ring.
    eapply Rle_trans; [apply Rabs_triang|]. clearbody b r.
    assert (TT : Rabs (height (A := realA) g' - h) <= b * (0.1 / 10 ^ 15)) by (eapply Rle_trans; [exact T2|assumption]).
    set (q := Rabs (B2R (height (A := b64A lm) g) - height (A := realA) g')) in *. set (q' := Rabs (height (A := realA) g' - h)) in *. clearbody q q'.
    lra.
  - intros HL. specialize (A3 (or_introl HL)).
    assert (LS : - (PI / 2) < la < PI / 2).
    { assert (C : cos la <> 0).
      { intros C0. assert (EXX := f_equal (fun v => v0 (A := realA) v) E). assert (EYY := f_equal (fun v => v1 (A := realA) v) E).
        unfold ellipsoid_at in EXX, EYY. cbn [v0 v1] in EXX, EYY. rewrite C0, Rmult_0_r, Rmult_0_l in EXX, EYY. rewrite <- EXX, <- EYY in HL.
        assert (0 < / 10 ^ 300) by (apply Rinv_0_lt_compat, pow_lt; lra). replace (0 ^ 2 + 0 ^ 2) with 0 in HL by ring. lra. }
      split; apply Rnot_le_lt; intros L; apply C.
      - replace la with (- (PI / 2)) by lra. rewrite cos_neg. apply cos_PI2.
      - replace la with (PI / 2) by lra. apply cos_PI2. }
    assert (HH : - (B2R a * (1 - B2R f) ^ 2) < h).
    { assert (0.9 <= (1 - B2R f) ^ 2) by (replace ((1 - B2R f) ^ 2) with ((1 - B2R f) * (1 - B2R f)) by ring; nra).
      assert (B2R a * 0.9 <= B2R a * (1 - B2R f) ^ 2) by (apply Rmult_le_compat_l; lra). lra. }
    pose proof (L_PEllipsoid.C47_longitude_pf (B2R a) (B2R f) _ lo la h _ H' ltac:(lra) LS Hlo HH EX) as EL.
    fold g' in EL. rewrite <- EL. exact A3.
Qed.

(** C96 at every height from a twelfth of the radius below to 990 radii above: latitude
    within 1.1e-9 rad, height within 3.1e-15 of the distance. *)
Lemma C96_everywhere_pf : forall lm, good_libm lm -> forall c a f x y z lo la h,
  conv_new (A := b64A lm) (MkEll (A := b64A lm) a f) = Ok c ->
  fin a = true -> fin f = true -> / 10 ^ 6 <= B2R a <= 10 ^ 12 -> B2R f <= 0.006 ->
  fin x = true -> fin y = true -> fin z = true ->
  - PI < lo <= PI -> - (PI / 2) <= la <= PI / 2 -> - (B2R a / 12) <= h <= 990 * B2R a ->
  ellipsoid_at (B2R a) (B2R f) lo la h = V3 (A := realA) (B2R x) (B2R y) (B2R z) ->
  let g := geocentric_to_geodetic (A := b64A lm) c (V3 (A := b64A lm) x y z) in
  near (phi (A := b64A lm) g) la (1.1 / 10 ^ 9) /\
  near (height (A := b64A lm) g) h ((Rabs h + 1.01 * B2R a) * (3.1 / 10 ^ 15)).
Proof.
  intros lm G c a f x y z lo la h Hc Fa Ff Ha Hf Fx Fy Fz Hlo Hla Hh E g.
  destruct (C96_geodetic_pf lm G c a f x y z lo la h Hc Fa Ff Ha Hf Fx Fy Fz Hlo Hla Hh E) as ([F1 A1] & A2 & _). fold g in F1, A1, A2.
  split; [|exact A2]. split; [exact F1|]. eapply Rle_trans; [exact A1|].
  pose proof (conv_ok_f lm a f c Hc Ff) as Hf0.
  assert (Hn : -0.1 <= h / B2R a) by (apply (Rmult_le_reg_l (B2R a)); [lra|]; replace (B2R a * (h / B2R a)) with h by (field; lra); lra).
  pose proof (tol_any (B2R f) (h / B2R a) ltac:(lra) Hn). lra.
Qed.

(** C96 near the surface, up to a 600th of the radius above or below: latitude within
    2.2e-14 rad, height within 3.2e-15 of the radius. *)
Lemma C96_ground_pf : forall lm, good_libm lm -> forall c a f x y z lo la h,
  conv_new (A := b64A lm) (MkEll (A := b64A lm) a f) = Ok c ->
  fin a = true -> fin f = true -> / 10 ^ 6 <= B2R a <= 10 ^ 12 -> B2R f <= 0.006 ->
  fin x = true -> fin y = true -> fin z = true ->
  - PI < lo <= PI -> - (PI / 2) <= la <= PI / 2 -> - (B2R a / 600) <= h <= B2R a / 600 ->
  ellipsoid_at (B2R a) (B2R f) lo la h = V3 (A := realA) (B2R x) (B2R y) (B2R z) ->
  let g := geocentric_to_geodetic (A := b64A lm) c (V3 (A := b64A lm) x y z) in
  near (phi (A := b64A lm) g) la (2.2 / 10 ^ 14) /\ near (height (A := b64A lm) g) h (3.2 / 10 ^ 15 * B2R a).
Proof.
  intros lm G c a f x y z lo la h Hc Fa Ff Ha Hf Fx Fy Fz Hlo Hla Hh E g.
  destruct (C96_geodetic_pf lm G c a f x y z lo la h Hc Fa Ff Ha Hf Fx Fy Fz Hlo Hla ltac:(lra) E) as ([F1 A1] & [F2 A2] & _). fold g in F1, A1, F2, A2.
  pose proof (conv_ok_f lm a f c Hc Ff) as Hf0. split; (split; [assumption|]).
  - eapply Rle_trans; [exact A1|].
    assert (Hn : - / 600 <= h / B2R a <= / 600) by (split; apply (Rmult_le_reg_l (B2R a)); try lra; replace (B2R a * (h / B2R a)) with h by (field; lra); lra).
    set (n := h / B2R a) in *. clearbody n. set (k := B2R f) in *. clearbody k. clear - Hn Hf Hf0.
    assert (F4 : 0 <= k ^ 4 <= 0.006 ^ 4) by (split; [apply pow_le; lra|apply pow_incr; lra]).
    assert (F5 : 0 <= k ^ 5 <= 0.006 ^ 5) by (split; [apply pow_le; lra|apply pow_incr; lra]).
    assert (Hm : 0 <= Rabs n <= / 600) by (split; [apply Rabs_pos|apply Rabs_le; lra]).
    assert (N3 : 0 <= Rabs n ^ 3 <= (/ 600) ^ 3) by (split; [apply pow_le; lra|apply pow_incr; lra]).
    assert (N2 : 0 <= n ^ 2 <= (/ 600) ^ 2) by (split; [apply pow2_ge_0|rewrite <- (pow2_abs n); apply pow_incr; lra]).
    assert (D3 : 0.99 <= (1 + n) ^ 3) by (assert (0.998 ^ 3 <= (1 + n) ^ 3) by (apply pow_incr; lra); lra).
    assert (D4 : 0.99 <= (1 + n) ^ 4) by (assert (0.998 ^ 4 <= (1 + n) ^ 4) by (apply pow_incr; lra); lra).
    assert (P1 : 5 * k ^ 4 * Rabs n ^ 3 / (1 + n) ^ 4 <= / 10 ^ 16).
    { apply L_ApxGd.div_le; [lra|]. rewrite Rmult_assoc. assert (k ^ 4 * Rabs n ^ 3 <= 0.006 ^ 4 * (/ 600) ^ 3) by (apply Rmult_le_compat; lra). lra. }
    assert (P2 : 125 * k ^ 5 * n ^ 2 / (1 + n) ^ 3 <= 28 / 10 ^ 16).
    { apply L_ApxGd.div_le; [lra|]. rewrite Rmult_assoc. assert (k ^ 5 * n ^ 2 <= 0.006 ^ 5 * (/ 600) ^ 2) by (apply Rmult_le_compat; lra). lra. }
    lra.
  - eapply Rle_trans; [exact A2|]. assert (HA : Rabs h <= B2R a / 600) by (apply Rabs_le; lra). lra.
Qed.

(** C96 on Mars (equatorial radius 3396190 m, flattening 0.00589): at the equator, 90
    degrees east, 1 km up: latitude 0, height 1000 m, longitude pi / 2; and on the axis
    3380 km south of the centre: latitude -pi / 2, height 3380 km less the semi-minor axis. *)
Example C96_example_pf : forall lm, good_libm lm -> exists c,
  let a := Flit 3396190 0 in let f := Flit 589 (-5) in
  conv_new (A := b64A lm) (MkEll (A := b64A lm) a f) = Ok c /\
  (let g := geocentric_to_geodetic (A := b64A lm) c (V3 (A := b64A lm) (Flit 0 0) (Flit 3397190 0) (Flit 0 0)) in
   near (phi (A := b64A lm) g) 0 (2.2 / 10 ^ 14) /\ near (height (A := b64A lm) g) 1000 (1.1 / 10 ^ 8) /\
   near_angle (elong (A := b64A lm) g) (PI / 2) (bpow radix2 (-51))) /\
  (let g := geocentric_to_geodetic (A := b64A lm) c (V3 (A := b64A lm) (Flit 0 0) (Flit 0 0) (Flit (-3380000) 0)) in
   near (phi (A := b64A lm) g) (- (PI / 2)) (2.2 / 10 ^ 14) /\
   near (height (A := b64A lm) g) (3380000 - 3396190 * (1 - 0.00589)) (1.2 / 10 ^ 8)).
Proof.
  intros lm G. destruct (Flit_int 3396190 ltac:(lia)) as [EA FA].
  assert (LF : close (Flit 589 (-5)) 0.00589 0.006).
  { unfold close. rewrite fin_SF, B2R_SF.
    match goal with |- context [B2SF ?t] =>
      let x := fresh "x" in set (x := B2SF t); let v := eval vm_compute in x in
      let E := fresh "E" in assert (E : x = v) by (vm_compute; reflexivity); rewrite E; clear E x end.
    cbn [SF2R cond_Zopp Z.opp is_finite_SF]. unfold F2R. cbn [Fnum Fexp].
    match goal with |- context [bpow radix2 ?e] => let v := eval cbv in e in match v with Zneg ?q => let w := eval vm_compute in (2 ^ Zpos q)%Z in change (bpow radix2 e) with (/ IZR w) end end.
    split; [reflexivity|]. unfold U. apply Rabs_le. lra. }
  destruct LF as [FF EF]. pose proof U_pos as UP. apply Rabs_le_inv in EF.
  destruct (C96_accepted_pf lm (Flit 3396190 0) (Flit 589 (-5)) FA FF ltac:(rewrite EA; lra) ltac:(lra)) as [c Hc]. exists c. cbv zeta. split; [exact Hc|].
  destruct (Flit_int 0 ltac:(lia)) as [E0 F0]. destruct (Flit_int 3397190 ltac:(lia)) as [E1 F1]. destruct (Flit_int (-3380000) ltac:(lia)) as [E2 F2].
  pose proof PI_RGT_0 as PP. split.
  - assert (EW : ellipsoid_at (B2R (Flit 3396190 0)) (B2R (Flit 589 (-5))) (PI / 2) 0 1000 = V3 (A := realA) (B2R (Flit 0 0)) (B2R (Flit 3397190 0)) (B2R (Flit 0 0))).
    { rewrite E0, E1, EA. unfold ellipsoid_at. rewrite sin_0, cos_0, cos_PI2, sin_PI2. cbv zeta. set (w := 1 - B2R (Flit 589 (-5))). clearbody w.
      replace (1 ^ 2 + w ^ 2 * 0 ^ 2) with 1 by ring. rewrite sqrt_1. f_equal; lra. }
    destruct (C96_ground_pf lm G c _ _ _ _ _ (PI / 2) 0 1000 Hc FA FF ltac:(rewrite EA; lra) ltac:(lra) F0 F1 F0 ltac:(lra) ltac:(lra) ltac:(rewrite EA; lra) EW) as [A1 A2].
    destruct (C96_geodetic_pf lm G c _ _ _ _ _ (PI / 2) 0 1000 Hc FA FF ltac:(rewrite EA; lra) ltac:(lra) F0 F1 F0 ltac:(lra) ltac:(lra) ltac:(rewrite EA; lra) EW) as (_ & _ & A3).
    split; [exact A1|]. split; [destruct A2 as [FH A2]; split; [exact FH|]; rewrite EA in A2; eapply Rle_trans; [exact A2|lra]|]. apply A3. rewrite E0, E1.
    apply Rle_trans with 1; [|lra]. rewrite <- (Rinv_1). apply Rinv_le; [lra|]. apply pow_R1_Rle. lra.
  - set (k := B2R (Flit 589 (-5))) in *.
    assert (EW : ellipsoid_at (B2R (Flit 3396190 0)) (B2R (Flit 589 (-5))) 0 (- (PI / 2)) (3380000 - 3396190 * (1 - k)) = V3 (A := realA) (B2R (Flit 0 0)) (B2R (Flit 0 0)) (B2R (Flit (-3380000) 0))).
    { rewrite E0, E2, EA. fold k. unfold ellipsoid_at. rewrite sin_neg, cos_neg, cos_0, sin_0, cos_PI2, sin_PI2. cbv zeta. clearbody k.
      replace (0 ^ 2 + (1 - k) ^ 2 * (Ropp 1) ^ 2) with ((1 - k) * (1 - k)) by ring.
      rewrite sqrt_square by lra. f_equal; field; lra. }
    destruct (C96_ground_pf lm G c _ _ _ _ _ 0 (- (PI / 2)) (3380000 - 3396190 * (1 - k)) Hc FA FF ltac:(rewrite EA; lra) ltac:(fold k; lra) F0 F0 F2 ltac:(lra) ltac:(lra) ltac:(rewrite EA; lra) EW) as [A1 [FH A2]].
    split; [exact A1|]. split; [exact FH|]. rewrite EA in A2. apply Rabs_le_inv in A2. apply Rabs_le. unfold U in *. lra.
Qed.
