(** * Lemmas for C73: geocentric to geodetic in binary64 on WGS84 *)

From Coq Require Import ZArith Reals Lra Lia Bool List Psatz.
From Flocq Require Import Core BinarySingleNaN.
From Verif Require Import Outcome Arith ArithR ArithF Spec_Float Spec_Accuracy M_Common M_Ellipsoid Spec_Matrix Spec_Geo.
From Verif Require Import L_ArithF L_ArithR L_Flit L_PMatrix L_Rel L_Ellipsoid L_Halley L_ApxGd.
From Verif Require L_Pi L_PAccGeo L_PEllipsoid L_PSunAngle.
Open Scope R_scope.

Lemma wgs84_R_conv : forall c, conv_new (A := realA) (WGS84 (A := realA)) = Ok c -> c = convR 6378137 kf.
Proof.
  intros c H. unfold WGS84 in H. realA_ops. rewrite (Rlit_0 6378137), (Rlit_0 1) in H.
  assert (E : Rlit 298257223563 (-9) = 298.257223563) by (unfold Rlit; change (Z.pow_pos 10 9) with 1000000000%Z; lra). rewrite E in H.
  apply conv_new_ok_inv in H. apply H.
Qed.

Lemma phih_R : forall N S, 0 <= N ->
  gc2gd_phi_height (A := realA) (convR 6378137 kf) (6378137 * N * (6378137 * N)) (6378137 * S) =
  if Rlt_bool (6378137 * 6378137 * / 10 ^ 32) (6378137 * N * (6378137 * N)) then (atan (rs1 N S / rcc N S), 6378137 * rH N S (rs1 N S) (rcc N S))
  else (PI / 2, 6378137 * S - 6378137 * kE).
Proof.
  intros N S HN. unfold gc2gd_phi_height. change (cv_aeps2 (convR 6378137 kf)) with (6378137 * 6378137 * / 10 ^ 32). realA_ops.
  destruct (Rlt_bool _ _).
  - rewrite sqrt_square by lra. unfold gc2gd_step, convR. cbn [cv_el el_a el_f cv_e2 cv_ec cv_e4t cv_ec2 cv_b]. realA_ops. cbv zeta.
    replace (6378137 * S / 6378137) with S by field. replace (6378137 * N / 6378137) with N by field.
    assert (EG : (2 - kf) * kf = kG) by (unfold kG, kE; ring). rewrite EG. fold kE.
    assert (ET : kG * kG * 1.5 = kT) by (unfold kT; lra). rewrite ET. 
    change (kE * N) with (rc0 N). change (rc0 N * rc0 N) with (rc2 N). change (S * S) with (rs2 S). change (rc2 N + rs2 S) with (ra2 N S).
    change (sqrt (ra2 N S)) with (ra0 N S). change (ra2 N S * ra0 N S) with (ra3 N S). change (rs2 S * S) with (rs3 S). change (rc2 N * rc0 N) with (rc3 N).
    change (kE * S * ra3 N S + kG * rs3 S) with (rd0 N S). change (N * ra3 N S - kG * rc3 N) with (rf0 N S). change (kT * rs2 S * rc2 N * N * (ra0 N S - kE)) with (rb0 N S).
    change (rd0 N S * rf0 N S - rb0 N S * S) with (rs1 N S). change (kE * (rf0 N S * rf0 N S - rb0 N S * rc0 N)) with (rcc N S).
    f_equal. unfold rH. set (s := rs1 N S). set (c := rcc N S). set (g := sqrt (kE * kE * (s * s) + c * c)). set (v := sqrt (s * s + c * c)). clearbody s c g v. unfold Rdiv. ring.
  - rewrite !(Rlit_0 2). reflexivity.
Qed.

Lemma rnd_ge_0 : forall t, 0 <= t -> 0 <= rnd t.
Proof. intros t H. apply rnd_ge; [apply generic_format_0|exact H]. Qed.

Lemma p2_F : forall x y, fin x = true -> fin y = true -> B2R x * B2R x + B2R y * B2R y <= 10 ^ 20 ->
  let p2 := Fadd (Fmul x x) (Fmul y y) in let P := B2R x * B2R x + B2R y * B2R y in
  fin p2 = true /\ 0 <= B2R p2 /\ Rabs (B2R p2 - P) <= 2.001 * U * P + bpow radix2 (-1000).
Proof.
  intros x y Fx Fy HP p2 P. pose proof (Rle_0_sqr (B2R x)) as X0. pose proof (Rle_0_sqr (B2R y)) as Y0. unfold Rsqr in X0, Y0. fold P in HP. pose proof U_pos as UP.
  assert (SM : forall t, Rabs t <= 2 * 10 ^ 20 -> small t).
  { intros t Ht. apply (small_le _ 70); [lia|]. eapply Rle_trans; [exact Ht|]. change (bpow radix2 70) with 1180591620717411303424. lra. }
  set (tiny := / 2 * bpow radix2 (-1074)). assert (TN : 0 < tiny) by (unfold tiny; pose proof (bpow_gt_0 radix2 (-1074)); lra).
  assert (T2 : 4 * tiny <= bpow radix2 (-1000)).
  { unfold tiny. apply Rle_trans with (bpow radix2 1 * bpow radix2 (-1074)); [change (bpow radix2 1) with 2; lra|]. rewrite <- bpow_plus. apply bpow_le. lia. }
  assert (RR : forall t, Rabs (rnd t - t) <= U * Rabs t + tiny).
  { intros t. pose proof (rnd_rel t) as E. fold tiny in E. replace (/ 2 * bpow radix2 (-52)) with U in E by (unfold U; change (bpow radix2 (-52)) with (/ 4503599627370496); lra). exact E. }
  assert (T3 : tiny <= 1) by (assert (bpow radix2 (-1000) <= 1) by (change 1 with (bpow radix2 0); apply bpow_le; lia); lra).
  destruct (Fmul_ok x x Fx Fx) as [E1 F1]; [apply SM; rewrite Rabs_pos_eq by exact X0; unfold P in HP; lra|].
  destruct (Fmul_ok y y Fy Fy) as [E2 F2]; [apply SM; rewrite Rabs_pos_eq by exact Y0; unfold P in HP; lra|].
  pose proof (RR (B2R x * B2R x)) as Q1. rewrite (Rabs_pos_eq (B2R x * B2R x)) in Q1 by exact X0.
  pose proof (RR (B2R y * B2R y)) as Q2. rewrite (Rabs_pos_eq (B2R y * B2R y)) in Q2 by exact Y0.
  pose proof (rnd_ge_0 _ X0) as G1. pose proof (rnd_ge_0 _ Y0) as G2.
  apply Rabs_le_inv in Q1. apply Rabs_le_inv in Q2. unfold P in *.
  set (xx := B2R x * B2R x) in *. set (yy := B2R y * B2R y) in *. clearbody xx yy. set (rx := rnd xx) in *. set (ry := rnd yy) in *.
  assert (UX : 0 <= U * xx <= 0.01 * xx) by nra. assert (UY : 0 <= U * yy <= 0.01 * yy) by nra.
  destruct (Fadd_ok (Fmul x x) (Fmul y y) F1 F2) as [E3 F3]; [rewrite E1, E2; apply SM; apply Rabs_le; lra|].
  rewrite E1, E2 in E3. split; [exact F3|]. unfold p2. rewrite E3. split; [apply rnd_ge_0; lra|].
  pose proof (RR (rx + ry)) as Q3. rewrite (Rabs_pos_eq (rx + ry)) in Q3 by lra.
  replace (rnd (rx + ry) - (xx + yy)) with ((rnd (rx + ry) - (rx + ry)) + ((rx - xx) + (ry - yy))) by ring.
  eapply Rle_trans; [apply Rabs_triang|].
  assert (Q4 : Rabs ((rx - xx) + (ry - yy)) <= U * xx + U * yy + 2 * tiny) by (apply Rabs_le; lra).
  assert (U * (rx + ry) <= U * (xx + yy) + U * (U * xx + U * yy + 2 * tiny)) by (rewrite <- Rmult_plus_distr_l; apply Rmult_le_compat_l; lra).
  assert (U * (U * xx + U * yy + 2 * tiny) <= U * 0.001 * (xx + yy) + 0.1 * tiny).
  { replace (U * (U * xx + U * yy + 2 * tiny)) with (U * U * (xx + yy) + 2 * U * tiny) by ring. apply Rplus_le_compat; [|nra].
    apply Rmult_le_compat_r; [lra|]. apply Rmult_le_compat_l; lra. }
  lra.
Qed.

Lemma p_er : forall N R0, bpow radix2 (-57) <= N <= R0 -> 0.9 <= R0 <= 1024 -> forall p2, fin p2 = true -> 0 <= B2R p2 ->
  Rabs (B2R p2 - 6378137 * N * (6378137 * N)) <= 2.001 * U * (6378137 * N * (6378137 * N)) + bpow radix2 (-1000) ->
  er N R0 (Fsqrt p2) (6378137 * N) (2.1 * 6378137) 6378137 1 0.
Proof.
  intros N R0 HN HR p2 F P0 E. pose proof (N_pos N R0 HN) as NP. pose proof U_pos as UP.
  assert (M20 : M N R0 2 0 = N * N) by (unfold M; ring).
  assert (ML : bpow radix2 (-700) <= M N R0 2 0) by (apply M_low; try assumption; lia).
  assert (TN : bpow radix2 (-1000) <= 0.001 * U * (6378137 * N * (6378137 * N))).
  { rewrite M20 in ML. apply Rle_trans with (bpow radix2 (-64) * bpow radix2 (-700)); [rewrite <- bpow_plus; apply bpow_le; lia|].
    assert (B64 : bpow radix2 (-64) <= 0.001 * U) by (unfold U; change (bpow radix2 (-64)) with (/ 18446744073709551616); lra).
    pose proof (bpow_gt_0 radix2 (-64)). pose proof (bpow_gt_0 radix2 (-700)).
    apply Rle_trans with (0.001 * U * (N * N)); [apply Rmult_le_compat; lra|]. apply Rmult_le_compat_l; lra. }
  assert (X : er N R0 p2 (6378137 * N * (6378137 * N)) (2.002 * (6378137 * 6378137)) (6378137 * 6378137) (1 + 1) (0 + 0)).
  { cbn [Nat.add]. split; [exact F|]. rewrite M20. split; [eapply Rle_trans; [exact E|]; lra|]. split; [rewrite Rabs_pos_eq by (apply Rle_0_sqr); lra|].
    repeat split; try lra; lia. }
  replace (6378137 * N) with (sqrt (6378137 * N * (6378137 * N))) by (apply sqrt_square; lra).
  apply (er_sqrt N R0 HN HR _ _ _ _ 1 0 _ _ 6378137 X); try lra. cbn [Nat.add]. rewrite M20. lra.
Qed.

Lemma half_pi_F : near (Fdiv (Flit 314159265358979323846264338327950288 (-35)) (Flit 2 0)) (PI / 2) (/ 10 ^ 16).
Proof.
  unfold near. rewrite fin_SF, B2R_SF.
  match goal with |- context [B2SF ?t] =>
    let x := fresh "x" in set (x := B2SF t); let v := eval vm_compute in x in
    let E := fresh "E" in assert (E : x = v) by (vm_compute; reflexivity); rewrite E; clear E x end.
  cbn [SF2R cond_Zopp Z.opp is_finite_SF]. unfold F2R. cbn [Fnum Fexp].
  match goal with |- context [bpow radix2 ?e] => let v := eval cbv in e in match v with Zneg ?q => let w := eval vm_compute in (2 ^ Zpos q)%Z in change (bpow radix2 e) with (/ IZR w) end end.
  split; [reflexivity|]. pose proof L_Pi.PI_bounds_24. apply Rabs_le. lra.
Qed.

Lemma phih_F : forall lm, good_libm lm -> forall c : EllipsoidConverter (b64A lm), good_conv c -> forall (p2 az : b64) N S R0,
  0 <= N -> 0 <= S -> 0.9 <= R0 <= 1024 -> N * N + S * S = R0 * R0 -> fin p2 = true -> 0 <= B2R p2 ->
  Rabs (B2R p2 - 6378137 * N * (6378137 * N)) <= 2.001 * U * (6378137 * N * (6378137 * N)) + bpow radix2 (-1000) ->
  fin az = true -> B2R az = 6378137 * S ->
  let w := gc2gd_phi_height (A := b64A lm) c p2 az in
  let w' := gc2gd_phi_height (A := realA) (convR 6378137 kf) (6378137 * N * (6378137 * N)) (6378137 * S) in
  near (fst w) (fst w') (1.7 / 10 ^ 14) /\ near (snd w) (snd w') (6378137 * (21 * U * R0)).
Proof.
  intros lm G c GC p2 az N S R0 N0 S0 HR NS Fp P0 Ep Fz Ez w w'. pose proof U_pos as UP.
  assert (SR : S <= R0) by nra. assert (NR : N <= R0) by nra.
  assert (ST : forall (HN : bpow radix2 (-57) <= N <= R0),
    near (lm_atan lm (Fdiv (fst (gc2gd_step (A := b64A lm) c (Fsqrt p2) az)) (snd (gc2gd_step (A := b64A lm) c (Fsqrt p2) az)))) (atan (rs1 N S / rcc N S)) (149.1 * U) /\
    near (h_e (el_a (A := b64A lm) (cv_el (A := b64A lm) c)) (cv_ec2 (A := b64A lm) c) (Fsqrt p2) az
       (fst (gc2gd_step (A := b64A lm) c (Fsqrt p2) az)) (snd (gc2gd_step (A := b64A lm) c (Fsqrt p2) az)))
      (6378137 * rH N S (rs1 N S) (rcc N S)) (6378137 * (20.8 * U * R0))).
  { intros HN. pose proof (p_er N R0 HN HR p2 Fp P0 Ep) as Hp.
    assert (Hz : er N R0 az (6378137 * S) 0 6378137 0 1).
    { apply er_exact; [exact Fz|exact Ez| |lra|lia|lia]. rewrite Rabs_pos_eq by lra. unfold M. cbn [pow]. lra. }
    destruct (step_F N S R0 HN HR S0 NS lm c (Fsqrt p2) az GC Hp Hz) as [Hs Hc].
    destruct (phi_F N S R0 HN HR S0 NS _ _ Hs Hc) as [FD ED]. destruct GC as (Ka & _ & _ & Ke2 & _).
    destruct (height_F N S R0 HN HR S0 NS _ _ _ _ _ _ Ka Ke2 Hp Hz Hs Hc) as [FH EH].
    set (q := Fdiv (fst (gc2gd_step (A := b64A lm) c (Fsqrt p2) az)) (snd (gc2gd_step (A := b64A lm) c (Fsqrt p2) az))) in *. clearbody q.
    set (hh := h_e _ _ _ _ _ _) in *. clearbody hh.
    split; [|split; [exact FH|exact EH]]. destruct (good_atan lm G q FD) as [FA EA]. split; [exact FA|].
    replace (B2R (lm_atan lm q) - atan (rs1 N S / rcc N S)) with ((B2R (lm_atan lm q) - atan (B2R q)) + (atan (B2R q) - atan (rs1 N S / rcc N S))) by ring.
    eapply Rle_trans; [apply Rabs_triang|]. assert (E52 : bpow radix2 (-52) = 2 * U) by (change (bpow radix2 (-52)) with (/ 4503599627370496); unfold U; lra). lra. }
  assert (B57 : bpow radix2 (-57) <= 7 / 10 ^ 18) by (change (bpow radix2 (-57)) with (/ 144115188075855872); lra).
  unfold w, w'. clear w w'. rewrite (phih_R N S N0). unfold gc2gd_phi_height. b64A_ops.
  destruct GC as (Ka & Kg & Kt & Ke2 & Ke & [Fb Eb] & [Fe Ee]). rewrite Bltb_correct by assumption.
  destruct (gc2gd_step (A := b64A lm) c (Fsqrt p2) az) as [s1 cc]. cbn [fst snd] in ST.
  set (ae := B2R (cv_aeps2 (A := b64A lm) c)) in *. clearbody ae.
  assert (T1 : bpow radix2 (-1000) <= / 10 ^ 40).
  { apply Rle_trans with (bpow radix2 (-140)); [apply bpow_le; lia|]. change (bpow radix2 (-140)) with (/ IZR (2 ^ 140)). change (2 ^ 140)%Z with 1393796574908163946345982392040522594123776%Z. lra. }
  assert (AE : 4.068 / 10 ^ 19 <= ae <= 4.0681 / 10 ^ 19).
  { apply Rabs_le_inv in Ee. assert (U * / 10 ^ 18 <= / 10 ^ 30) by lra. lra. }
  assert (NN : 0 <= N * N) by apply Rle_0_sqr. apply Rabs_le_inv in Ep.
  assert (UN : 0 <= U * (6378137 * N * (6378137 * N)) <= 0.000001 * (6378137 * N * (6378137 * N))) by (split; [apply Rmult_le_pos; lra|apply Rmult_le_compat_r; lra]).
  assert (NLO : forall t, 0 < t -> t * t <= N * N -> t <= N) by (intros t T H; nra).
  assert (NHI : forall t, 0 < t -> N * N <= t * t -> N <= t) by (intros t T H; nra).
  (* the pole branch *)
  assert (PF : near (Fdiv (Flit 314159265358979323846264338327950288 (-35)) (Flit 2 0)) (PI / 2) (2 * U)).
  { destruct half_pi_F as [FH EH]. split; [exact FH|]. eapply Rle_trans; [exact EH|]. unfold U. lra. }
  assert (HF : near (Fsub az (cv_b (A := b64A lm) c)) (6378137 * S - 6378137 * kE) (6378137 * (10 * U * R0))).
  { set (b := cv_b (A := b64A lm) c) in *. clearbody b. destruct k_bounds as (BE & _). apply Rabs_le_inv in Eb. rewrite <- Ez.
    assert (BB : 6000000 <= B2R b <= 6378137) by lra.
    assert (SZ : Rabs (B2R az - B2R b) <= 1024 * 6378137) by (rewrite Ez; apply Rabs_le; lra).
    destruct (Fsub_ok az b Fz Fb) as [ES FS].
    { apply (small_le _ 60); [lia|]. eapply Rle_trans; [exact SZ|]. change (bpow radix2 60) with (IZR (2 ^ 60)). change (2 ^ 60)%Z with 1152921504606846976%Z. lra. }
    split; [exact FS|]. rewrite ES.
    assert (RU : Rabs (rnd (B2R az - B2R b) - (B2R az - B2R b)) <= U * (1.0001 * (2 * (6378137 * R0)))).
    { apply rnd_U; [rewrite Ez; apply Rabs_le; lra|]. apply Rle_trans with (bpow radix2 0); [apply bpow_le; lia|]. change (bpow radix2 0) with 1. lra. }
    replace (rnd (B2R az - B2R b) - (B2R az - 6378137 * kE)) with ((rnd (B2R az - B2R b) - (B2R az - B2R b)) + (6378137 * kE - B2R b)) by ring.
    eapply Rle_trans; [apply Rabs_triang|]. assert (Rabs (6378137 * kE - B2R b) <= 3000000 * U) by (apply Rabs_le; lra).
    assert (U * 0.9 <= U * R0) by (apply Rmult_le_compat_l; lra). lra. }
  assert (UR : U * 0.9 <= U * R0) by (apply Rmult_le_compat_l; lra).
  assert (W : 151.4 * U <= 1.7 / 10 ^ 14) by (unfold U; lra).
  assert (WX : 14 / 10 ^ 17 <= 1.3 * U) by (unfold U; lra). assert (WY : 2 / 10 ^ 18 <= 0.1 * U) by (unfold U; lra).
  destruct (Rlt_bool_spec ae (B2R p2)) as [B|B]; destruct (Rlt_bool_spec (6378137 * 6378137 * / 10 ^ 32) (6378137 * N * (6378137 * N))) as [B'|B']; cbv zeta; cbn [fst snd].
  - destruct ST as [ST1 ST2]; [split; [apply Rle_trans with (1 := B57); apply NLO; lra|exact NR]|]. split; (split; [apply ST1 || apply ST2|]).
    + eapply Rle_trans; [apply ST1|]. lra.
    + eapply Rle_trans; [apply ST2|]. lra.
  - assert (HN : bpow radix2 (-57) <= N <= R0) by (split; [apply Rle_trans with (1 := B57); apply NLO; lra|exact NR]).
    destruct (ST HN) as [[FA EA] [FB EB]]. destruct (axis N S R0 HN HR S0 NS) as [X1 X2]; [apply NHI; lra|].
    unfold h_e in FB, EB. split; (split; [exact FA || exact FB|]).
    + set (t := lm_atan lm _) in *. clearbody t. apply Rabs_le_inv in EA. apply Rabs_le. lra.
    + set (t := Fdiv (Fsub _ _) _) in *. clearbody t. apply Rabs_le_inv in EB. apply Rabs_le_inv in X2. apply Rabs_le. lra.
  - assert (HN : bpow radix2 (-57) <= N <= R0) by (split; [apply Rle_trans with (1 := B57); apply NLO; lra|exact NR]).
    destruct (axis N S R0 HN HR S0 NS) as [X1 X2]; [apply NHI; lra|]. destruct PF as [FA EA]. destruct HF as [FB EB].
    split; (split; [exact FA || exact FB|]).
    + set (t := Fdiv _ _) in *. clearbody t. apply Rabs_le_inv in EA. apply Rabs_le. lra.
    + set (t := Fsub _ _) in *. clearbody t. apply Rabs_le_inv in EB. apply Rabs_le_inv in X2. apply Rabs_le. lra.
  - destruct PF as [FA EA]. destruct HF as [FB EB]. split; (split; [exact FA || exact FB|]).
    + eapply Rle_trans; [exact EA|]. lra.
    + eapply Rle_trans; [exact EB|]. lra.
Qed.

(** C73, binary64, WGS84, every point from 5750 to 6500000 km from the centre:
    the computed latitude is within 1.7e-14 rad (a tenth of a micrometre on the
    ground) and the computed height within 2.4e-15 of the distance (16 nanometres
    at the surface) of what the same formulas give without rounding; so is the
    longitude, within 2^-51 rad, unless x^2 + y^2 underflows. *)
Lemma C73_accuracy_pf : forall lm, good_libm lm -> forall c c' x y z,
  conv_new (A := b64A lm) (WGS84 (A := b64A lm)) = Ok c -> conv_new (A := realA) (WGS84 (A := realA)) = Ok c' ->
  fin x = true -> fin y = true -> fin z = true ->
  let r := sqrt (B2R x ^ 2 + B2R y ^ 2 + B2R z ^ 2) in 5750000 <= r <= 6500000000 ->
  let g := geocentric_to_geodetic (A := b64A lm) c (V3 (A := b64A lm) x y z) in
  let g' := geocentric_to_geodetic (A := realA) c' (V3 (A := realA) (B2R x) (B2R y) (B2R z)) in
  near (phi (A := b64A lm) g) (phi (A := realA) g') (1.7 / 10 ^ 14) /\
  near (height (A := b64A lm) g) (height (A := realA) g') (2.4 / 10 ^ 15 * r) /\
  (/ 10 ^ 300 <= B2R x ^ 2 + B2R y ^ 2 \/ B2R x = 0 /\ B2R y = 0 ->
   near_angle (elong (A := b64A lm) g) (elong (A := realA) g') (bpow radix2 (-51))).
Proof.
  intros lm G c c' x y z Hc Hc' Fx Fy Fz r Hr g g'. apply wgs84_R_conv in Hc'. subst c'. apply wgs84_good in Hc.
  set (P := B2R x * B2R x + B2R y * B2R y). assert (P0 : 0 <= P) by (unfold P; pose proof (Rle_0_sqr (B2R x)); pose proof (Rle_0_sqr (B2R y)); unfold Rsqr in *; lra).
  pose proof (Rle_0_sqr (B2R z)) as Z0. unfold Rsqr in Z0.
  assert (ER : r = sqrt (P + B2R z * B2R z)) by (unfold r, P; f_equal; ring).
  assert (RR : r * r = P + B2R z * B2R z) by (rewrite ER; apply sqrt_sqrt; lra).
  set (N := sqrt P / 6378137). set (S := Rabs (B2R z) / 6378137). set (R0 := r / 6378137).
  assert (EN : 6378137 * N * (6378137 * N) = P) by (unfold N; replace (6378137 * (sqrt P / 6378137)) with (sqrt P) by field; apply sqrt_sqrt, P0).
  assert (ES : 6378137 * S = Rabs (B2R z)) by (unfold S; field).
  assert (N0 : 0 <= N) by (unfold N; pose proof (sqrt_pos P); lra). assert (S0 : 0 <= S) by (unfold S; pose proof (Rabs_pos (B2R z)); lra).
  assert (HR : 0.9 <= R0 <= 1024) by (unfold R0; lra).
  assert (NS : N * N + S * S = R0 * R0).
  { assert (A : Rabs (B2R z) * Rabs (B2R z) = B2R z * B2R z) by (rewrite <- Rabs_mult; apply Rabs_pos_eq, Z0).
    assert (6378137 * 6378137 * (N * N + S * S) = 6378137 * 6378137 * (R0 * R0)); [|lra].
    transitivity (6378137 * N * (6378137 * N) + 6378137 * S * (6378137 * S)); [ring|]. rewrite EN, ES, A, <- RR. unfold R0. field. }
  assert (P16 : P <= 10 ^ 20). { assert (r * r <= 6500000000 * 6500000000) by (apply Rmult_le_compat; lra). lra. }
  destruct (p2_F x y Fx Fy P16) as (Fp & Pp & Ep). fold P in Ep. set (p2 := Fadd (Fmul x x) (Fmul y y)) in *.
  assert (Ep' := Ep). rewrite <- EN in Ep.
  destruct (phih_F lm G c Hc p2 (Babs z) N S R0 N0 S0 HR NS Fp Pp Ep) as [K1 K2]; [rewrite is_finite_Babs; exact Fz|rewrite B2R_Babs; symmetry; exact ES|].
  rewrite EN, ES in K1, K2. unfold g'. rewrite to_gd_R. cbv zeta. cbn [phi height elong]. fold P.
  set (w' := gc2gd_phi_height (A := realA) (convR 6378137 kf) P (Rabs (B2R z))) in *. clearbody w'.
  unfold g, geocentric_to_geodetic. cbn [v0 v1 v2]. unfold sq. b64A_ops. fold p2.
  destruct (gc2gd_phi_height (A := b64A lm) c p2 (Babs z)) as [ph h]. cbn [fst snd] in K1, K2. cbn [phi height elong].
  destruct lit_0 as [L0 LF]. rewrite !Bltb_correct by assumption. rewrite !L0.
  split; [|split].
  - destruct K1 as [FA EA]. destruct (Rlt_bool (B2R z) 0).
    + split; [rewrite is_finite_Bopp; exact FA|]. rewrite B2R_Bopp. replace (- B2R ph - - fst w') with (- (B2R ph - fst w')) by ring. rewrite Rabs_Ropp. exact EA.
    + split; assumption.
  - destruct K2 as [FB EB]. split; [exact FB|]. eapply Rle_trans; [exact EB|]. unfold R0, U. lra.
  - intros HL. assert (PP : B2R x ^ 2 + B2R y ^ 2 = P) by (unfold P; ring). rewrite PP in HL.
    assert (T1 : bpow radix2 (-1000) <= / 2 * / 10 ^ 300).
    { replace (bpow radix2 (-1000)) with (/ IZR (2 ^ 1000)) by reflexivity.
      apply Rle_trans with (/ (2 * IZR (10 ^ 300))).
      - apply Rinv_le; [apply Rmult_lt_0_compat; [lra|apply IZR_lt; reflexivity]|]. rewrite <- mult_IZR. apply IZR_le. vm_compute. discriminate.
      - rewrite Rinv_mult, pow_IZR. change (Z.of_nat 300) with 300%Z. apply Rle_refl. }
    pose proof U_pos as UP. apply Rabs_le_inv in Ep'.
    destruct HL as [HL|[HX HY]].
    + assert (0 < / 10 ^ 300) by (apply Rinv_0_lt_compat, pow_lt; lra). assert (0 <= U * P <= 0.01 * P) by (split; [apply Rmult_le_pos; lra|apply Rmult_le_compat_r; lra]).
      rewrite !Rlt_bool_true by lra.
      destruct (good_atan2 lm G y x Fy Fx) as [FA (k & Hk & EA)].
      { destruct (Req_dec (B2R x) 0) as [E1|E1]; [|left; exact E1]. right. intros E2. unfold P in *. rewrite E1, E2 in *. lra. }
      split; [exact FA|]. exists k. exact EA.
    + assert (EP : P = 0) by (unfold P; rewrite HX, HY; ring). rewrite EP. rewrite (Rlt_bool_false 0 0) by lra.
      assert (EZ : B2R p2 = 0).
      { destruct (Fmul_ok x x Fx Fx) as [E1 F1]; [rewrite HX; unfold small; rewrite Rmult_0_r, Rabs_R0; apply bpow_ge_0|].
        destruct (Fmul_ok y y Fy Fy) as [E2 F2]; [rewrite HY; unfold small; rewrite Rmult_0_r, Rabs_R0; apply bpow_ge_0|].
        assert (RZ : rnd (0 * 0) = 0) by (rewrite Rmult_0_r; apply rnd_id, generic_format_0). rewrite HX, RZ in E1. rewrite HY, RZ in E2.
        destruct (Fadd_ok _ _ F1 F2) as [E3 _]; [rewrite E1, E2; unfold small; rewrite Rplus_0_r, Rabs_R0; apply bpow_ge_0|].
        unfold p2. rewrite E3, E1, E2, Rplus_0_r. apply rnd_id, generic_format_0. }
      rewrite EZ, Rlt_bool_false by lra. split; [exact LF|]. exists 0%Z. rewrite L0, Rmult_0_l, Rplus_0_r, Rminus_0_r, Rabs_R0. apply bpow_ge_0.
Qed.

(** The distance from the centre, from the geodetic coordinates. *)
Lemma wgs84_dist : forall lo la h, -500000 <= h <= 6490000000 ->
  let w := wgs84_at lo la h in let r := sqrt (v0 (A := realA) w ^ 2 + v1 (A := realA) w ^ 2 + v2 (A := realA) w ^ 2) in
  5750000 <= r <= Rabs h + 6378137.
Proof.
  intros lo la h Hh w r. destruct k_bounds as (BE & _).
  set (d := sqrt (kE * kE * (sin la * sin la) + cos la * cos la)). pose proof (g_range la) as GR. fold d in GR.
  assert (DD : d * d = kE * kE * (sin la * sin la) + cos la * cos la).
  { apply sqrt_sqrt. pose proof (Rle_0_sqr (kE * sin la)). pose proof (Rle_0_sqr (cos la)). unfold Rsqr in *. lra. }
  assert (E : v0 (A := realA) w ^ 2 + v1 (A := realA) w ^ 2 + v2 (A := realA) w ^ 2 =
    6378137 / d * (6378137 / d) * (cos la * cos la + kE * kE * (kE * kE) * (sin la * sin la)) + 2 * h * (6378137 * d) + h * h).
  { unfold w, wgs84_at. cbn [v0 v1 v2]. fold kf. fold kE.
    replace (cos la ^ 2 + kE ^ 2 * sin la ^ 2) with (kE * kE * (sin la * sin la) + cos la * cos la) by ring. fold d.
    transitivity ((6378137 / d + h) * (6378137 / d + h) * (cos la * cos la) * (sin lo * sin lo + cos lo * cos lo) + (kE * kE * (6378137 / d) + h) * (kE * kE * (6378137 / d) + h) * (sin la * sin la)); [ring|].
    rewrite sc1. pose proof (sc1 la) as T.
    transitivity (6378137 / d * (6378137 / d) * (cos la * cos la + kE * kE * (kE * kE) * (sin la * sin la)) + 2 * h * (6378137 / d * (kE * kE * (sin la * sin la) + cos la * cos la)) + h * h * (sin la * sin la + cos la * cos la)); [ring|].
    rewrite T, <- DD. field. lra. }
  unfold r. rewrite E. set (v := 6378137 / d * (6378137 / d) * (cos la * cos la + kE * kE * (kE * kE) * (sin la * sin la))).
  assert (V : kE * kE * (6378137 * 6378137) <= v <= 6378137 * 6378137).
  { pose proof (Rle_0_sqr (sin la)) as A. pose proof (Rle_0_sqr (cos la)) as B. unfold Rsqr in A, B.
    set (s2 := sin la * sin la) in *. set (c2 := cos la * cos la) in *. clearbody s2 c2. set (k := kE * kE) in *. assert (K : 0 < k <= 1) by (unfold k; nra). clearbody k.
    assert (EV : v = 6378137 * 6378137 * ((c2 + k * k * s2) / (k * s2 + c2))) by (unfold v; rewrite <- DD; field; lra).
    assert (D0 : 0 < k * s2 + c2) by (rewrite <- DD; apply Rmult_lt_0_compat; lra).
    assert (Q : k <= (c2 + k * k * s2) / (k * s2 + c2) <= 1).
    { assert (KK : k * k <= k) by nra. assert (K1 : k * k * s2 <= k * s2) by (apply Rmult_le_compat_r; lra). assert (K2 : k * c2 <= c2) by nra.
      split; [|apply div_le; lra]. apply (Rmult_le_reg_r (k * s2 + c2)); [exact D0|]. unfold Rdiv. rewrite Rmult_assoc, Rinv_l, Rmult_1_r by lra. lra. }
    rewrite EV. lra. }
  clearbody v. assert (K : 0.9932 <= kE * kE) by nra. assert (VL : 0.9932 * (6378137 * 6378137) <= v) by nra. clear E w r.
  assert (HD : - (2 * 6378137 * 500000) <= 2 * h * (6378137 * d)) by nra.
  assert (HU : 2 * h * (6378137 * d) <= 2 * Rabs h * 6378137).
  { pose proof (Rle_abs h). pose proof (Rabs_pos h). apply Rle_trans with (2 * Rabs h * (6378137 * d)); [apply Rmult_le_compat_r; lra|]. apply Rmult_le_compat_l; lra. }
  assert (HH : Rabs h * Rabs h = h * h) by (rewrite <- Rabs_mult; apply Rabs_pos_eq, Rle_0_sqr).
  split.
  - rewrite <- (sqrt_square 5750000) by lra. apply sqrt_le_1; try lra; destruct (Rle_or_lt 0 h).
    + assert (0 <= 2 * h * (6378137 * d)) by (apply Rmult_le_pos; lra). pose proof (Rle_0_sqr h). unfold Rsqr in *. lra.
    + assert (2 * h * 6378137 <= 2 * h * (6378137 * d)) by nra. nra.
    + assert (0 <= 2 * h * (6378137 * d)) by (apply Rmult_le_pos; lra). pose proof (Rle_0_sqr h). unfold Rsqr in *. lra.
    + assert (2 * h * 6378137 <= 2 * h * (6378137 * d)) by nra. nra.
  - rewrite <- (sqrt_square (Rabs h + 6378137)) by (pose proof (Rabs_pos h); lra). apply sqrt_le_1_alt.
    replace ((Rabs h + 6378137) * (Rabs h + 6378137)) with (Rabs h * Rabs h + 2 * Rabs h * 6378137 + 6378137 * 6378137) by ring. lra.
Qed.

Lemma tol_range : forall h, -500000 <= h ->
  0 <= 5 * (1 / 298.257223563) ^ 4 * Rabs (h / 6378137) ^ 3 / (1 + h / 6378137) ^ 4 + 125 * (1 / 298.257223563) ^ 5 * (h / 6378137) ^ 2 / (1 + h / 6378137) ^ 3 <= / 10 ^ 10.
Proof.
  intros h Hh. destruct (L_PEllipsoid.halley_profile (h / 6378137) ltac:(lra)) as [X Y]. set (n := h / 6378137) in *. assert (N : -0.1 <= n) by (unfold n; lra). clearbody n.
  replace (5 * (1 / 298.257223563) ^ 4 * Rabs n ^ 3 / (1 + n) ^ 4) with (5 * (1 / 298.257223563) ^ 4 * (Rabs n ^ 3 / (1 + n) ^ 4)) by (field; lra).
  replace (125 * (1 / 298.257223563) ^ 5 * n ^ 2 / (1 + n) ^ 3) with (125 * (1 / 298.257223563) ^ 5 * (n ^ 2 / (1 + n) ^ 3)) by (field; lra).
  set (X' := Rabs n ^ 3 / (1 + n) ^ 4) in *. set (Y' := n ^ 2 / (1 + n) ^ 3) in *. clearbody X' Y'. lra.
Qed.

(** C73, binary64, WGS84: from the Cartesian coordinates of any place from 500 km
    below to 6490000 km above the ellipsoid, the computed latitude, height and
    longitude are those of the place, up to the truncation error of the formula
    (tol, which vanishes on the ellipsoid) and the rounding error. *)
Lemma C73_geodetic_pf : forall lm, good_libm lm -> forall c x y z lo la h,
  conv_new (A := b64A lm) (WGS84 (A := b64A lm)) = Ok c -> fin x = true -> fin y = true -> fin z = true ->
  - PI < lo <= PI -> - (PI / 2) <= la <= PI / 2 -> -500000 <= h <= 6490000000 ->
  wgs84_at lo la h = V3 (A := realA) (B2R x) (B2R y) (B2R z) ->
  let g := geocentric_to_geodetic (A := b64A lm) c (V3 (A := b64A lm) x y z) in
  let tol := 5 * (1 / 298.257223563) ^ 4 * Rabs (h / 6378137) ^ 3 / (1 + h / 6378137) ^ 4 + 125 * (1 / 298.257223563) ^ 5 * (h / 6378137) ^ 2 / (1 + h / 6378137) ^ 3 in
  near (phi (A := b64A lm) g) la (tol + 1.8 / 10 ^ 14) /\
  near (height (A := b64A lm) g) h ((Rabs h + 1.01 * 6378137) * (2.5 / 10 ^ 15)) /\
  (/ 10 ^ 300 <= B2R x ^ 2 + B2R y ^ 2 -> near_angle (elong (A := b64A lm) g) lo (bpow radix2 (-51))).
Proof.
  intros lm G c x y z lo la h Hc Fx Fy Fz Hlo Hla Hh E g tol.
  assert (H' : conv_new (A := realA) (MkEll (A := realA) 6378137 (1 / 298.257223563)) = Ok (convR 6378137 kf)) by (apply (conv_new_R 6378137 kf); unfold kf; lra).
  assert (HW : conv_new (A := realA) (WGS84 (A := realA)) = Ok (convR 6378137 kf)).
  { rewrite <- H'. unfold WGS84. realA_ops. rewrite (Rlit_0 6378137), (Rlit_0 1).
    assert (E9 : Rlit 298257223563 (-9) = 298.257223563) by (unfold Rlit; change (Z.pow_pos 10 9) with 1000000000%Z; lra). rewrite E9. reflexivity. }
  pose proof (L_PAccGeo.C70_exact_pf _ lo la h HW) as EX.
  pose proof (wgs84_dist lo la h Hh) as RD. cbv zeta in RD. rewrite E in RD, EX. cbn [v0 v1 v2] in RD.
  destruct (C73_accuracy_pf lm G c _ x y z Hc HW Fx Fy Fz) as (A1 & A2 & A3).
  { assert (Rabs h <= 6490000000) by (apply Rabs_le; lra). lra. }
  destruct (L_PEllipsoid.C47_tolerance_pf 6378137 (1 / 298.257223563) _ lo la h _ H' ltac:(lra) ltac:(lra) Hla Hlo ltac:(lra) EX) as [T1 T2].
  fold g in A1, A2, A3. set (g' := geocentric_to_geodetic (A := realA) _ _) in *.
  set (tol' := 5 * (1 / 298.257223563) ^ 4 * Rabs (h / 6378137) ^ 3 / (1 + h / 6378137) ^ 4 + 125 * (1 / 298.257223563) ^ 5 * (h / 6378137) ^ 2 / (1 + h / 6378137) ^ 3 + 2 / 10 ^ 16) in *. 
  assert (ET : tol' = tol + 2 / 10 ^ 16) by reflexivity. rewrite ET in T1, T2. clear tol' ET.
  assert (T0 : 0 <= tol <= / 10 ^ 10) by (apply tol_range; lra).
  clearbody tol. split; [|split].
  - destruct A1 as [F1 A1]. split; [exact F1|]. apply Rabs_le_inv in A1. apply Rabs_le_inv in T1. apply Rabs_le. lra.
  - destruct A2 as [F2 A2]. split; [exact F2|]. set (r := sqrt _) in *. set (b := Rabs h + 1.01 * 6378137) in *.
    pose proof (Rabs_pos h) as HP. assert (B0 : 6000000 <= b) by (unfold b; lra). assert (RB : r <= b) by (unfold b; lra).
    assert ((tol + 2 / 10 ^ 16) ^ 2 <= 0.1 / 10 ^ 15) by (apply Rle_trans with ((1.1 / 10 ^ 10) ^ 2); [apply pow_incr|]; lra).
    assert (b * (tol + 2 / 10 ^ 16) ^ 2 <= b * (0.1 / 10 ^ 15)) by (apply Rmult_le_compat_l; lra).
    replace (B2R (height (A := b64A lm) g) - h) with ((B2R (height (A := b64A lm) g) - height (A := realA) g') + (height (A := realA) g' - h)) by ring.
    eapply Rle_trans; [apply Rabs_triang|]. clearbody b r. 
    assert (TT : Rabs (height (A := realA) g' - h) <= b * (0.1 / 10 ^ 15)) by (eapply Rle_trans; [exact T2|assumption]).
    set (q := Rabs (B2R (height (A := b64A lm) g) - height (A := realA) g')) in *. set (q' := Rabs (height (A := realA) g' - h)) in *. clearbody q q'.
    lra.
  - intros HL. specialize (A3 (or_introl HL)).
    assert (LS : - (PI / 2) < la < PI / 2).
    { assert (C : cos la <> 0).
      { intros C0. assert (EXX := f_equal (fun v => v0 (A := realA) v) E). assert (EYY := f_equal (fun v => v1 (A := realA) v) E).
        unfold wgs84_at in EXX, EYY. cbn [v0 v1] in EXX, EYY. rewrite C0, Rmult_0_r, Rmult_0_l in EXX, EYY. rewrite <- EXX, <- EYY in HL.
        assert (0 < / 10 ^ 300) by (apply Rinv_0_lt_compat, pow_lt; lra). replace (0 ^ 2 + 0 ^ 2) with 0 in HL by ring. lra. }
      split; apply Rnot_le_lt; intros L; apply C.
      - replace la with (- (PI / 2)) by lra. rewrite cos_neg. apply cos_PI2.
      - replace la with (PI / 2) by lra. apply cos_PI2. }
    pose proof (L_PEllipsoid.C47_longitude_pf 6378137 (1 / 298.257223563) _ lo la h _ H' ltac:(lra) LS Hlo ltac:(lra) EX) as EL.
    fold g' in EL. rewrite <- EL. exact A3.
Qed.

(** C73 at every height from 500 km below to 6490000 km above the ellipsoid: latitude
    within 1e-10 rad, height within 2.5e-15 of the distance. *)
Lemma C73_everywhere_pf : forall lm, good_libm lm -> forall c x y z lo la h,
  conv_new (A := b64A lm) (WGS84 (A := b64A lm)) = Ok c -> fin x = true -> fin y = true -> fin z = true ->
  - PI < lo <= PI -> - (PI / 2) <= la <= PI / 2 -> -500000 <= h <= 6490000000 ->
  wgs84_at lo la h = V3 (A := realA) (B2R x) (B2R y) (B2R z) ->
  let g := geocentric_to_geodetic (A := b64A lm) c (V3 (A := b64A lm) x y z) in
  near (phi (A := b64A lm) g) la (/ 10 ^ 10) /\ near (height (A := b64A lm) g) h ((Rabs h + 1.01 * 6378137) * (2.5 / 10 ^ 15)).
Proof.
  intros lm G c x y z lo la h Hc Fx Fy Fz Hlo Hla Hh E g.
  destruct (C73_geodetic_pf lm G c x y z lo la h Hc Fx Fy Fz Hlo Hla ltac:(lra) E) as (A1 & A2 & _). fold g in A1, A2.
  split; [|exact A2]. destruct A1 as [F1 A1]. split; [exact F1|]. eapply Rle_trans; [exact A1|].
  destruct (L_PEllipsoid.halley_profile (h / 6378137) ltac:(lra)) as [X Y]. set (n := h / 6378137) in *. assert (N : -0.1 <= n) by (unfold n; lra). clearbody n.
  replace (5 * (1 / 298.257223563) ^ 4 * Rabs n ^ 3 / (1 + n) ^ 4) with (5 * (1 / 298.257223563) ^ 4 * (Rabs n ^ 3 / (1 + n) ^ 4)) by (field; lra).
  replace (125 * (1 / 298.257223563) ^ 5 * n ^ 2 / (1 + n) ^ 3) with (125 * (1 / 298.257223563) ^ 5 * (n ^ 2 / (1 + n) ^ 3)) by (field; lra).
  set (X' := Rabs n ^ 3 / (1 + n) ^ 4) in *. set (Y' := n ^ 2 / (1 + n) ^ 3) in *. clearbody X' Y'. lra.
Qed.

(** C73 near the ground: latitude within 2e-14 rad (0.13 micrometres), height within 17
    nanometres. *)
Lemma C73_ground_pf : forall lm, good_libm lm -> forall c x y z lo la h,
  conv_new (A := b64A lm) (WGS84 (A := b64A lm)) = Ok c -> fin x = true -> fin y = true -> fin z = true ->
  - PI < lo <= PI -> - (PI / 2) <= la <= PI / 2 -> -10000 <= h <= 10000 ->
  wgs84_at lo la h = V3 (A := realA) (B2R x) (B2R y) (B2R z) ->
  let g := geocentric_to_geodetic (A := b64A lm) c (V3 (A := b64A lm) x y z) in
  near (phi (A := b64A lm) g) la (2 / 10 ^ 14) /\ near (height (A := b64A lm) g) h (1.7 / 10 ^ 8).
Proof.
  intros lm G c x y z lo la h Hc Fx Fy Fz Hlo Hla Hh E g.
  destruct (C73_geodetic_pf lm G c x y z lo la h Hc Fx Fy Fz Hlo Hla ltac:(lra) E) as (A1 & A2 & _). fold g in A1, A2.
  destruct A1 as [F1 A1]. destruct A2 as [F2 A2]. split; (split; [assumption|]).
  - eapply Rle_trans; [exact A1|]. set (n := h / 6378137) in *. assert (Hn : -0.00157 <= n <= 0.00157) by (unfold n; lra). clearbody n.
    assert (Hm : 0 <= Rabs n <= 0.00157) by (split; [apply Rabs_pos|apply Rabs_le; lra]).
    assert (N3 : 0 <= Rabs n ^ 3 <= 0.00157 ^ 3) by (split; [apply pow_le; lra|apply pow_incr; lra]).
    assert (N2 : 0 <= n ^ 2 <= 0.00157 ^ 2) by (split; [apply pow2_ge_0|rewrite <- (pow2_abs n); apply pow_incr; lra]).
    assert (D3 : 0.99 <= (1 + n) ^ 3) by (assert (0.99843 ^ 3 <= (1 + n) ^ 3) by (apply pow_incr; lra); lra).
    assert (D4 : 0.99 <= (1 + n) ^ 4) by (assert (0.99843 ^ 4 <= (1 + n) ^ 4) by (apply pow_incr; lra); lra).
    assert (P1 : 5 * (1 / 298.257223563) ^ 4 * Rabs n ^ 3 / (1 + n) ^ 4 <= / 10 ^ 16).
    { apply div_le; [lra|]. apply Rle_trans with (5 * (1 / 298.257223563) ^ 4 * 0.00157 ^ 3); [apply Rmult_le_compat_l; lra|lra]. }
    assert (P2 : 125 * (1 / 298.257223563) ^ 5 * n ^ 2 / (1 + n) ^ 3 <= 2 / 10 ^ 16).
    { apply div_le; [lra|]. apply Rle_trans with (125 * (1 / 298.257223563) ^ 5 * 0.00157 ^ 2); [apply Rmult_le_compat_l; lra|lra]. }
    lra.
  - eapply Rle_trans; [exact A2|]. assert (HA : 0 <= Rabs h <= 10000) by (split; [apply Rabs_pos|apply Rabs_le; lra]).
    apply Rle_trans with ((10000 + 1.01 * 6378137) * (2.5 / 10 ^ 15)); [apply Rmult_le_compat; lra|lra].
Qed.

(** C73 at the equator, 90 degrees east, 1 km up: latitude 0, height 1000 m,
    longitude pi / 2, and on the axis 6360 km south of the centre: latitude
    -pi / 2, height 6360 km less the semi-minor axis. *)
Example C73_example_pf : forall lm, good_libm lm -> exists c,
  conv_new (A := b64A lm) (WGS84 (A := b64A lm)) = Ok c /\
  (let g := geocentric_to_geodetic (A := b64A lm) c (V3 (A := b64A lm) (Flit 0 0) (Flit 6379137 0) (Flit 0 0)) in
   near (phi (A := b64A lm) g) 0 (2 / 10 ^ 14) /\ near (height (A := b64A lm) g) 1000 (1.7 / 10 ^ 8) /\
   near_angle (elong (A := b64A lm) g) (PI / 2) (bpow radix2 (-51))) /\
  (let g := geocentric_to_geodetic (A := b64A lm) c (V3 (A := b64A lm) (Flit 0 0) (Flit 0 0) (Flit (-6360000) 0)) in
   near (phi (A := b64A lm) g) (- (PI / 2)) (2 / 10 ^ 14) /\
   near (height (A := b64A lm) g) (6360000 - 6378137 * (1 - 1 / 298.257223563)) (1.7 / 10 ^ 8)).
Proof.
  intros lm G. destruct (L_PSunAngle.wgs84_F lm) as (c & Hc & _). exists c. split; [exact Hc|].
  destruct (Flit_int 0 ltac:(lia)) as [E0 F0]. destruct (Flit_int 6379137 ltac:(lia)) as [E1 F1]. destruct (Flit_int (-6360000) ltac:(lia)) as [E2 F2].
  pose proof PI_RGT_0 as PP. split.
  - assert (EW : wgs84_at (PI / 2) 0 1000 = V3 (A := realA) (B2R (Flit 0 0)) (B2R (Flit 6379137 0)) (B2R (Flit 0 0))).
    { rewrite E0, E1. unfold wgs84_at. rewrite sin_0, cos_0, cos_PI2, sin_PI2. cbv zeta.
      replace (1 ^ 2 + (1 - 1 / 298.257223563) ^ 2 * 0 ^ 2) with 1 by ring. rewrite sqrt_1. f_equal; lra. }
    destruct (C73_ground_pf lm G c _ _ _ (PI / 2) 0 1000 Hc F0 F1 F0 ltac:(lra) ltac:(lra) ltac:(lra) EW) as [A1 A2].
    destruct (C73_geodetic_pf lm G c _ _ _ (PI / 2) 0 1000 Hc F0 F1 F0 ltac:(lra) ltac:(lra) ltac:(lra) EW) as (_ & _ & A3).
    split; [exact A1|]. split; [exact A2|]. apply A3. rewrite E0, E1.
    apply Rle_trans with 1; [|lra]. rewrite <- (Rinv_1). apply Rinv_le; [lra|]. apply pow_R1_Rle. lra.
  - assert (EW : wgs84_at 0 (- (PI / 2)) (6360000 - 6378137 * (1 - 1 / 298.257223563)) = V3 (A := realA) (B2R (Flit 0 0)) (B2R (Flit 0 0)) (B2R (Flit (-6360000) 0))).
    { rewrite E0, E2. unfold wgs84_at. rewrite sin_neg, cos_neg, cos_0, sin_0, cos_PI2, sin_PI2. cbv zeta.
      replace (0 ^ 2 + (1 - 1 / 298.257223563) ^ 2 * (Ropp 1) ^ 2) with ((1 - 1 / 298.257223563) * (1 - 1 / 298.257223563)) by ring.
      rewrite sqrt_square by lra. f_equal; lra. }
    exact (C73_ground_pf lm G c _ _ _ 0 (- (PI / 2)) (6360000 - 6378137 * (1 - 1 / 298.257223563)) Hc F0 F0 F2 ltac:(lra) ltac:(lra) ltac:(lra) EW).
Qed.
