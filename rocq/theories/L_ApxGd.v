(** * Error bounds: geocentric to geodetic coordinates on WGS84 *)

From Coq Require Import ZArith Reals Lra Lia Bool List Psatz.
From Flocq Require Import Core BinarySingleNaN.
From Verif Require Import Outcome Arith ArithR ArithF Spec_Float Spec_Accuracy M_Common M_Ellipsoid Spec_Matrix.
From Verif Require Import L_ArithF L_ArithR L_Flit L_PMatrix L_Rel L_Ellipsoid L_Halley.
From Verif Require L_Apx.
Open Scope R_scope.

(** The constants of the WGS84 converter. *)
Definition kf : R := 1 / 298.257223563.
Definition kE : R := 1 - kf.
Definition kG : R := 1 - kE * kE.
Definition kT : R := 3 / 2 * (kG * kG).
Lemma k_bounds : 0.9966 <= kE <= 0.9967 /\ 0.00669 <= kG <= 0.0067 /\ 0.000067 <= kT <= 0.0000673.
Proof.
  assert (F : 0.0033528 <= kf <= 0.0033529) by (unfold kf; lra). unfold kT, kG, kE. repeat split; nra.
Qed.

Definition close (x : b64) (r k : R) : Prop := fin x = true /\ Rabs (B2R x - r) <= k * U.
Definition good_conv {lm : libm} (c : EllipsoidConverter (b64A lm)) : Prop :=
  close (el_a (A := b64A lm) (cv_el (A := b64A lm) c)) 6378137 0 /\
  close (cv_e2 (A := b64A lm) c) kG (kG) /\ close (cv_e4t (A := b64A lm) c) kT kT /\
  close (cv_ec2 (A := b64A lm) c) (kE * kE) 0.5 /\ close (cv_ec (A := b64A lm) c) kE 0.5 /\
  close (cv_b (A := b64A lm) c) (6378137 * kE) 3000000 /\ close (cv_aeps2 (A := b64A lm) c) (6378137 * 6378137 / 10 ^ 32) (1 / 10 ^ 18).

Lemma wgs84_good : forall lm c, conv_new (A := b64A lm) (WGS84 (A := b64A lm)) = Ok c -> good_conv c.
Proof.
  intros lm c H. unfold conv_new, WGS84 in H. cbn [el_a el_f] in H. b64A_ops.
  repeat match type of H with (if ?b then _ else _) = _ => replace b with false in H by (vm_compute; reflexivity); cbv iota in H end.
  apply (f_equal (fun o => match o with Ok x => x | Err _ => c end)) in H. cbv beta iota in H. rewrite <- H. clear H.
  unfold good_conv, close. cbn [cv_el cv_e2 cv_e4t cv_ec2 cv_ec cv_b cv_aeps2 el_a].
  rewrite !fin_SF, !B2R_SF.
  repeat match goal with |- context [B2SF ?t] =>
    let x := fresh "x" in set (x := B2SF t); let v := eval vm_compute in x in
    let E := fresh "E" in assert (E : x = v) by (vm_compute; reflexivity); rewrite E; clear E x end.
  cbn [SF2R cond_Zopp Z.opp is_finite_SF]. unfold F2R. cbn [Fnum Fexp].
  repeat match goal with |- context [bpow radix2 ?e] => let v := eval cbv in e in
     match v with Z0 => change (bpow radix2 e) with 1 | Zpos ?q => let w := eval vm_compute in (2 ^ Zpos q)%Z in change (bpow radix2 e) with (IZR w)
       | Zneg ?q => let w := eval vm_compute in (2 ^ Zpos q)%Z in change (bpow radix2 e) with (/ IZR w) end end.
  unfold kT, kG, kE, kf, U.
  repeat split; apply Rabs_le; lra.
Qed.

Lemma div_le : forall a b c, 0 < b -> a <= c * b -> a / b <= c.
Proof. intros a b c B H. apply (Rmult_le_reg_r b); [exact B|]. unfold Rdiv. rewrite Rmult_assoc, Rinv_l, Rmult_1_r by lra. exact H. Qed.

(** The angle between two directions of the right half plane. *)
Lemma atan_close : forall s c s' c', 0 < c -> 0 < c' -> 0 < s * s' + c * c' ->
  Rabs (atan (s / c) - atan (s' / c')) <= Rabs (s * c' - s' * c) / (s * s' + c * c').
Proof.
  intros s c s' c' C C' D. set (n := sqrt (s' * s' + c' * c')).
  assert (N2 : n * n = s' * s' + c' * c') by (apply sqrt_def; nra).
  assert (N0 : 0 < n) by (apply sqrt_lt_R0; nra).
  assert (CC : cos (atan (s' / c')) = c' / n).
  { rewrite cos_atan. replace (1 + Rsqr (s' / c')) with (n * n / (c' * c')) by (rewrite N2; unfold Rsqr; field; lra).
    rewrite sqrt_div_alt by nra. rewrite !sqrt_square by lra. field. lra. }
  assert (SS : sin (atan (s' / c')) = s' / n).
  { rewrite sin_atan. replace (1 + Rsqr (s' / c')) with (n * n / (c' * c')) by (rewrite N2; unfold Rsqr; field; lra).
    rewrite sqrt_div_alt by nra. rewrite !sqrt_square by lra. field. lra. }
  assert (E : s * (s' / n) + c * (c' / n) = (s * s' + c * c') / n) by (field; lra).
  rewrite (atan_diff (atan (s' / c')) s c).
  - eapply Rle_trans; [apply atan_abs_le|]. rewrite CC, SS, E.
    replace ((s * (c' / n) - c * (s' / n)) / ((s * s' + c * c') / n)) with ((s * c' - s' * c) / (s * s' + c * c')) by (field; lra).
    unfold Rdiv. rewrite Rabs_mult, Rabs_inv, (Rabs_pos_eq (s * s' + c * c')) by lra. lra.
  - pose proof (atan_bound (s' / c')). lra.
  - exact C.
  - rewrite CC, SS, E. apply Rmult_lt_0_compat; [exact D|apply Rinv_0_lt_compat, N0].
Qed.

(** Rounding the argument of atan. *)
Lemma atan_rnd : forall q, Rabs (atan (rnd q) - atan q) <= 1.2 * U.
Proof.
  intros q. pose proof (rnd_rel q) as E. change (bpow radix2 (-52)) with (/ 4503599627370496) in E.
  assert (T : bpow radix2 (-1074) <= bpow radix2 (-174)) by (apply bpow_le; lia).
  assert (T2 : bpow radix2 (-174) <= bpow radix2 (-74)) by (apply bpow_le; lia). change (bpow radix2 (-74)) with (/ 18889465931478580854784) in T2.
  assert (E' : Rabs (rnd q - q) <= U * (Rabs q + 1 / 10 ^ 6)) by (unfold U; lra). clear E T T2. pose proof U_pos as UP.
  set (x := rnd q) in *. clearbody x.
  assert (Q1 : Rabs q * 1 <= (1 + q * q) / 2) by (assert (q * q = Rabs q * Rabs q) by (rewrite <- Rabs_mult, Rabs_pos_eq by apply Rle_0_sqr; reflexivity); pose proof (Rle_0_sqr (Rabs q - 1)) as W; unfold Rsqr in W; nra).
  assert (D : 0.9 * (1 + q * q) <= x * q + 1 * 1).
  { replace (x * q + 1 * 1) with (1 + q * q + (x - q) * q) by ring.
    assert (Rabs ((x - q) * q) <= U * ((Rabs q + 1 / 10 ^ 6) * Rabs q)).
    { rewrite Rabs_mult. rewrite <- Rmult_assoc. apply Rmult_le_compat_r; [apply Rabs_pos|exact E']. }
    assert (QQ : q * q = Rabs q * Rabs q) by (rewrite <- Rabs_mult, Rabs_pos_eq by apply Rle_0_sqr; reflexivity).
    apply Rabs_le_inv in H. pose proof (Rabs_pos q). assert (U * ((Rabs q + 1 / 10 ^ 6) * Rabs q) <= 0.1 * (1 + q * q)); [|lra]. rewrite QQ.
    apply Rle_trans with (12 / 10 ^ 17 * ((Rabs q + 1 / 10 ^ 6) * Rabs q)); [apply Rmult_le_compat_r; nra|]. nra. }
  assert (P : 0 < 1 + q * q) by (pose proof (Rle_0_sqr q); unfold Rsqr in *; lra).
  pose proof (atan_close x 1 q 1 ltac:(lra) ltac:(lra) ltac:(lra)) as A. replace (x / 1) with x in A by field. replace (q / 1) with q in A by field.
  eapply Rle_trans; [exact A|]. rewrite !Rmult_1_r in *.
  apply Rle_trans with (U * (Rabs q + 1 / 10 ^ 6) / (0.9 * (1 + q * q))).
  - apply Rmult_le_compat; [apply Rabs_pos|left; apply Rinv_0_lt_compat; lra|exact E'|apply Rinv_le; lra].
  - apply div_le; [lra|]. set (w := Rabs q) in *. clearbody w. nra.
Qed.

Section Step.
Variables N S R0 : R.
Hypothesis HN : bpow radix2 (-57) <= N <= R0.
Hypothesis HR : 0.9 <= R0 <= 1024.
Hypothesis HS : 0 <= S.
Hypothesis NS : N * N + S * S = R0 * R0.

Lemma SR : S <= R0.
Proof. pose proof (N_pos N R0 HN). nra. Qed.
Local Notation M := (M N R0).
Local Notation er := (er N R0).

(** The exact quantities, from normalised distances. *)
Definition rc0 : R := kE * N.
Definition rc2 : R := rc0 * rc0.
Definition rc3 : R := rc2 * rc0.
Definition rs2 : R := S * S.
Definition rs3 : R := rs2 * S.
Definition ra2 : R := rc2 + rs2.
Definition ra0 : R := sqrt ra2.
Definition ra3 : R := ra2 * ra0.
Definition rd0 : R := kE * S * ra3 + kG * rs3.
Definition rf0 : R := N * ra3 - kG * rc3.
Definition rb0 : R := kT * rs2 * rc2 * N * (ra0 - kE).
Definition rs1 : R := rd0 * rf0 - rb0 * S.
Definition rcc : R := kE * (rf0 * rf0 - rb0 * rc0).

Lemma ra2_b : kE * kE * (R0 * R0) <= ra2 <= R0 * R0.
Proof. unfold ra2, rc2, rs2, rc0. rewrite <- NS. destruct k_bounds as (K & _). pose proof (Rle_0_sqr N) as A. pose proof (Rle_0_sqr S) as B. unfold Rsqr in *.
  replace (kE * N * (kE * N)) with (kE * kE * (N * N)) by ring. assert (Q : 0 <= kE * kE <= 1) by (split; nra). set (w := kE * kE) in *. clearbody w. split; nra. Qed.
Lemma ra0_b : kE * R0 <= ra0 <= R0.
Proof.
  pose proof ra2_b as H. destruct k_bounds as (K & _). unfold ra0. split.
  - rewrite <- (sqrt_square (kE * R0)) by nra. apply sqrt_le_1_alt. lra.
  - rewrite <- (sqrt_square R0) at 1 by lra. apply sqrt_le_1_alt. lra.
Qed.
Lemma ra3_b : 0.9898 * (R0 * R0 * R0) <= ra3 <= R0 * R0 * R0.
Proof.
  pose proof ra2_b as H2. pose proof ra0_b as H0. destruct k_bounds as (K & _). unfold ra3.
  assert (E2 : 0.9932 * (R0 * R0) <= ra2) by (assert (0 < R0 * R0) by nra; nra).
  assert (E0 : 0.9966 * R0 <= ra0) by nra. split.
  - apply Rle_trans with (0.9932 * (R0 * R0) * (0.9966 * R0)); [|apply Rmult_le_compat; nra].
    assert (0 < R0 * R0 * R0) by (apply Rmult_lt_0_compat; nra). lra.
  - apply Rmult_le_compat; try lra; nra.
Qed.

Lemma n_pos : 0 < N. Proof. exact (N_pos N R0 HN). Qed.
(** Sizes, in terms of N, S and R0. *)
Lemma rd0_b : 0.986 * (S * (R0 * R0 * R0)) <= rd0 <= 1.0042 * (S * (R0 * R0 * R0)).
Proof.
  pose proof ra3_b as H. destruct k_bounds as (K & G & _). pose proof SR as SR. unfold rd0, rs3, rs2.
  assert (P : 0 < R0 * R0 * R0) by (apply Rmult_lt_0_compat; nra).
  assert (Q : 0 <= kG * (S * S * S) <= 0.0067 / 0.9 * (S * (R0 * R0 * R0))).
  { assert (S * S <= R0 * R0) by nra. assert (S * S * S <= S * (R0 * R0)) by nra. assert (R0 * R0 <= 10 / 9 * (R0 * R0 * R0)) by nra.
    assert (0 <= S * S * S) by (apply Rmult_le_pos; [apply Rle_0_sqr|exact HS]). split; [nra|].
    apply Rle_trans with (0.0067 * (S * (10 / 9 * (R0 * R0 * R0)))); [apply Rmult_le_compat; nra|lra]. }
  assert (A : 0.9966 * S * (0.9898 * (R0 * R0 * R0)) <= kE * S * ra3) by (apply Rmult_le_compat; nra).
  assert (B : kE * S * ra3 <= 0.9967 * S * (R0 * R0 * R0)) by (apply Rmult_le_compat; nra).
  assert (0 <= S * (R0 * R0 * R0)) by (apply Rmult_le_pos; lra). split; lra.
Qed.
Lemma rc3_b : 0 <= rc3 <= N * (R0 * R0).
Proof.
  pose proof n_pos. destruct k_bounds as (K & _). unfold rc3, rc2, rc0.
  assert (A : 0 <= kE * N <= N) by nra. assert (B : 0 <= kE * N * (kE * N) <= R0 * R0) by (split; [apply Rle_0_sqr|apply Rmult_le_compat; lra]).
  split; [apply Rmult_le_pos; lra|]. rewrite (Rmult_comm N). apply Rmult_le_compat; lra.
Qed.
Lemma rf0_b : 0.982 * (N * (R0 * R0 * R0)) <= rf0 <= N * (R0 * R0 * R0).
Proof.
  pose proof ra3_b as H. pose proof rc3_b as C. destruct k_bounds as (K & G & _). pose proof n_pos as NP. unfold rf0.
  assert (P : 0 < R0 * R0 * R0) by (apply Rmult_lt_0_compat; nra).
  assert (Q : 0 <= kG * rc3 <= 0.0067 / 0.9 * (N * (R0 * R0 * R0))).
  { assert (R0 * R0 <= 10 / 9 * (R0 * R0 * R0)) by nra. split; [nra|].
    apply Rle_trans with (0.0067 * (N * (10 / 9 * (R0 * R0 * R0)))); [apply Rmult_le_compat; nra|lra]. }
  assert (A : N * (0.9898 * (R0 * R0 * R0)) <= N * ra3) by (apply Rmult_le_compat_l; lra).
  assert (B : N * ra3 <= N * (R0 * R0 * R0)) by (apply Rmult_le_compat_l; lra).
  assert (0 <= N * (R0 * R0 * R0)) by (apply Rmult_le_pos; lra). split; lra.
Qed.
Lemma rb0_b : Rabs rb0 <= 0.0000673 * (N * (R0 * R0 * R0 * (R0 * R0))).
Proof.
  pose proof ra0_b as H. destruct k_bounds as (K & G & T). pose proof n_pos as NP. pose proof SR as SR. unfold rb0, rs2, rc2, rc0.
  assert (A : Rabs (ra0 - kE) <= R0) by (apply Rabs_le; nra). 
  rewrite Rabs_mult. replace (kT * (S * S) * (kE * N * (kE * N)) * N) with (kT * (S * (kE * N) * (S * (kE * N))) * N) by ring.
  assert (B : 0 <= S * (kE * N) <= R0 * R0) by (split; [apply Rmult_le_pos; nra|apply Rmult_le_compat; nra]).
  set (w := S * (kE * N)) in *. assert (W : 0 <= w * w <= R0 * R0 * (R0 * R0)) by (split; [apply Rle_0_sqr|apply Rmult_le_compat; lra]).
  assert (V : 0 <= kT * (w * w) * N <= 0.0000673 * (R0 * R0 * (R0 * R0)) * N).
  { split; [apply Rmult_le_pos; [apply Rmult_le_pos; lra|lra]|]. apply Rmult_le_compat_r; [lra|]. apply Rmult_le_compat; lra. }
  rewrite Rabs_pos_eq by lra.
  apply Rle_trans with (0.0000673 * (R0 * R0 * (R0 * R0)) * N * R0); [apply Rmult_le_compat; try lra; apply Rabs_pos|lra].
Qed.
(** [rb0 S], [rb0 rc0] against the leading terms. *)
Lemma rb0_S : Rabs (rb0 * S) <= 0.000084 * (S * N * (R0 * R0 * R0 * (R0 * R0 * R0))).
Proof.
  pose proof rb0_b as B. pose proof n_pos as NP. rewrite Rabs_mult, (Rabs_pos_eq S) by exact HS.
  apply Rle_trans with (0.0000673 * (N * (R0 * R0 * R0 * (R0 * R0))) * S); [apply Rmult_le_compat_r; lra|].
  set (q := R0 * R0 * R0 * (R0 * R0)). replace (R0 * R0 * R0 * (R0 * R0 * R0)) with (q * R0) by (unfold q; ring).
  assert (0 < q) by (unfold q; apply Rmult_lt_0_compat; [apply Rmult_lt_0_compat|]; nra).
  assert (0 <= N * q * S) by (apply Rmult_le_pos; [apply Rmult_le_pos|]; lra). nra.
Qed.
Lemma rb0_c : Rabs (rb0 * rc0) <= 0.000084 * (N * N * (R0 * R0 * R0 * (R0 * R0 * R0))).
Proof.
  pose proof rb0_b as B. pose proof n_pos as NP. destruct k_bounds as (K & _). unfold rc0. rewrite Rabs_mult, (Rabs_pos_eq (kE * N)) by nra.
  apply Rle_trans with (0.0000673 * (N * (R0 * R0 * R0 * (R0 * R0))) * N).
  { apply Rmult_le_compat; try apply Rabs_pos; try lra; nra. }
  set (q := R0 * R0 * R0 * (R0 * R0)). replace (R0 * R0 * R0 * (R0 * R0 * R0)) with (q * R0) by (unfold q; ring).
  assert (0 < q) by (unfold q; apply Rmult_lt_0_compat; [apply Rmult_lt_0_compat|]; nra).
  assert (0 <= N * q * N) by (apply Rmult_le_pos; [apply Rmult_le_pos|]; lra). nra.
Qed.
Lemma rs1_b : 0.965 * (S * N * (R0 * R0 * R0 * (R0 * R0 * R0))) <= rs1 <= 1.005 * (S * N * (R0 * R0 * R0 * (R0 * R0 * R0))).
Proof.
  pose proof rd0_b as D. pose proof rf0_b as F. pose proof rb0_S as B. pose proof n_pos as NP. apply Rabs_le_inv in B. unfold rs1.
  set (q := R0 * R0 * R0) in *. assert (Q : 0 < q) by (unfold q; apply Rmult_lt_0_compat; nra).
  assert (A1 : 0.986 * (S * q) * (0.982 * (N * q)) <= rd0 * rf0) by (apply Rmult_le_compat; try lra; apply Rmult_le_pos; try lra; apply Rmult_le_pos; lra).
  assert (A2 : rd0 * rf0 <= 1.0042 * (S * q) * (N * q)).
  { assert (0 <= S * q) by (apply Rmult_le_pos; lra). assert (0 <= N * q) by (apply Rmult_le_pos; lra). apply Rmult_le_compat; lra. }
  assert (0 <= S * N * (q * q)) by (apply Rmult_le_pos; apply Rmult_le_pos; lra). split; lra.
Qed.
Lemma rcc_b : 0.96 * (N * N * (R0 * R0 * R0 * (R0 * R0 * R0))) <= rcc <= N * N * (R0 * R0 * R0 * (R0 * R0 * R0)).
Proof.
  pose proof rf0_b as F. pose proof rb0_c as B. pose proof n_pos as NP. destruct k_bounds as (K & _). apply Rabs_le_inv in B. unfold rcc.
  set (q := R0 * R0 * R0) in *. assert (Q : 0 < q) by (unfold q; apply Rmult_lt_0_compat; nra).
  assert (P : 0 < N * q) by (apply Rmult_lt_0_compat; lra).
  assert (A1 : 0.982 * (N * q) * (0.982 * (N * q)) <= rf0 * rf0) by (apply Rmult_le_compat; lra).
  assert (A2 : rf0 * rf0 <= N * q * (N * q)) by (apply Rmult_le_compat; lra).
  assert (W : 0 < N * N * (q * q)) by (apply Rmult_lt_0_compat; apply Rmult_lt_0_compat; lra).
  set (w := rf0 * rf0 - rb0 * rc0) in *. assert (0.9642 * (N * N * (q * q)) <= w <= 1.0001 * (N * N * (q * q))) by (unfold w; lra). clearbody w.
  set (W0 := N * N * (q * q)) in *. clearbody W0. split; nra.
Qed.
Lemma rv_b : 0.92 * (N * N * (R0 * R0 * R0 * (R0 * R0 * R0) * (R0 * R0 * R0 * (R0 * R0 * R0)) * (R0 * R0))) <= rs1 * rs1 + rcc * rcc.
Proof.
  pose proof rs1_b as A. pose proof rcc_b as B. pose proof n_pos as NP.
  set (q := R0 * R0 * R0 * (R0 * R0 * R0)) in *. assert (Q : 0 < q) by (unfold q; repeat apply Rmult_lt_0_compat; lra).
  assert (A1 : 0.96 * (S * N * q) * (0.96 * (S * N * q)) <= rs1 * rs1).
  { assert (0 <= S * N * q) by (apply Rmult_le_pos; [apply Rmult_le_pos|]; lra). apply Rmult_le_compat; lra. }
  assert (B1 : 0.96 * (N * N * q) * (0.96 * (N * N * q)) <= rcc * rcc).
  { assert (0 <= N * N * q) by (apply Rmult_le_pos; [apply Rmult_le_pos|]; lra). apply Rmult_le_compat; lra. }
  rewrite <- NS. assert (0 <= N * N * (q * q)) by (apply Rmult_le_pos; apply Rmult_le_pos; lra).
  assert (0 <= N * N * (q * q) * (N * N + S * S)) by (apply Rmult_le_pos; [lra|]; pose proof (Rle_0_sqr N); pose proof (Rle_0_sqr S); unfold Rsqr in *; lra). lra.
Qed.

Ltac mono := unfold L_Rel.M; cbn [pow]; rewrite ?Rmult_1_r, ?Rmult_1_l.
Lemma M_eqs : M 0 0 = 1 /\ M 0 1 = R0 /\ M 1 0 = N /\ M 0 2 = R0 * R0 /\ M 0 3 = R0 * R0 * R0 /\ M 0 4 = R0 * R0 * R0 * R0 /\ M 1 3 = N * (R0 * R0 * R0) /\
  M 1 7 = N * (R0 * R0 * R0 * (R0 * R0 * R0)) * R0 /\ M 2 6 = N * N * (R0 * R0 * R0 * (R0 * R0 * R0)).
Proof. unfold L_Rel.M. repeat split; ring. Qed.

Lemma close_er : forall x r k k' b, close x r k -> k <= k' -> 0 <= k -> Rabs r <= b -> k' <= 10 ^ 6 * b -> / 10 ^ 30 <= b <= 10 ^ 30 -> er x r k' b 0 0.
Proof.
  intros x r k k' b (F & E) Hk H0 Hr Hkb Hb. pose proof U_pos. destruct M_eqs as (M0 & _). split; [exact F|]. rewrite M0, !Rmult_1_r.
  split; [eapply Rle_trans; [exact E|]; apply Rmult_le_compat_r; lra|]. repeat split; try assumption; try lra; lia.
Qed.

Ltac mulr H1 H2 k b H := epose proof (er_mul N R0 HN HR _ _ _ _ _ _ _ _ _ _ _ _ k b H1 H2 ltac:(lia) ltac:(lia) ltac:(lra) ltac:(lra) ltac:(lra) ltac:(lra)) as H; cbn [Nat.add] in H.

Lemma step_F : forall lm (c : EllipsoidConverter (b64A lm)) (p z : b64), good_conv c ->
  er p (6378137 * N) (2.1 * 6378137) 6378137 1 0 -> er z (6378137 * S) 0 6378137 0 1 ->
  er (fst (gc2gd_step (A := b64A lm) c p z)) rs1 65.7 1.02 1 7 /\
  er (snd (gc2gd_step (A := b64A lm) c p z)) rcc 67.4 1.01 2 6.
Proof.
  intros lm c p z (Ka & Kg & Kt & Ke2 & Ke & _) Hp Hz. destruct k_bounds as (BE & BG & BT). pose proof n_pos as NP. pose proof SR as SR.
  destruct M_eqs as (M00 & M01 & M10 & M02 & M03 & M04 & M13 & M17 & M26).
  assert (HA : er (el_a (A := b64A lm) (cv_el (A := b64A lm) c)) 6378137 0 6378137 0 0) by (apply (close_er _ _ _ _ _ Ka); rewrite ?Rabs_pos_eq; lra).
  assert (HG : er (cv_e2 (A := b64A lm) c) kG 0.0067 0.0067 0 0) by (apply (close_er _ _ _ _ _ Kg); rewrite ?Rabs_pos_eq; lra).
  assert (HT : er (cv_e4t (A := b64A lm) c) kT 0.000068 0.000068 0 0) by (apply (close_er _ _ _ _ _ Kt); rewrite ?Rabs_pos_eq; lra).
  assert (HE : er (cv_ec (A := b64A lm) c) kE 1 0.9967 0 0) by (apply (close_er _ _ _ _ _ Ke); rewrite ?Rabs_pos_eq; lra).
  unfold gc2gd_step. b64A_ops. cbv zeta. cbn [fst snd].
  set (aF := el_a (A := b64A lm) (cv_el (A := b64A lm) c)) in *. set (e2F := cv_e2 (A := b64A lm) c) in *. set (e4F := cv_e4t (A := b64A lm) c) in *. set (ecF := cv_ec (A := b64A lm) c) in *.
  clearbody aF e2F e4F ecF. clear Ka Kg Kt Ke2 Ke.
  assert (H6 : 6378137 * M 0 0 <= Rabs 6378137) by (rewrite M00, Rabs_pos_eq; lra).
  assert (Hs0 : er (Fdiv z aF) S 1.01 1 0 1).
  { assert (ES : 6378137 * S / 6378137 = S) by field.
    epose proof (er_div N R0 HN HR _ _ _ _ 0 1 _ _ _ _ 0 0 1.01 1 6378137 Hz HA ltac:(lra) H6 ltac:(lra)) as Q. rewrite ES in Q. apply Q; try lra.
    rewrite M01, Rabs_pos_eq; lra. }
  assert (Hpn : er (Fdiv p aF) N 3.2 1 1 0).
  { assert (ES : 6378137 * N / 6378137 = N) by field.
    epose proof (er_div N R0 HN HR _ _ _ _ 1 0 _ _ _ _ 0 0 3.2 1 6378137 Hp HA ltac:(lra) H6 ltac:(lra)) as Q. rewrite ES in Q. apply Q; try lra.
    rewrite M10, Rabs_pos_eq; lra. }
  set (s0F := Fdiv z aF) in *. set (pnF := Fdiv p aF) in *. clearbody s0F pnF. clear Hp Hz p z H6 HA aF.
  mulr HE Hs0 3.1 1 Hzc. mulr HE Hpn 5.3 1 Hc0. fold rc0 in Hc0. mulr Hc0 Hc0 11.7 1 Hc2. fold rc2 in Hc2. mulr Hc2 Hc0 18.1 1 Hc3. fold rc3 in Hc3.
  mulr Hs0 Hs0 3.1 1 Hs2. fold rs2 in Hs2. mulr Hs2 Hs0 5.2 1 Hs3. fold rs3 in Hs3.
  pose proof ra2_b as B2. pose proof ra0_b as B0. pose proof ra3_b as B3.
  assert (P2 : 0 < R0 * R0) by (apply Rmult_lt_0_compat; lra). assert (P3 : 0 < R0 * R0 * R0) by (apply Rmult_lt_0_compat; lra).
  assert (Ha2 : er (Fadd (Fmul (Fmul ecF pnF) (Fmul ecF pnF)) (Fmul s0F s0F)) ra2 15.9 1 0 2).
  { pose proof (er_shift N R0 HN HR _ _ _ _ 0 0 2 Hc2 ltac:(lia)) as Q. cbn [Nat.add] in Q. apply (er_add N R0 HN HR _ _ _ _ _ _ _ _ 0 2 15.9 1 Q Hs2); try lra.
    fold ra2. rewrite M02, Rabs_pos_eq by nra. lra. }
  assert (Ha0 : er (Fsqrt (Fadd (Fmul (Fmul ecF pnF) (Fmul ecF pnF)) (Fmul s0F s0F))) ra0 9.1 1 0 1).
  { unfold ra0. apply (er_sqrt N R0 HN HR _ _ 15.9 1 0 1 9.1 1 0.9966 Ha2); try lra. cbn [Nat.add]. rewrite M02.
    eapply Rle_trans; [|exact (proj1 B2)]. apply Rmult_le_compat_r; [lra|]. apply Rmult_le_compat; lra. }
  mulr Ha2 Ha0 26.1 1 Ha3. fold ra3 in Ha3.
  set (zcF := Fmul ecF s0F) in *. set (c0F := Fmul ecF pnF) in *. set (c2F := Fmul c0F c0F) in *. set (c3F := Fmul c2F c0F) in *.
  set (s2F := Fmul s0F s0F) in *. set (s3F := Fmul s2F s0F) in *. set (a2F := Fadd c2F s2F) in *. set (a0F := Fsqrt a2F) in *. set (a3F := Fmul a2F a0F) in *.
  clearbody a3F a0F a2F s3F s2F c3F c2F c0F zcF.
  mulr Hzc Ha3 30.3 1 Hx1. mulr HG Hs3 0.05 0.0067 Hx2.
  pose proof (er_up N R0 HN HR _ _ _ _ _ _ Hx2 ltac:(lia) ltac:(lra)) as Hx3.
  assert (Hd0 : er (Fadd (Fmul zcF a3F) (Fmul e2F s3F)) rd0 31.4 1.01 0 4).
  { apply (er_add N R0 HN HR _ _ _ _ _ _ _ _ 0 4 31.4 1.01 Hx1 Hx3); try lra. fold rd0. pose proof rd0_b as D. rewrite M04.
    assert (0 <= S * (R0 * R0 * R0)) by (apply Rmult_le_pos; lra). rewrite Rabs_pos_eq by lra.
    assert (S * (R0 * R0 * R0) <= R0 * (R0 * R0 * R0)) by (apply Rmult_le_compat_r; lra). lra. }
  mulr Hpn Ha3 30.4 1 Hy1. mulr HG Hc3 0.14 0.0067 Hy2.
  pose proof (er_shift N R0 HN HR _ _ _ _ 1 0 2 Hy2 ltac:(lia)) as Hy3. cbn [Nat.add] in Hy3.
  pose proof (er_up N R0 HN HR _ _ _ _ _ _ Hy3 ltac:(lia) ltac:(lra)) as Hy4.
  assert (Hf0 : er (Fsub (Fmul pnF a3F) (Fmul e2F c3F)) rf0 31.6 1 1 3).
  { apply (er_sub N R0 HN HR _ _ _ _ _ _ _ _ 1 3 31.6 1 Hy1 Hy4); try lra. fold rf0. pose proof rf0_b as D. rewrite M13.
    assert (0 <= N * (R0 * R0 * R0)) by (apply Rmult_le_pos; lra). rewrite Rabs_pos_eq by lra. lra. }
  set (d0F := Fadd (Fmul zcF a3F) (Fmul e2F s3F)) in *. set (f0F := Fsub (Fmul pnF a3F) (Fmul e2F c3F)) in *. clearbody d0F f0F.
  clear Hx1 Hx2 Hx3 Hy1 Hy2 Hy3 Hy4.
  mulr HT Hs2 0.00036 0.000068 Hb1. mulr Hb1 Hc2 0.0013 0.000068 Hb2. mulr Hb2 Hpn 0.0016 0.000068 Hb3.
  pose proof (er_up N R0 HN HR _ _ _ _ _ _ HE ltac:(lia) ltac:(lra)) as HE1.
  assert (Hb4 : er (Fsub a0F ecF) (ra0 - kE) 11.3 1 0 1).
  { apply (er_sub N R0 HN HR _ _ _ _ _ _ _ _ 0 1 11.3 1 Ha0 HE1); try lra. rewrite M01. apply Rabs_le. nra. }
  mulr Hb3 Hb4 0.0025 0.000068 Hb0. fold rb0 in Hb0.
  set (b0F := Fmul (Fmul (Fmul (Fmul e4F s2F) c2F) pnF) (Fsub a0F ecF)) in *. clearbody b0F.
  mulr Hd0 Hf0 64.5 1.01 Hu1. mulr Hb0 Hs0 0.0027 0.000068 Hu2.
  pose proof (er_shift N R0 HN HR _ _ _ _ 1 4 2 Hu2 ltac:(lia)) as Hu3. cbn [Nat.add] in Hu3.
  pose proof (er_up N R0 HN HR _ _ _ _ _ _ Hu3 ltac:(lia) ltac:(lra)) as Hu4.
  set (q := R0 * R0 * R0 * (R0 * R0 * R0)) in *. assert (Q : 0 < q) by (apply Rmult_lt_0_compat; exact P3).
  assert (NQ : 0 < N * q) by (apply Rmult_lt_0_compat; assumption).
  split.
  - apply (er_sub N R0 HN HR _ _ _ _ _ _ _ _ 1 7 65.7 1.02 Hu1 Hu4); try lra. fold rs1. pose proof rs1_b as D. fold q in D. rewrite M17.
    assert (0 <= S * N * q <= R0 * (N * q)) by (split; [rewrite Rmult_assoc; apply Rmult_le_pos; lra|rewrite Rmult_assoc; apply Rmult_le_compat_r; lra]).
    rewrite Rabs_pos_eq by lra. lra.
  - mulr Hf0 Hf0 64.3 1 Hw1. mulr Hb0 Hc0 0.003 0.000068 Hw2.
    pose proof (er_shift N R0 HN HR _ _ _ _ 2 3 2 Hw2 ltac:(lia)) as Hw3. cbn [Nat.add] in Hw3.
    pose proof (er_up N R0 HN HR _ _ _ _ _ _ Hw3 ltac:(lia) ltac:(lra)) as Hw4.
    assert (Hw5 : er (Fsub (Fmul f0F f0F) (Fmul b0F c0F)) (rf0 * rf0 - rb0 * rc0) 65.4 1.01 2 6).
    { apply (er_sub N R0 HN HR _ _ _ _ _ _ _ _ 2 6 65.4 1.01 Hw1 Hw4); try lra. rewrite M26.
      pose proof rcc_b as D. unfold rcc in D. fold q in D. set (w := rf0 * rf0 - rb0 * rc0) in *. clearbody w.
      assert (W : 0 < N * N * q) by (rewrite Rmult_assoc; apply Rmult_lt_0_compat; lra). set (W0 := N * N * q) in *. clearbody W0.
      assert (0 <= w) by nra. rewrite Rabs_pos_eq by assumption. nra. }
    mulr HE Hw5 67.4 1.01 Hcc. exact Hcc.
Qed.

Lemma M1726 : M 2 6 <= M 1 7.
Proof. exact (M_shift N R0 HN HR 1 6 1). Qed.
Lemma rs1_M : 0 <= rs1 <= 1.005 * M 1 7.
Proof.
  pose proof rs1_b as D. destruct M_eqs as (_ & _ & _ & _ & _ & _ & _ & M17 & _). rewrite M17. pose proof n_pos as NP. pose proof SR as SR.
  set (q := R0 * R0 * R0 * (R0 * R0 * R0)) in *. assert (Q : 0 < q) by (unfold q; repeat apply Rmult_lt_0_compat; lra).
  assert (0 <= S * N * q <= R0 * (N * q)) by (rewrite Rmult_assoc; assert (0 < N * q) by (apply Rmult_lt_0_compat; lra); split; [apply Rmult_le_pos; lra|apply Rmult_le_compat_r; lra]). lra.
Qed.
Lemma rcc_M : 0.96 * M 2 6 <= rcc <= M 2 6.
Proof. destruct M_eqs as (_ & _ & _ & _ & _ & _ & _ & _ & M26). rewrite M26. apply rcc_b. Qed.
Lemma rv_M : 0.92 * (M 1 7 * M 1 7) <= rs1 * rs1 + rcc * rcc.
Proof.
  pose proof rv_b as D. destruct M_eqs as (_ & _ & _ & _ & _ & _ & _ & M17 & _). rewrite M17. eapply Rle_trans; [|exact D]. apply Req_le. ring.
Qed.

Lemma atan_F : forall s c : b64, er s rs1 65.7 1.02 1 7 -> er c rcc 67.4 1.01 2 6 ->
  Rabs (atan (B2R s / B2R c) - atan (rs1 / rcc)) <= 145.5 * U.
Proof.
  intros s c (Fs & Es & _ & _) (Fc & Ec & _ & _). pose proof rs1_M as HS1. pose proof rcc_M as HC1. pose proof rv_M as HV. pose proof M1726 as MM.
  pose proof (M_pos N R0 HN HR 2 6) as P26. pose proof (M_pos N R0 HN HR 1 7) as P17. pose proof U_pos as UP.
  pose proof (M_low N R0 HN HR 2 6 ltac:(lia) ltac:(lia)) as L26. pose proof (M_high N R0 HN HR 1 7 ltac:(lia) ltac:(lia)) as H17.
  set (m := M 1 7) in *. set (n := M 2 6) in *. clearbody m n.
  assert (CB : 0.95 * n <= B2R c).
  { apply Rabs_le_inv in Ec. assert (67.4 * U * n <= 0.01 * n) by (apply Rmult_le_compat_r; lra). lra. }
  assert (CN : B2R c <> 0) by lra.
  assert (MN : n * n <= m * m) by (apply Rmult_le_compat; lra). assert (MM0 : 0 < m * m) by (apply Rmult_lt_0_compat; lra).
  assert (D1 : Rabs ((B2R s - rs1) * rs1) <= 0.0001 * (m * m)).
  { rewrite Rabs_mult, (Rabs_pos_eq rs1) by lra. apply Rle_trans with (65.7 * U * m * (1.005 * m)); [apply Rmult_le_compat; try apply Rabs_pos; lra|].
    replace (65.7 * U * m * (1.005 * m)) with (65.7 * 1.005 * U * (m * m)) by ring. apply Rmult_le_compat_r; lra. }
  assert (D2 : Rabs ((B2R c - rcc) * rcc) <= 0.0001 * (m * m)).
  { rewrite Rabs_mult, (Rabs_pos_eq rcc) by lra. apply Rle_trans with (67.4 * U * n * n); [apply Rmult_le_compat; try apply Rabs_pos; lra|].
    apply Rle_trans with (67.4 * U * (n * n)); [lra|]. apply Rle_trans with (0.0001 * (n * n)); [|lra]. apply Rmult_le_compat_r; [apply Rle_0_sqr|lra]. }
  assert (DD : 0.919 * (m * m) <= B2R s * rs1 + B2R c * rcc).
  { apply Rabs_le_inv in D1. apply Rabs_le_inv in D2.
    replace (B2R s * rs1 + B2R c * rcc) with ((rs1 * rs1 + rcc * rcc) + (B2R s - rs1) * rs1 + (B2R c - rcc) * rcc) by ring. lra. }
  pose proof (atan_close (B2R s) (B2R c) rs1 rcc ltac:(lra) ltac:(lra) ltac:(lra)) as AC.
  assert (NN : Rabs (B2R s * rcc - rs1 * B2R c) <= 133.5 * U * (m * m)).
  { replace (B2R s * rcc - rs1 * B2R c) with ((B2R s - rs1) * rcc - rs1 * (B2R c - rcc)) by ring.
    eapply Rle_trans; [apply Rabs_triang|]. rewrite Rabs_Ropp, !Rabs_mult, (Rabs_pos_eq rcc), (Rabs_pos_eq rs1) by lra.
    assert (X1 : Rabs (B2R s - rs1) * rcc <= 65.7 * U * m * m) by (apply Rmult_le_compat; try apply Rabs_pos; lra).
    assert (X2 : rs1 * Rabs (B2R c - rcc) <= 1.005 * m * (67.4 * U * m)).
    { apply Rmult_le_compat; try apply Rabs_pos; try lra. eapply Rle_trans; [exact Ec|]. apply Rmult_le_compat_l; [lra|exact MM]. }
    assert (0 <= U * (m * m)) by (apply Rmult_le_pos; lra). lra. }
  assert (FQ : Rabs (B2R s * rcc - rs1 * B2R c) / (B2R s * rs1 + B2R c * rcc) <= 145.5 * U).
  { apply div_le; [lra|]. eapply Rle_trans; [exact NN|]. apply Rle_trans with (145.5 * U * (0.919 * (m * m))).
    - assert (0 <= U * (m * m)) by (apply Rmult_le_pos; lra). lra.
    - apply Rmult_le_compat_l; lra. }
  lra.
Qed.

Lemma M17_high : M 1 7 <= bpow radix2 80.
Proof.
  unfold L_Rel.M. pose proof n_pos as NP. replace (bpow radix2 80) with (1024 ^ 1 * 1024 ^ 7) by (change (bpow radix2 80) with 1208925819614629174706176; lra).
  apply Rmult_le_compat; try (apply pow_le; lra); apply pow_incr; lra.
Qed.
Lemma phi_F : forall s c : b64, er s rs1 65.7 1.02 1 7 -> er c rcc 67.4 1.01 2 6 ->
  fin (Fdiv s c) = true /\ Rabs (atan (B2R (Fdiv s c)) - atan (rs1 / rcc)) <= 147 * U.
Proof.
  intros s c Hs Hc. pose proof Hs as (Fs & Es & _ & _). pose proof Hc as (Fc & Ec & _ & _). pose proof rs1_M as HS1. pose proof rcc_M as HC1. pose proof rv_M as HV. pose proof M1726 as MM.
  pose proof (M_pos N R0 HN HR 2 6) as P26. pose proof (M_pos N R0 HN HR 1 7) as P17. pose proof U_pos as UP.
  pose proof (M_low N R0 HN HR 2 6 ltac:(lia) ltac:(lia)) as L26. pose proof M17_high as H17.
  set (m := M 1 7) in *. set (n := M 2 6) in *. clearbody m n.
  assert (CB : 0.95 * n <= B2R c).
  { apply Rabs_le_inv in Ec. assert (67.4 * U * n <= 0.01 * n) by (apply Rmult_le_compat_r; lra). lra. }
  assert (CN : B2R c <> 0) by lra.
  assert (SB : Rabs (B2R s) <= 1.02 * m).
  { replace (B2R s) with ((B2R s - rs1) + rs1) by ring. eapply Rle_trans; [apply Rabs_triang|]. rewrite (Rabs_pos_eq rs1) by lra.
    assert (65.7 * U * m <= 0.01 * m) by (apply Rmult_le_compat_r; lra). lra. }
  destruct (Fdiv_ok s c Fs CN) as [ED FD].
  { apply (small_le _ 1000); [lia|]. unfold Rdiv. rewrite Rabs_mult, Rabs_inv, (Rabs_pos_eq (B2R c)) by lra.
    apply Rle_trans with (bpow radix2 120 * bpow radix2 720); [|rewrite <- bpow_plus; apply bpow_le; lia].
    assert (T1 : 2 * bpow radix2 80 <= bpow radix2 120) by (change 2 with (bpow radix2 1); rewrite <- bpow_plus; apply bpow_le; lia).
    apply Rmult_le_compat; [apply Rabs_pos|left; apply Rinv_0_lt_compat; lra|lra|].
    apply Rle_trans with (/ bpow radix2 (-720)); [|rewrite <- bpow_opp; apply Rle_refl].
    apply Rinv_le; [apply bpow_gt_0|]. apply Rle_trans with (0.5 * bpow radix2 (-700)); [|lra].
    replace 0.5 with (bpow radix2 (-1)) by (change (bpow radix2 (-1)) with (/ 2); lra). rewrite <- bpow_plus. apply bpow_le. lia. }
  split; [exact FD|]. rewrite ED.
  replace (atan (rnd (B2R s / B2R c)) - atan (rs1 / rcc)) with ((atan (rnd (B2R s / B2R c)) - atan (B2R s / B2R c)) + (atan (B2R s / B2R c) - atan (rs1 / rcc))) by ring.
  eapply Rle_trans; [apply Rabs_triang|]. pose proof (atan_rnd (B2R s / B2R c)) as AR. pose proof (atan_F s c Hs Hc). lra.
Qed.

Lemma M18_eq : M 1 8 = R0 * M 1 7.
Proof. replace R0 with (M 0 1) at 2 by (unfold M; ring). rewrite (M_mul N R0). reflexivity. Qed.
Lemma rs_sum : 0 <= N * rcc + S * rs1 <= 1.005 * M 1 8.
Proof.
  pose proof rs1_b as D. pose proof rcc_b as D2. rewrite M18_eq. destruct M_eqs as (_ & _ & _ & _ & _ & _ & _ & M17 & _). rewrite M17. pose proof n_pos as NP. pose proof SR as SR.
  set (q := R0 * R0 * R0 * (R0 * R0 * R0)) in *. assert (Q : 0 < q) by (unfold q; repeat apply Rmult_lt_0_compat; lra). clearbody q.
  assert (X1 : N * rcc <= N * (N * N * q)) by (apply Rmult_le_compat_l; lra).
  assert (X2 : S * rs1 <= S * (1.005 * (S * N * q))) by (apply Rmult_le_compat_l; lra).
  assert (NQ : 0 < N * q) by (apply Rmult_lt_0_compat; lra).
  assert (X3 : 0 <= N * N * (N * q)) by (apply Rmult_le_pos; [apply Rle_0_sqr|lra]).
  assert (X5 : 0 <= N * N * q) by (apply Rmult_le_pos; [apply Rle_0_sqr|lra]).
  assert (X6 : 0 <= S * N * q) by (rewrite Rmult_assoc; apply Rmult_le_pos; lra).
  split; [apply Rplus_le_le_0_compat; apply Rmult_le_pos; lra|]. apply Rle_trans with (1.005 * ((N * N + S * S) * (N * q))); [lra|]. rewrite NS. apply Req_le. ring.
Qed.
Lemma rv_up : rs1 * rs1 + rcc * rcc <= 1.0101 * (M 1 7 * M 1 7).
Proof.
  pose proof rs1_b as D. pose proof rcc_b as D2. destruct M_eqs as (_ & _ & _ & _ & _ & _ & _ & M17 & _). rewrite M17. pose proof n_pos as NP. pose proof SR as SR.
  set (q := R0 * R0 * R0 * (R0 * R0 * R0)) in *. assert (Q : 0 < q) by (unfold q; repeat apply Rmult_lt_0_compat; lra). clearbody q.
  assert (X5 : 0 <= N * N * q) by (apply Rmult_le_pos; [apply Rle_0_sqr|lra]).
  assert (X6 : 0 <= S * N * q) by (repeat apply Rmult_le_pos; lra).
  assert (X1 : rs1 * rs1 <= 1.005 * (S * N * q) * (1.005 * (S * N * q))) by (apply Rmult_le_compat; lra).
  assert (X2 : rcc * rcc <= N * N * q * (N * N * q)) by (apply Rmult_le_compat; lra).
  assert (X3 : 0 <= N * N * q * (N * N * q)) by (apply Rle_0_sqr).
  assert (X7 : 0 <= S * N * q * (S * N * q)) by (apply Rle_0_sqr).
  apply Rle_trans with (1.0101 * ((R0 * R0) * (N * q * (N * q)))); [|apply Req_le; ring]. rewrite <- NS.
  replace ((N * N + S * S) * (N * q * (N * q))) with (N * N * q * (N * N * q) + S * N * q * (S * N * q)) by ring. lra.
Qed.

(** What the numerator and the denominator of the computed tangent satisfy. *)
Lemma sc_facts : forall s c, Rabs (s - rs1) <= 65.7 * U * M 1 7 -> Rabs (c - rcc) <= 67.4 * U * M 2 6 ->
  Rabs s <= 1.006 * M 1 7 /\ 0.95 * M 2 6 <= c <= 1.001 * M 2 6 /\ 0.9199 * (M 1 7 * M 1 7) <= s * s + c * c <= 1.02 * (M 1 7 * M 1 7) /\
  - 0.001 * M 1 8 <= N * c + S * s <= 1.01 * M 1 8.
Proof.
  intros s c Es Ec. pose proof rs1_M as HS1. pose proof rcc_M as HC1. pose proof rv_M as HV. pose proof rv_up as HV2. pose proof M1726 as MM. pose proof rs_sum as HSS.
  rewrite M18_eq in *. pose proof SR as SR. pose proof n_pos as NP.
  pose proof (M_pos N R0 HN HR 2 6) as P26. pose proof (M_pos N R0 HN HR 1 7) as P17. pose proof U_pos as UP.
  set (m := M 1 7) in *. set (n := M 2 6) in *. clearbody m n.
  assert (Es2 : Rabs (s - rs1) <= 0.00001 * m) by (eapply Rle_trans; [exact Es|]; apply Rmult_le_compat_r; lra).
  assert (Ec2 : Rabs (c - rcc) <= 0.00001 * n) by (eapply Rle_trans; [exact Ec|]; apply Rmult_le_compat_r; lra).
  clear Es Ec. apply Rabs_le_inv in Es2. apply Rabs_le_inv in Ec2.
  assert (SA : Rabs s <= 1.006 * m) by (apply Rabs_le; lra). assert (CA : 0.95 * n <= c <= 1.001 * n) by lra.
  split; [exact SA|]. split; [exact CA|].
  assert (MN : n * n <= m * m) by (apply Rmult_le_compat; lra). assert (MM0 : 0 < m * m) by (apply Rmult_lt_0_compat; lra).
  assert (D1 : Rabs ((s - rs1) * (s + rs1)) <= 0.00003 * (m * m)).
  { rewrite Rabs_mult. apply Rle_trans with (0.00001 * m * (2.1 * m)); [|lra]. apply Rmult_le_compat; try apply Rabs_pos; apply Rabs_le; lra. }
  assert (D2 : Rabs ((c - rcc) * (c + rcc)) <= 0.00003 * (m * m)).
  { rewrite Rabs_mult. apply Rle_trans with (0.00001 * n * (2.1 * n)); [|lra]. apply Rmult_le_compat; try apply Rabs_pos; apply Rabs_le; lra. }
  apply Rabs_le_inv in D1. apply Rabs_le_inv in D2.
  split; [replace (s * s + c * c) with ((rs1 * rs1 + rcc * rcc) + (s - rs1) * (s + rs1) + (c - rcc) * (c + rcc)) by ring; lra|].
  replace (N * c + S * s) with ((N * rcc + S * rs1) + (N * (c - rcc) + S * (s - rs1))) by ring.
  assert (D3 : Rabs (N * (c - rcc)) <= R0 * (0.00001 * m)).
  { rewrite Rabs_mult, (Rabs_pos_eq N) by lra. apply Rmult_le_compat; try apply Rabs_pos; try lra. apply Rabs_le. lra. }
  assert (D4 : Rabs (S * (s - rs1)) <= R0 * (0.00001 * m)).
  { rewrite Rabs_mult, (Rabs_pos_eq S) by lra. apply Rmult_le_compat; try apply Rabs_pos; try lra. apply Rabs_le. lra. }
  apply Rabs_le_inv in D3. apply Rabs_le_inv in D4. assert (0 < R0 * m) by (apply Rmult_lt_0_compat; lra). lra.
Qed.

Definition rH (s c : R) : R := (N * c + S * s - sqrt (kE * kE * (s * s) + c * c)) / sqrt (s * s + c * c).
Definition h_e (a ec2 p z s c : b64) : b64 :=
  Fdiv (Fsub (Fadd (Fmul p c) (Fmul z s)) (Fmul a (Fsqrt (Fadd (Fmul ec2 (Fmul s s)) (Fmul c c))))) (Fsqrt (Fadd (Fmul s s) (Fmul c c))).

Lemma rH_range : forall s c, 0 < s * s + c * c -> - 0.002 * (R0 * sqrt (s * s + c * c)) <= N * c + S * s -> Rabs (rH s c) <= 1.12 * R0.
Proof.
  intros s c P LO. unfold rH. destruct k_bounds as (BE & _). set (v := s * s + c * c) in *. assert (V : 0 < sqrt v) by (apply sqrt_lt_R0; exact P).
  assert (VV : sqrt v * sqrt v = v) by (apply sqrt_sqrt; lra).
  assert (K2 : 0.99 <= kE * kE <= 1) by nra.
  pose proof (Rle_0_sqr s) as S2. unfold Rsqr in S2. pose proof (Rle_0_sqr c) as C2. unfold Rsqr in C2.
  assert (G : 0 <= kE * kE * (s * s) + c * c <= v).
  { set (k := kE * kE) in *. set (s2 := s * s) in *. set (c2 := c * c) in *. clearbody k s2 c2. unfold v. split; [nra|nra]. }
  assert (G1 : 0 <= sqrt (kE * kE * (s * s) + c * c) <= sqrt v) by (split; [apply sqrt_pos|apply sqrt_le_1; lra]).
  assert (CS : Rabs (N * c + S * s) <= R0 * sqrt v).
  { apply Rabs_le. assert (Q : (N * c + S * s) * (N * c + S * s) <= (R0 * sqrt v) * (R0 * sqrt v)).
    { replace (R0 * sqrt v * (R0 * sqrt v)) with ((R0 * R0) * (sqrt v * sqrt v)) by ring. rewrite VV, <- NS. unfold v.
      assert (0 <= (N * s - S * c) * (N * s - S * c)) by apply Rle_0_sqr. lra. }
    assert (0 <= R0 * sqrt v) by (apply Rmult_le_pos; lra). set (A := N * c + S * s) in *. set (B := R0 * sqrt v) in *. clearbody A B. split; nra. }
  unfold Rdiv. rewrite Rabs_mult, Rabs_inv, (Rabs_pos_eq (sqrt v)) by lra.
  apply div_le; [exact V|]. apply Rabs_le_inv in CS.
  assert (0.9 * sqrt v <= R0 * sqrt v) by (apply Rmult_le_compat_r; lra).
  assert (0 <= R0 * sqrt v) by (apply Rmult_le_pos; lra). apply Rabs_le. set (g := sqrt (kE * kE * (s * s) + c * c)) in *. clearbody g. lra.
Qed.

Lemma h_F : forall a ec2 p z s c : b64, close a 6378137 0 -> close ec2 (kE * kE) 0.5 ->
  er p (6378137 * N) (2.1 * 6378137) 6378137 1 0 -> er z (6378137 * S) 0 6378137 0 1 ->
  er s rs1 65.7 1.02 1 7 -> er c rcc 67.4 1.01 2 6 ->
  er (h_e a ec2 p z s c) (6378137 * rH (B2R s) (B2R c)) (16 * 6378137) (1.12 * 6378137) 0 1.
Proof.
  intros a ec2 p z s c Ha He Hp Hz Hs0 Hc0. destruct k_bounds as (BE & _).
  assert (K2 : 0.9932 <= kE * kE <= 0.99342) by nra.
  assert (HA : er a 6378137 0 6378137 0 0) by (apply (close_er _ _ _ _ _ Ha); rewrite ?Rabs_pos_eq; lra).
  assert (HE : er ec2 (kE * kE) 0.5 0.99342 0 0) by (apply (close_er _ _ _ _ _ He); rewrite ?Rabs_pos_eq; lra).
  destruct (sc_facts (B2R s) (B2R c) (proj1 (proj2 Hs0)) (proj1 (proj2 Hc0))) as (SA & CA & VA & NA).
  pose proof (M_pos N R0 HN HR 2 6) as P26. pose proof (M_pos N R0 HN HR 1 7) as P17. pose proof (M_pos N R0 HN HR 1 8) as P18.
  assert (Hs : er s (B2R s) 0 1.006 1 7) by (apply er_exact; [apply Hs0|reflexivity|exact SA|lra|lia|lia]).
  assert (Hc : er c (B2R c) 0 1.001 2 6) by (apply er_exact; [apply Hc0|reflexivity|apply Rabs_le; lra|lra|lia|lia]).
  assert (M214 : M 2 14 = M 1 7 * M 1 7) by (rewrite (M_mul N R0); reflexivity). rewrite <- M214 in VA.
  assert (M18U : M 1 7 <= 10 / 9 * M 1 8) by (apply (M_up N R0 HN HR)).
  pose proof (M_pos N R0 HN HR 2 14) as P214. clear Hs0 Hc0 Ha He. unfold h_e.
  set (sr := B2R s) in *. set (cr := B2R c) in *. clearbody sr cr.
  mulr Hp Hc (3.2 * 6378137) (1.001 * 6378137) H1. pose proof (er_shift N R0 HN HR _ _ _ _ 1 6 2 H1 ltac:(lia)) as H1'. cbn [Nat.add] in H1'.
  mulr Hz Hs (1.01 * 6378137) (1.006 * 6378137) H2.
  assert (H3 : er (Fadd (Fmul p c) (Fmul z s)) (6378137 * N * cr + 6378137 * S * sr) (5.23 * 6378137) (1.01 * 6378137) 1 8).
  { apply (er_add N R0 HN HR _ _ _ _ _ _ _ _ 1 8 (5.23 * 6378137) (1.01 * 6378137) H1' H2); try lra.
    replace (6378137 * N * cr + 6378137 * S * sr) with (6378137 * (N * cr + S * sr)) by ring. rewrite Rabs_mult, Rabs_pos_eq by lra.
    rewrite (Rmult_comm 1.01), Rmult_assoc. apply Rmult_le_compat_l; [lra|]. apply Rabs_le. lra. }
  mulr Hs Hs 1.02 1.013 H4. mulr HE H4 2.54 1.007 H5. mulr Hc Hc 1.006 1.003 H6.
  pose proof (er_shift N R0 HN HR _ _ _ _ 2 12 2 H6 ltac:(lia)) as H6'. cbn [Nat.add] in H6'.
  pose proof (Rle_0_sqr sr) as S2. pose proof (Rle_0_sqr cr) as C2. unfold Rsqr in S2, C2.
  assert (G : 0.9136 * M 2 14 <= kE * kE * (sr * sr) + cr * cr <= 1.02 * M 2 14).
  { set (k := kE * kE) in *. set (s2 := sr * sr) in *. set (c2 := cr * cr) in *. clearbody k s2 c2. split; [apply Rle_trans with (0.9932 * (s2 + c2)); nra|nra]. }
  assert (H7 : er (Fadd (Fmul ec2 (Fmul s s)) (Fmul c c)) (kE * kE * (sr * sr) + cr * cr) 4.57 1.02 2 14).
  { apply (er_add N R0 HN HR _ _ _ _ _ _ _ _ 2 14 4.57 1.02 H5 H6'); try lra. rewrite Rabs_pos_eq; lra. }
  assert (H8 : er (Fadd (Fmul s s) (Fmul c c)) (sr * sr + cr * cr) 3.05 1.02 2 14).
  { apply (er_add N R0 HN HR _ _ _ _ _ _ _ _ 2 14 3.05 1.02 H4 H6'); try lra. rewrite Rabs_pos_eq; lra. }
  assert (H9 : er (Fsqrt (Fadd (Fmul ec2 (Fmul s s)) (Fmul c c))) (sqrt (kE * kE * (sr * sr) + cr * cr)) 3.42 1.01 1 7).
  { apply (er_sqrt N R0 HN HR _ _ 4.57 1.02 1 7 3.42 1.01 0.955 H7); try lra. cbn [Nat.add]. lra. }
  assert (H10 : er (Fsqrt (Fadd (Fmul s s) (Fmul c c))) (sqrt (sr * sr + cr * cr)) 2.62 1.01 1 7).
  { apply (er_sqrt N R0 HN HR _ _ 3.05 1.02 1 7 2.62 1.01 0.959 H8); try lra. cbn [Nat.add]. lra. }
  mulr HA H9 (4.44 * 6378137) (1.01 * 6378137) H11. pose proof (er_up N R0 HN HR _ _ _ _ _ _ H11 ltac:(lia) ltac:(lra)) as H12.
  set (g := sqrt (kE * kE * (sr * sr) + cr * cr)) in *. set (v := sr * sr + cr * cr) in *.
  assert (GB : 0 <= g <= 1.01 * M 1 7).
  { split; [apply sqrt_pos|]. unfold g. rewrite <- (sqrt_square (1.01 * M 1 7)) by lra. apply sqrt_le_1; lra. }
  assert (VB : 0.959 * M 1 7 <= sqrt v).
  { rewrite <- (sqrt_square (0.959 * M 1 7)) by lra. apply sqrt_le_1; lra. }
  assert (H13 : er (Fsub (Fadd (Fmul p c) (Fmul z s)) (Fmul a (Fsqrt (Fadd (Fmul ec2 (Fmul s s)) (Fmul c c))))) (6378137 * N * cr + 6378137 * S * sr - 6378137 * g)
    (11.3 * 6378137) (1.13 * 6378137) 1 8).
  { apply (er_sub N R0 HN HR _ _ _ _ _ _ _ _ 1 8 _ _ H3 H12); try lra.
    replace (6378137 * N * cr + 6378137 * S * sr - 6378137 * g) with (6378137 * (N * cr + S * sr - g)) by ring. rewrite Rabs_mult, (Rabs_pos_eq 6378137) by lra.
    rewrite (Rmult_comm 1.13), Rmult_assoc. apply Rmult_le_compat_l; [lra|]. apply Rabs_le. lra. }
  replace (6378137 * rH sr cr) with ((6378137 * N * cr + 6378137 * S * sr - 6378137 * g) / sqrt v) by (unfold rH; fold g v; field; lra).
  apply (er_div N R0 HN HR _ _ (11.3 * 6378137) (1.13 * 6378137) 0 1 _ _ 2.62 1.01 1 7 _ _ 0.959 H13 H10); try lra.
  { rewrite Rabs_pos_eq by lra. exact VB. }
  replace ((6378137 * N * cr + 6378137 * S * sr - 6378137 * g) / sqrt v) with (6378137 * rH sr cr) by (unfold rH; fold g v; field; lra).
  rewrite Rabs_mult, (Rabs_pos_eq 6378137) by lra. rewrite (Rmult_comm 1.12), Rmult_assoc. apply Rmult_le_compat_l; [lra|].
  destruct M_eqs as (_ & M01 & _). rewrite M01. apply rH_range; fold v; [lra|]. rewrite M18_eq in NA, P18.
  assert (R0 * (0.959 * M 1 7) <= R0 * sqrt v) by (apply Rmult_le_compat_l; lra). lra.
Qed.

(** The height as a function of the latitude. *)
Definition hang (t : R) : R := N * cos t + S * sin t - sqrt (kE * kE * (sin t * sin t) + cos t * cos t).
Lemma polar_atan : forall s c, 0 < c -> s = sqrt (s * s + c * c) * sin (atan (s / c)) /\ c = sqrt (s * s + c * c) * cos (atan (s / c)).
Proof.
  intros s c C. rewrite sin_atan, cos_atan. unfold Rsqr. set (v := s * s + c * c).
  assert (V : 0 < v) by (unfold v; pose proof (Rle_0_sqr s); unfold Rsqr in *; nra).
  assert (E : sqrt (1 + s / c * (s / c)) = sqrt v / c).
  { replace (1 + s / c * (s / c)) with ((sqrt v / c) * (sqrt v / c)).
    - apply sqrt_square. apply Rlt_le, Rdiv_lt_0_compat; [apply sqrt_lt_R0|]; assumption.
    - transitivity (sqrt v * sqrt v / (c * c)); [field; lra|]. rewrite sqrt_sqrt by lra. unfold v. field. lra. }
  rewrite E. pose proof (sqrt_lt_R0 v V). split; field; lra.
Qed.
Lemma rH_hang : forall s c, 0 < c -> rH s c = hang (atan (s / c)).
Proof.
  intros s c C. destruct (polar_atan s c C) as [ES EC]. unfold rH, hang. set (t := atan (s / c)) in *. set (m := sqrt (s * s + c * c)) in *.
  assert (M0 : 0 < m) by (apply sqrt_lt_R0; pose proof (Rle_0_sqr s); unfold Rsqr in *; nra). clearbody t m. subst s c.
  assert (SM : sqrt (kE * kE * (m * sin t * (m * sin t)) + m * cos t * (m * cos t)) = m * sqrt (kE * kE * (sin t * sin t) + cos t * cos t)).
  { replace (kE * kE * (m * sin t * (m * sin t)) + m * cos t * (m * cos t)) with (m * m * (kE * kE * (sin t * sin t) + cos t * cos t)) by ring.
    rewrite sqrt_mult_alt by apply Rle_0_sqr. rewrite sqrt_square by lra. reflexivity. }
  rewrite SM. field. lra.
Qed.
Lemma g_range : forall t, 0.99 <= sqrt (kE * kE * (sin t * sin t) + cos t * cos t) <= 1.
Proof.
  intros t. destruct k_bounds as (BE & _). pose proof (sc1 t) as E. pose proof (Rle_0_sqr (sin t)) as A. pose proof (Rle_0_sqr (cos t)) as B. unfold Rsqr in A, B.
  set (s2 := sin t * sin t) in *. set (c2 := cos t * cos t) in *. clearbody s2 c2. assert (K2 : 0.99 <= kE * kE <= 1) by nra.
  set (k := kE * kE) in *. clearbody k. split.
  - rewrite <- (sqrt_square 0.99) by lra. apply sqrt_le_1; nra.
  - rewrite <- sqrt_1. apply sqrt_le_1; nra.
Qed.
Lemma hang_lip : forall t t', Rabs (hang t - hang t') <= Rabs (t - t') * (Rabs (S * cos t' - N * sin t') + 2 * R0 * Rabs (t - t') + 0.007).
Proof.
  intros t t'. unfold hang. set (g := sqrt (kE * kE * (sin t * sin t) + cos t * cos t)). set (g' := sqrt (kE * kE * (sin t' * sin t') + cos t' * cos t')).
  assert (G : 0.99 <= g <= 1) by apply g_range. assert (G' : 0.99 <= g' <= 1) by apply g_range.
  pose proof SR as SR. pose proof n_pos as NP. destruct k_bounds as (_ & BG & _).
  assert (GG : Rabs (g - g') <= 0.007 * Rabs (t - t')).
  { assert (E : (g - g') * (g + g') = - kG * ((sin t - sin t') * (sin t + sin t'))).
    { replace ((g - g') * (g + g')) with (g * g - g' * g') by ring. unfold g, g'.
      rewrite !sqrt_sqrt by (match goal with |- 0 <= kE * kE * (?a * ?a) + ?b * ?b => pose proof (Rle_0_sqr (kE * a)); pose proof (Rle_0_sqr b); unfold Rsqr in *; lra end).
      unfold kG. pose proof (sc1 t). pose proof (sc1 t').
      replace (cos t * cos t) with (1 - sin t * sin t) by lra. replace (cos t' * cos t') with (1 - sin t' * sin t') by lra. ring. }
    assert (E2 : Rabs (g - g') * (g + g') = kG * (Rabs (sin t - sin t') * Rabs (sin t + sin t'))).
    { rewrite <- (Rabs_pos_eq (g + g')) at 1 by lra. rewrite <- Rabs_mult, E, !Rabs_mult, Rabs_Ropp, (Rabs_pos_eq kG) by lra. reflexivity. }
    pose proof (L_Apx.sin_lip t t') as L. assert (L2 : Rabs (sin t + sin t') <= 2) by (apply Rabs_le; pose proof (SIN_bound t); pose proof (SIN_bound t'); lra).
    assert (L3 : Rabs (sin t - sin t') * Rabs (sin t + sin t') <= Rabs (t - t') * 2) by (apply Rmult_le_compat; try apply Rabs_pos; assumption).
    pose proof (Rabs_pos (g - g')). pose proof (Rabs_pos (t - t')). assert (Rabs (g - g') * 1.98 <= Rabs (g - g') * (g + g')) by (apply Rmult_le_compat_l; lra).
    assert (kG * (Rabs (sin t - sin t') * Rabs (sin t + sin t')) <= 0.0067 * (Rabs (t - t') * 2)) by (apply Rmult_le_compat; try lra; apply Rmult_le_pos; apply Rabs_pos).
    lra. }
  set (mm := (t + t') / 2). set (dl := (t - t') / 2).
  replace (N * cos t + S * sin t - g - (N * cos t' + S * sin t' - g')) with (2 * sin dl * (S * cos mm - N * sin mm) - (g - g')).
  2: { pose proof (form2 t t') as F2. pose proof (form4 t t') as F4. fold mm dl in F2, F4.
       replace (N * cos t + S * sin t - g - (N * cos t' + S * sin t' - g')) with (N * (cos t - cos t') + S * (sin t - sin t') - (g - g')) by ring. rewrite F2, F4. ring. }
  assert (D : Rabs (2 * sin dl) <= Rabs (t - t')).
  { rewrite Rabs_mult, (Rabs_pos_eq 2) by lra. pose proof (L_Apx.sin_lip dl 0) as L. rewrite sin_0, !Rminus_0_r in L. unfold dl in *.
    unfold Rdiv in L at 2. rewrite Rabs_mult, (Rabs_pos_eq (/ 2)) in L by lra. lra. }
  assert (DM : Rabs (mm - t') <= Rabs (t - t')).
  { replace (mm - t') with ((t - t') * / 2) by (unfold mm; field). rewrite Rabs_mult, (Rabs_pos_eq (/ 2)) by lra. pose proof (Rabs_pos (t - t')). lra. }
  assert (B : Rabs (S * cos mm - N * sin mm) <= Rabs (S * cos t' - N * sin t') + 2 * R0 * Rabs (t - t')).
  { replace (S * cos mm - N * sin mm) with ((S * cos t' - N * sin t') + (S * (cos mm - cos t') - N * (sin mm - sin t'))) by ring.
    eapply Rle_trans; [apply Rabs_triang|]. apply Rplus_le_compat_l. eapply Rle_trans; [apply Rabs_triang|].
    rewrite Rabs_Ropp, !Rabs_mult, (Rabs_pos_eq S), (Rabs_pos_eq N) by lra.
    pose proof (L_Apx.sin_lip mm t'). pose proof (L_Apx.cos_lip mm t'). pose proof (Rabs_pos (t - t')).
    assert (S * Rabs (cos mm - cos t') <= R0 * Rabs (t - t')) by (apply Rmult_le_compat; try apply Rabs_pos; lra).
    assert (N * Rabs (sin mm - sin t') <= R0 * Rabs (t - t')) by (apply Rmult_le_compat; try apply Rabs_pos; lra). lra. }
  eapply Rle_trans; [apply Rabs_triang|]. rewrite Rabs_Ropp, Rabs_mult.
  assert (Rabs (2 * sin dl) * Rabs (S * cos mm - N * sin mm) <= Rabs (t - t') * (Rabs (S * cos t' - N * sin t') + 2 * R0 * Rabs (t - t'))) by (apply Rmult_le_compat; try apply Rabs_pos; assumption).
  lra.
Qed.
Lemma rdir : Rabs (S * cos (atan (rs1 / rcc)) - N * sin (atan (rs1 / rcc))) <= 0.0236 * R0.
Proof.
  pose proof rs1_b as D. pose proof rcc_b as D2. pose proof n_pos as NP. pose proof SR as SR. pose proof rcc_M as CM. pose proof (M_pos N R0 HN HR 2 6) as P26.
  pose proof rv_M as RV. pose proof (M_pos N R0 HN HR 1 7) as P17.
  assert (C : 0 < rcc) by lra. destruct (polar_atan rs1 rcc C) as [ES EC]. set (t := atan (rs1 / rcc)) in *. set (m := sqrt (rs1 * rs1 + rcc * rcc)) in *.
  assert (MB : 0.959 * M 1 7 <= m).
  { unfold m. rewrite <- (sqrt_square (0.959 * M 1 7)) by lra. apply sqrt_le_1; pose proof (Rle_0_sqr (M 1 7)); unfold Rsqr in *; lra. }
  destruct M_eqs as (_ & _ & _ & _ & _ & _ & _ & M17 & _). rewrite M17 in *.
  set (q := R0 * R0 * R0 * (R0 * R0 * R0)) in *. assert (Q : 0 < q) by (unfold q; repeat apply Rmult_lt_0_compat; lra). clearbody q.
  assert (X : Rabs (S * rcc - N * rs1) <= 0.045 * (S * N * (N * q))).
  { assert (0.96 * (S * (N * N * q)) <= S * rcc <= S * (N * N * q)).
    { split; [|apply Rmult_le_compat_l; lra]. apply Rle_trans with (S * (0.96 * (N * N * q))); [lra|apply Rmult_le_compat_l; lra]. }
    assert (0.965 * (N * (S * N * q)) <= N * rs1 <= 1.005 * (N * (S * N * q))).
    { split; [apply Rle_trans with (N * (0.965 * (S * N * q)))|apply Rle_trans with (N * (1.005 * (S * N * q)))]; try lra; apply Rmult_le_compat_l; lra. }
    assert (0 <= S * N * (N * q)) by (repeat apply Rmult_le_pos; lra). apply Rabs_le. lra. }
  assert (SN : S * N <= R0 * R0 / 2) by (pose proof (Rle_0_sqr (S - N)) as W; unfold Rsqr in W; lra).
  assert (NQ : 0 < N * q) by (apply Rmult_lt_0_compat; lra).
  assert (X2 : Rabs (S * rcc - N * rs1) <= 0.0225 * (R0 * R0 * (N * q))).
  { eapply Rle_trans; [exact X|]. apply Rle_trans with (0.045 * (R0 * R0 / 2 * (N * q))); [|lra]. apply Rmult_le_compat_l; [lra|]. apply Rmult_le_compat_r; lra. }
  assert (E : Rabs (S * rcc - N * rs1) = m * Rabs (S * cos t - N * sin t)).
  { assert (M0 : 0 <= m) by apply sqrt_pos. rewrite <- (Rabs_pos_eq m) at 1 by exact M0. rewrite <- Rabs_mult. f_equal.
    transitivity (S * (m * cos t) - N * (m * sin t)); [rewrite <- ES, <- EC; reflexivity|ring]. }
  rewrite E in X2. apply (Rmult_le_reg_l m); [assert (0 < R0 * (N * q)) by (apply Rmult_lt_0_compat; lra); lra|].
  apply Rle_trans with (1 := X2). apply Rle_trans with (0.959 * (R0 * (N * q)) * (0.0236 * R0)); [|apply Rmult_le_compat_r; lra].
  assert (0 <= R0 * R0 * (N * q)) by (repeat apply Rmult_le_pos; lra). lra.
Qed.

(** The computed height, against the exact arithmetic's. *)
Lemma height_F : forall a ec2 p z s c : b64, close a 6378137 0 -> close ec2 (kE * kE) 0.5 ->
  er p (6378137 * N) (2.1 * 6378137) 6378137 1 0 -> er z (6378137 * S) 0 6378137 0 1 ->
  er s rs1 65.7 1.02 1 7 -> er c rcc 67.4 1.01 2 6 ->
  fin (h_e a ec2 p z s c) = true /\ Rabs (B2R (h_e a ec2 p z s c) - 6378137 * rH rs1 rcc) <= 6378137 * (20.8 * U * R0).
Proof.
  intros a ec2 p z s c Ha He Hp Hz Hs Hc. destruct (h_F a ec2 p z s c Ha He Hp Hz Hs Hc) as (F & E & _). split; [exact F|].
  set (h := B2R (h_e a ec2 p z s c)) in *. clearbody h. destruct M_eqs as (_ & M01 & _). rewrite M01 in E.
  pose proof (M_pos N R0 HN HR 2 6) as P26. pose proof rcc_M as CM. pose proof U_pos as UP.
  destruct (sc_facts (B2R s) (B2R c) (proj1 (proj2 Hs)) (proj1 (proj2 Hc))) as (_ & CA & _).
  rewrite (rH_hang rs1 rcc) by lra. rewrite (rH_hang (B2R s) (B2R c)) in E by lra.
  assert (D : Rabs (atan (B2R s / B2R c) - atan (rs1 / rcc)) <= 145.5 * U) by (apply atan_F; assumption).
  pose proof (hang_lip (atan (B2R s / B2R c)) (atan (rs1 / rcc))) as L. pose proof rdir as RD.
  set (t := atan (B2R s / B2R c)) in *. set (t' := atan (rs1 / rcc)) in *. clearbody t t'.
  assert (L2 : Rabs (hang t - hang t') <= 145.5 * U * (0.0236 * R0 + 0.001 * R0 + 0.0078 * R0)).
  { eapply Rle_trans; [exact L|]. apply Rmult_le_compat; [apply Rabs_pos| |exact D|].
    - pose proof (Rabs_pos (S * cos t' - N * sin t')). assert (0 <= 2 * R0 * Rabs (t - t')) by (apply Rmult_le_pos; [lra|apply Rabs_pos]). lra.
    - assert (2 * R0 * Rabs (t - t') <= 0.001 * R0). { apply Rle_trans with (2 * R0 * 0.0005); [|lra]. apply Rmult_le_compat_l; lra. } lra. }
  replace (h - 6378137 * hang t') with ((h - 6378137 * hang t) + 6378137 * (hang t - hang t')) by ring.
  eapply Rle_trans; [apply Rabs_triang|]. rewrite Rabs_mult, (Rabs_pos_eq 6378137) by lra.
  assert (0 <= U * R0) by (apply Rmult_le_pos; lra). lra.
Qed.

(** Near the axis the exact arithmetic's result is the pole's. *)
Lemma axis : N <= 11 / 10 ^ 17 -> 0 <= PI / 2 - atan (rs1 / rcc) <= 14 / 10 ^ 17 /\ Rabs (rH rs1 rcc - (S - kE)) <= 2 / 10 ^ 18.
Proof.
  intros HA. pose proof rs1_b as D. pose proof rcc_b as D2. pose proof n_pos as NP. pose proof SR as SR. pose proof rcc_M as CM. pose proof (M_pos N R0 HN HR 2 6) as P26.
  assert (C : 0 < rcc) by lra. clear CM P26.
  assert (S89 : 0.899 <= S) by (assert (N * N <= 0.001 * 0.001) by (apply Rmult_le_compat; lra); assert (0.9 * 0.9 <= R0 * R0) by (apply Rmult_le_compat; lra); nra).
  assert (RS : R0 - S <= 1 / 10 ^ 16). { assert ((R0 - S) * (R0 + S) = N * N) by (rewrite Rmult_comm; lra). assert (N * N <= 11 / 10 ^ 17 * 1) by (apply Rmult_le_compat; lra). nra. }
  set (q := R0 * R0 * R0 * (R0 * R0 * R0)) in *. assert (Q : 0 < q) by (unfold q; repeat apply Rmult_lt_0_compat; lra). clearbody q.
  assert (NQ : 0 < N * q) by (apply Rmult_lt_0_compat; lra).
  assert (S1 : 0.8675 * (N * q) <= rs1). { eapply Rle_trans; [|exact (proj1 D)]. apply Rle_trans with (0.965 * (0.899 * (N * q))); [lra|]. apply Rmult_le_compat_l; [lra|]. rewrite Rmult_assoc. apply Rmult_le_compat_r; lra. }
  assert (C1 : rcc <= N * (N * q)) by lra. assert (S0 : 0 < rs1) by lra.
  assert (T : rcc / rs1 <= 1.16 * N).
  { apply div_le; [lra|]. eapply Rle_trans; [exact C1|]. apply Rle_trans with (1.16 * N * (0.8675 * (N * q))); [|apply Rmult_le_compat_l; lra].
    assert (0 <= N * (N * q)) by (apply Rmult_le_pos; lra). lra. }
  assert (E : PI / 2 - atan (rs1 / rcc) = atan (rcc / rs1)).
  { replace (rs1 / rcc) with (/ (rcc / rs1)) by (field; lra). rewrite atan_inv by (apply Rdiv_lt_0_compat; lra). ring. }
  assert (B : 0 <= PI / 2 - atan (rs1 / rcc) <= 14 / 10 ^ 17).
  { rewrite E. assert (P : 0 < rcc / rs1) by (apply Rdiv_lt_0_compat; lra). pose proof (atan_increasing 0 (rcc / rs1) P) as I. rewrite atan_0 in I. split; [lra|].
    pose proof (atan_abs_le (rcc / rs1)) as L. rewrite !Rabs_pos_eq in L by lra. lra. }
  split; [exact B|]. rewrite rH_hang by lra. set (t := atan (rs1 / rcc)) in *. clearbody t.
  assert (HP : hang (PI / 2) = S - kE).
  { unfold hang. rewrite sin_PI2, cos_PI2. destruct k_bounds as (BE & _). replace (kE * kE * (1 * 1) + 0 * 0) with (kE * kE) by ring. rewrite sqrt_square by lra. ring. }
  rewrite <- HP. pose proof (hang_lip t (PI / 2)) as L. rewrite sin_PI2, cos_PI2 in L.
  replace (S * 0 - N * 1) with (- N) in L by ring. rewrite Rabs_Ropp, (Rabs_pos_eq N) in L by lra.
  assert (BA : Rabs (t - PI / 2) <= 14 / 10 ^ 17) by (apply Rabs_le; lra). pose proof (Rabs_pos (t - PI / 2)).
  eapply Rle_trans; [exact L|]. apply Rle_trans with (14 / 10 ^ 17 * 0.01); [|lra]. apply Rmult_le_compat; try lra.
  - assert (0 <= 2 * R0 * Rabs (t - PI / 2)) by (apply Rmult_le_pos; lra). lra.
  - assert (2 * R0 * Rabs (t - PI / 2) <= 2 * R0 * (14 / 10 ^ 17)) by (apply Rmult_le_compat_l; lra). lra.
Qed.
End Step.
