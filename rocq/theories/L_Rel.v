(** * Rounding errors measured against a product of powers of two scales *)

From Coq Require Import ZArith Reals Lra Lia Bool Psatz.
From Flocq Require Import Core BinarySingleNaN.
From Verif Require Import Arith ArithF Spec_Float.
From Verif Require Import L_ArithF L_PMatrix.
Open Scope R_scope.

Definition U : R := / 9007199254740992.
Lemma U_pos : 0 < U <= 12 / 10 ^ 17.
Proof. unfold U. lra. Qed.

Lemma rnd_U : forall t T, Rabs t <= T -> bpow radix2 (-900) <= T -> Rabs (rnd t - t) <= U * (1.0001 * T).
Proof.
  intros t T H L. pose proof (rnd_rel t) as E. change (bpow radix2 (-52)) with (/ 4503599627370496) in E.
  replace (bpow radix2 (-1074)) with (bpow radix2 (-174) * bpow radix2 (-900)) in E by (rewrite <- bpow_plus; reflexivity).
  assert (S : bpow radix2 (-174) <= bpow radix2 (-74)) by (apply bpow_le; lia).
  change (bpow radix2 (-74)) with (/ 18889465931478580854784) in S. pose proof (bpow_gt_0 radix2 (-174)). pose proof (bpow_gt_0 radix2 (-900)).
  unfold U. nra.
Qed.

Section Scales.
Variables N R0 : R.
Hypothesis HN : bpow radix2 (-57) <= N <= R0.
Hypothesis HR : 0.9 <= R0 <= 1024.

Definition M (i j : nat) : R := N ^ i * R0 ^ j.
Lemma N_pos : 0 < N. Proof. pose proof (bpow_gt_0 radix2 (-57)). lra. Qed.
Lemma M_pos : forall i j, 0 < M i j.
Proof. intros i j. unfold M. pose proof N_pos. apply Rmult_lt_0_compat; apply pow_lt; lra. Qed.
Lemma M_mul : forall i j i' j', M i j * M i' j' = M (i + i') (j + j').
Proof. intros. unfold M. rewrite !pow_add. ring. Qed.
Lemma M_shift : forall i j d, M (i + d) j <= M i (j + d).
Proof.
  intros i j d. unfold M. rewrite !pow_add. pose proof N_pos.
  assert (N ^ d <= R0 ^ d) by (apply pow_incr; lra). 
  assert (0 < N ^ i) by (apply pow_lt; lra). assert (0 < R0 ^ j) by (apply pow_lt; lra).
  replace (N ^ i * N ^ d * R0 ^ j) with (N ^ i * R0 ^ j * N ^ d) by ring.
  replace (N ^ i * (R0 ^ j * R0 ^ d)) with (N ^ i * R0 ^ j * R0 ^ d) by ring.
  apply Rmult_le_compat_l; [|assumption]. left. apply Rmult_lt_0_compat; assumption.
Qed.
Lemma M_up : forall i j, M i j <= 10 / 9 * M i (S j).
Proof. intros i j. unfold M. cbn [pow]. pose proof (M_pos i j) as P. unfold M in P. nra. Qed.
Lemma M_low : forall i j, (i <= 8)%nat -> (j <= 40)%nat -> bpow radix2 (-700) <= M i j.
Proof.
  intros i j Hi Hj. unfold M.
  assert (A : bpow radix2 (-456) <= N ^ i).
  { apply Rle_trans with (bpow radix2 (-57) ^ i).
    - assert (E : forall n, bpow radix2 (-57) ^ n = bpow radix2 (-57 * Z.of_nat n)).
      { intros n. induction n as [|n IH]; [reflexivity|]. cbn [pow]. rewrite IH, <- bpow_plus. f_equal. lia. }
      rewrite E. apply bpow_le. lia.
    - apply pow_incr. pose proof (bpow_gt_0 radix2 (-57)). lra. }
  assert (B : bpow radix2 (-40) <= R0 ^ j).
  { apply Rle_trans with ((/ 2) ^ j).
    - assert (E : forall n, (/ 2) ^ n = bpow radix2 (- Z.of_nat n)).
      { intros n. induction n as [|n IH]; [reflexivity|]. cbn [pow]. rewrite IH. replace (- Z.of_nat (S n))%Z with (-1 + - Z.of_nat n)%Z by lia.
        rewrite bpow_plus. change (bpow radix2 (-1)) with (/ 2). reflexivity. }
      rewrite E. apply bpow_le. lia.
    - apply pow_incr. lra. }
  apply Rle_trans with (bpow radix2 (-456) * bpow radix2 (-40)); [rewrite <- bpow_plus; apply bpow_le; lia|].
  apply Rmult_le_compat; try apply bpow_ge_0; assumption.
Qed.
Lemma M_high : forall i j, (i <= 8)%nat -> (j <= 40)%nat -> M i j <= bpow radix2 480.
Proof.
  intros i j Hi Hj. unfold M. pose proof N_pos.
  assert (E : forall n, 1024 ^ n = bpow radix2 (10 * Z.of_nat n)).
  { intros n. induction n as [|n IH]; [reflexivity|]. cbn [pow]. rewrite IH. replace (10 * Z.of_nat (S n))%Z with (10 + 10 * Z.of_nat n)%Z by lia.
    rewrite bpow_plus. reflexivity. }
  assert (A : N ^ i <= bpow radix2 80).
  { apply Rle_trans with (1024 ^ i); [apply pow_incr; lra|]. rewrite E. apply bpow_le. lia. }
  assert (B : R0 ^ j <= bpow radix2 400).
  { apply Rle_trans with (1024 ^ j); [apply pow_incr; lra|]. rewrite E. apply bpow_le. lia. }
  apply Rle_trans with (bpow radix2 80 * bpow radix2 400); [|rewrite <- bpow_plus; apply bpow_le; lia].
  apply Rmult_le_compat; try assumption; apply pow_le; lra.
Qed.

(** [x] is within [k] units of the scale [N^i R0^j] of [r], which is at most [b] of it. *)
Definition er (x : b64) (r k b : R) (i j : nat) : Prop :=
  fin x = true /\ Rabs (B2R x - r) <= k * U * M i j /\ Rabs r <= b * M i j /\
  0 <= k <= 10 ^ 6 * b /\ / 10 ^ 30 <= b <= 10 ^ 30 /\ (i <= 8)%nat /\ (j <= 40)%nat.

Lemma er_make : forall x y t r k b i j, fin x = true -> B2R x = rnd t -> Rabs (t - r) <= y * U * M i j -> Rabs r <= b * M i j ->
  0 <= y -> y + 1.001 * b <= k -> k <= 10 ^ 6 * b -> / 10 ^ 30 <= b <= 10 ^ 30 -> (i <= 8)%nat -> (j <= 40)%nat -> er x r k b i j.
Proof.
  intros x y t r k b i j F E Et Br Y K1 K2 B Hi Hj. pose proof (M_pos i j) as MP. pose proof (M_low i j Hi Hj) as ML. pose proof U_pos as UP.
  assert (T : Rabs t <= 1.0002 * b * M i j).
  { replace t with ((t - r) + r) by ring. eapply Rle_trans; [apply Rabs_triang|].
    assert (y * U * M i j <= 0.0002 * b * M i j) by (apply Rmult_le_compat_r; [lra|]; nra). lra. }
  assert (L : bpow radix2 (-900) <= 1.0002 * b * M i j).
  { apply Rle_trans with (bpow radix2 (-200) * bpow radix2 (-700)); [rewrite <- bpow_plus; apply bpow_le; lia|].
    assert (S : bpow radix2 (-200) <= bpow radix2 (-100)) by (apply bpow_le; lia).
    change (bpow radix2 (-100)) with (/ 1267650600228229401496703205376) in S. 
    apply Rmult_le_compat; try apply bpow_ge_0; [|exact ML]. lra. }
  pose proof (rnd_U t _ T L) as D.
  split; [exact F|]. rewrite E. split; [|repeat split; try assumption; lra].
  replace (rnd t - r) with ((rnd t - t) + (t - r)) by ring. eapply Rle_trans; [apply Rabs_triang|].
  assert (Q : U * (1.0001 * (1.0002 * b * M i j)) <= 1.001 * b * U * M i j).
  { replace (U * (1.0001 * (1.0002 * b * M i j))) with ((1.0001 * 1.0002) * (b * (U * M i j))) by ring.
    replace (1.001 * b * U * M i j) with (1.001 * (b * (U * M i j))) by ring. apply Rmult_le_compat_r; [|lra].
    apply Rmult_le_pos; [lra|]. apply Rmult_le_pos; lra. }
  assert ((y + 1.001 * b) * (U * M i j) <= k * (U * M i j)) by (apply Rmult_le_compat_r; [apply Rmult_le_pos; lra|lra]). lra.
Qed.

(** The size needed for an operation not to overflow. *)
Lemma er_small : forall t i j b y r, Rabs (t - r) <= y * U * M i j -> Rabs r <= b * M i j -> 0 <= y -> y <= 10 ^ 6 * b -> / 10 ^ 30 <= b <= 10 ^ 30 ->
  (i <= 8)%nat -> (j <= 40)%nat -> small t.
Proof.
  intros t i j b y r Et Br Y K B Hi Hj. apply (small_le _ 600); [lia|]. pose proof (M_pos i j) as MP. pose proof (M_high i j Hi Hj) as MH. pose proof U_pos as UP.
  replace t with ((t - r) + r) by ring. eapply Rle_trans; [apply Rabs_triang|].
  assert (y * U * M i j <= b * M i j) by (apply Rmult_le_compat_r; [lra|]; nra).
  apply Rle_trans with (2 * 10 ^ 30 * bpow radix2 480).
  - apply Rle_trans with (2 * b * M i j); [lra|]. apply Rmult_le_compat; lra.
  - apply Rle_trans with (bpow radix2 110 * bpow radix2 480); [|rewrite <- bpow_plus; apply bpow_le; lia].
    apply Rmult_le_compat_r; [apply bpow_ge_0|]. change (bpow radix2 110) with 1298074214633706907132624082305024. lra.
Qed.

Lemma er_exact : forall x r b i j, fin x = true -> B2R x = r -> Rabs r <= b * M i j -> / 10 ^ 30 <= b <= 10 ^ 30 -> (i <= 8)%nat -> (j <= 40)%nat -> er x r 0 b i j.
Proof.
  intros x r b i j F E B H Hi Hj. split; [exact F|]. rewrite E, Rminus_diag_eq, Rabs_R0 by reflexivity.
  split; [lra|]. repeat split; try assumption; lra.
Qed.
Lemma er_weak : forall x r k b i j k' b', er x r k b i j -> k <= k' -> b <= b' -> k' <= 10 ^ 6 * b' -> b' <= 10 ^ 30 -> er x r k' b' i j.
Proof.
  intros x r k b i j k' b' (F & E & B & K & Bb & Hi & Hj) H1 H2 H3 H4. pose proof (M_pos i j) as MP. pose proof U_pos as UP.
  split; [exact F|]. split.
  { eapply Rle_trans; [exact E|]. apply Rmult_le_compat_r; [lra|]. apply Rmult_le_compat_r; lra. }
  split; [eapply Rle_trans; [exact B|]; apply Rmult_le_compat_r; lra|]. repeat split; try assumption; lra.
Qed.
Lemma er_shift : forall x r k b i j d, er x r k b (i + d) j -> (j + d <= 40)%nat -> er x r k b i (j + d).
Proof.
  intros x r k b i j d (F & E & B & K & Bb & Hi & Hj) H. pose proof (M_shift i j d) as S. pose proof U_pos as UP.
  split; [exact F|]. split; [eapply Rle_trans; [exact E|]; apply Rmult_le_compat_l; [apply Rmult_le_pos; lra|exact S]|].
  split; [eapply Rle_trans; [exact B|]; apply Rmult_le_compat_l; [lra|exact S]|]. repeat split; try assumption; try lra; lia.
Qed.
Lemma er_up : forall x r k b i j, er x r k b i j -> (S j <= 40)%nat -> b <= 10 ^ 29 -> er x r (10 / 9 * k) (10 / 9 * b) i (S j).
Proof.
  intros x r k b i j (F & E & B & K & Bb & Hi & Hj) H H2. pose proof (M_up i j) as S. pose proof U_pos as UP.
  split; [exact F|]. split.
  { eapply Rle_trans; [exact E|]. replace (10 / 9 * k * U * M i (Datatypes.S j)) with (k * U * (10 / 9 * M i (Datatypes.S j))) by ring. apply Rmult_le_compat_l; [apply Rmult_le_pos; lra|exact S]. }
  split.
  { eapply Rle_trans; [exact B|]. replace (10 / 9 * b * M i (Datatypes.S j)) with (b * (10 / 9 * M i (Datatypes.S j))) by ring. apply Rmult_le_compat_l; [lra|exact S]. }
  repeat split; try assumption; lra.
Qed.
(** A sharper bound on the size. *)
Lemma er_size : forall x r k b i j b', er x r k b i j -> Rabs r <= b' * M i j -> k <= 10 ^ 6 * b' -> / 10 ^ 30 <= b' <= 10 ^ 30 -> er x r k b' i j.
Proof. intros x r k b i j b' (F & E & B & K & Bb & Hi & Hj) H H1 H2. repeat split; try assumption; lra. Qed.

Lemma er_mul : forall x r k1 b1 i1 j1 y s k2 b2 i2 j2 k b, er x r k1 b1 i1 j1 -> er y s k2 b2 i2 j2 ->
  (i1 + i2 <= 8)%nat -> (j1 + j2 <= 40)%nat -> b1 * b2 <= b -> k1 * b2 + b1 * k2 + 1.002 * b <= k -> k <= 10 ^ 6 * b -> / 10 ^ 30 <= b <= 10 ^ 30 ->
  er (Fmul x y) (r * s) k b (i1 + i2) (j1 + j2).
Proof.
  intros x r k1 b1 i1 j1 y s k2 b2 i2 j2 k b (F1 & E1 & B1 & K1 & Q1 & I1 & J1) (F2 & E2 & B2 & K2 & Q2 & I2 & J2) Hi Hj Hb Hk Hk2 Hb2.
  pose proof (M_pos i1 j1) as P1. pose proof (M_pos i2 j2) as P2. pose proof U_pos as UP.
  set (m1 := M i1 j1) in *. set (m2 := M i2 j2) in *.
  assert (KK : k1 * k2 * U <= 0.001 * b).
  { assert (k1 * k2 <= 10 ^ 6 * b1 * (10 ^ 6 * b2)) by (apply Rmult_le_compat; lra).
    apply Rle_trans with (10 ^ 12 * (b1 * b2) * U); [apply Rmult_le_compat_r; lra|].
    apply Rle_trans with (10 ^ 12 * b * (12 / 10 ^ 17)); [|lra]. apply Rmult_le_compat; try lra. apply Rmult_le_pos; [lra|]. apply Rmult_le_pos; lra. }
  assert (G : Rabs (B2R x * B2R y - r * s) <= (k1 * b2 + b1 * k2 + 0.001 * b) * U * M (i1 + i2) (j1 + j2)).
  { rewrite <- M_mul. fold m1 m2.
    replace (B2R x * B2R y - r * s) with ((B2R x - r) * s + r * (B2R y - s) + (B2R x - r) * (B2R y - s)) by ring.
    eapply Rle_trans; [apply Rabs_triang|]. eapply Rle_trans; [apply Rplus_le_compat_r, Rabs_triang|]. rewrite !Rabs_mult.
    assert (T1 : Rabs (B2R x - r) * Rabs s <= k1 * U * m1 * (b2 * m2)) by (apply Rmult_le_compat; try apply Rabs_pos; assumption).
    assert (T2 : Rabs r * Rabs (B2R y - s) <= b1 * m1 * (k2 * U * m2)) by (apply Rmult_le_compat; try apply Rabs_pos; assumption).
    assert (T3 : Rabs (B2R x - r) * Rabs (B2R y - s) <= k1 * U * m1 * (k2 * U * m2)) by (apply Rmult_le_compat; try apply Rabs_pos; assumption).
    assert (T4 : k1 * U * m1 * (k2 * U * m2) <= 0.001 * b * (U * (m1 * m2))).
    { replace (k1 * U * m1 * (k2 * U * m2)) with (k1 * k2 * U * (U * (m1 * m2))) by ring. apply Rmult_le_compat_r; [|exact KK].
      apply Rmult_le_pos; [lra|]. apply Rmult_le_pos; lra. }
    lra. }
  assert (BB : Rabs (r * s) <= b * M (i1 + i2) (j1 + j2)).
  { rewrite Rabs_mult, <- M_mul. fold m1 m2. apply Rle_trans with (b1 * m1 * (b2 * m2)); [apply Rmult_le_compat; try apply Rabs_pos; assumption|].
    replace (b1 * m1 * (b2 * m2)) with (b1 * b2 * (m1 * m2)) by ring. apply Rmult_le_compat_r; [|lra]. apply Rmult_le_pos; lra. }
  assert (Y0 : 0 <= k1 * b2 + b1 * k2 + 0.001 * b).
  { assert (0 <= k1 * b2) by (apply Rmult_le_pos; lra). assert (0 <= b1 * k2) by (apply Rmult_le_pos; lra). lra. }
  destruct (Fmul_ok x y F1 F2) as [EM FM].
  { eapply er_small; [exact G|exact BB|exact Y0|lra|exact Hb2|exact Hi|exact Hj]. }
  apply (er_make _ (k1 * b2 + b1 * k2 + 0.001 * b) (B2R x * B2R y)); try assumption; lra.
Qed.

Lemma er_sum : forall x r k1 b1 y s k2 b2 i j k b sg, er x r k1 b1 i j -> er y s k2 b2 i j -> sg = 1 \/ sg = -1 ->
  Rabs (r + sg * s) <= b * M i j -> k1 + k2 + 1.001 * b <= k -> k <= 10 ^ 6 * b -> / 10 ^ 30 <= b <= 10 ^ 30 ->
  forall z, (small (B2R x + sg * B2R y) -> B2R z = rnd (B2R x + sg * B2R y) /\ fin z = true) -> er z (r + sg * s) k b i j.
Proof.
  intros x r k1 b1 y s k2 b2 i j k b sg (F1 & E1 & B1 & K1 & Q1 & I1 & J1) (F2 & E2 & B2 & K2 & Q2 & I2 & J2) Hs Hb Hk Hk2 Hb2 z Hz.
  assert (G : Rabs (B2R x + sg * B2R y - (r + sg * s)) <= (k1 + k2) * U * M i j).
  { replace (B2R x + sg * B2R y - (r + sg * s)) with ((B2R x - r) + sg * (B2R y - s)) by ring. eapply Rle_trans; [apply Rabs_triang|].
    rewrite Rabs_mult. replace (Rabs sg) with 1; [lra|]. destruct Hs as [-> | ->]; [rewrite Rabs_R1; reflexivity|]. rewrite Rabs_left by lra. lra. }
  destruct Hz as [EZ FZ].
  { eapply er_small; [exact G|exact Hb|lra|lra|exact Hb2|exact I1|exact J1]. }
  apply (er_make _ (k1 + k2) (B2R x + sg * B2R y)); try assumption; lra.
Qed.
Lemma er_add : forall x r k1 b1 y s k2 b2 i j k b, er x r k1 b1 i j -> er y s k2 b2 i j ->
  Rabs (r + s) <= b * M i j -> k1 + k2 + 1.001 * b <= k -> k <= 10 ^ 6 * b -> / 10 ^ 30 <= b <= 10 ^ 30 -> er (Fadd x y) (r + s) k b i j.
Proof.
  intros x r k1 b1 y s k2 b2 i j k b H1 H2 Hb Hk Hk2 Hb2. replace (r + s) with (r + 1 * s) in * by ring.
  apply (er_sum x r k1 b1 y s k2 b2 i j k b 1 H1 H2 (or_introl eq_refl) Hb Hk Hk2 Hb2). intros S. rewrite Rmult_1_l in *.
  apply Fadd_ok; [apply H1|apply H2|exact S].
Qed.
Lemma er_sub : forall x r k1 b1 y s k2 b2 i j k b, er x r k1 b1 i j -> er y s k2 b2 i j ->
  Rabs (r - s) <= b * M i j -> k1 + k2 + 1.001 * b <= k -> k <= 10 ^ 6 * b -> / 10 ^ 30 <= b <= 10 ^ 30 -> er (Fsub x y) (r - s) k b i j.
Proof.
  intros x r k1 b1 y s k2 b2 i j k b H1 H2 Hb Hk Hk2 Hb2. replace (r - s) with (r + -1 * s) in * by ring.
  apply (er_sum x r k1 b1 y s k2 b2 i j k b (-1) H1 H2 (or_intror eq_refl) Hb Hk Hk2 Hb2). intros S.
  replace (B2R x + -1 * B2R y) with (B2R x - B2R y) in * by ring. apply Fsub_ok; [apply H1|apply H2|exact S].
Qed.

Lemma er_div : forall x r k1 b1 i j y s k2 b2 i2 j2 k b c, er x r k1 b1 (i + i2) (j + j2) -> er y s k2 b2 i2 j2 ->
  0 < c -> c * M i2 j2 <= Rabs s -> k2 <= 10 ^ 6 * c -> Rabs (r / s) <= b * M i j ->
  (k1 + b * k2) / (0.999 * c) + 1.001 * b <= k -> k <= 10 ^ 6 * b -> / 10 ^ 30 <= b <= 10 ^ 30 -> er (Fdiv x y) (r / s) k b i j.
Proof.
  intros x r k1 b1 i j y s k2 b2 i2 j2 k b c (F1 & E1 & B1 & K1 & Q1 & I1 & J1) (F2 & E2 & B2 & K2 & Q2 & I2 & J2) Hc Hs Hkc Hb Hk Hk2 Hb2.
  pose proof (M_pos i j) as P1. pose proof (M_pos i2 j2) as P2. pose proof U_pos as UP. rewrite <- M_mul in E1, B1.
  set (m1 := M i j) in *. set (m2 := M i2 j2) in *.
  assert (S0 : 0 < Rabs s) by (assert (0 < c * m2) by (apply Rmult_lt_0_compat; lra); lra).
  assert (SN : s <> 0) by (intros Z; rewrite Z, Rabs_R0 in S0; lra).
  assert (YB : 0.999 * c * m2 <= Rabs (B2R y)).
  { assert (T : k2 * U * m2 <= 0.001 * (c * m2)).
    { replace (0.001 * (c * m2)) with (0.001 * c * m2) by ring. apply Rmult_le_compat_r; [lra|].
      apply Rle_trans with (10 ^ 6 * c * (12 / 10 ^ 17)); [apply Rmult_le_compat; lra|lra]. }
    pose proof (Rabs_triang_inv s (s - B2R y)) as V. replace (s - (s - B2R y)) with (B2R y) in V by ring. rewrite (Rabs_minus_sym s) in V. lra. }
  assert (CP : 0 < 0.999 * c * m2) by (apply Rmult_lt_0_compat; lra).
  assert (YN : B2R y <> 0) by (intros Z; rewrite Z, Rabs_R0 in YB; lra).
  assert (G : Rabs (B2R x / B2R y - r / s) <= (k1 + b * k2) / (0.999 * c) * U * m1).
  { replace (B2R x / B2R y - r / s) with (((B2R x - r) - r / s * (B2R y - s)) / B2R y) by (field; split; assumption).
    unfold Rdiv at 1. rewrite Rabs_mult, Rabs_inv.
    assert (T : Rabs (B2R x - r - r / s * (B2R y - s)) <= (k1 + b * k2) * U * (m1 * m2)).
    { eapply Rle_trans; [apply Rabs_triang|]. rewrite Rabs_Ropp, Rabs_mult.
      assert (Rabs (r / s) * Rabs (B2R y - s) <= b * m1 * (k2 * U * m2)) by (apply Rmult_le_compat; try apply Rabs_pos; assumption). lra. }
    apply Rle_trans with ((k1 + b * k2) * U * (m1 * m2) * / (0.999 * c * m2)).
    - apply Rmult_le_compat; [apply Rabs_pos|left; apply Rinv_0_lt_compat; lra|exact T|apply Rinv_le; assumption].
    - apply Req_le. field. split; lra. }
  assert (Y0 : 0 <= (k1 + b * k2) / (0.999 * c)).
  { unfold Rdiv. apply Rmult_le_pos; [|left; apply Rinv_0_lt_compat; lra]. assert (0 <= b * k2) by (apply Rmult_le_pos; lra). lra. }
  assert (Hi : (i <= 8)%nat) by lia. assert (Hj : (j <= 40)%nat) by lia.
  destruct (Fdiv_ok x y F1 YN) as [EZ FZ].
  { eapply er_small; [exact G|exact Hb|exact Y0|lra|exact Hb2|exact Hi|exact Hj]. }
  apply (er_make _ ((k1 + b * k2) / (0.999 * c)) (B2R x / B2R y)); try assumption; lra.
Qed.

Lemma er_sqrt : forall x r k b i j k' b' sc, er x r k b (i + i) (j + j) -> 0 < sc -> sc * sc * M (i + i) (j + j) <= r -> k <= 10 ^ 6 * (sc * sc) ->
  b <= b' * b' -> k / (1.99 * sc) + 1.001 * b' <= k' -> k' <= 10 ^ 6 * b' -> / 10 ^ 30 <= b' <= 10 ^ 30 -> er (Fsqrt x) (sqrt r) k' b' i j.
Proof.
  intros x r k b i j k' b' sc (F & E & B & K & Q & Hi & Hj) Hs Hr Hks Hb Hk Hk2 Hb2. pose proof (M_pos i j) as P. pose proof U_pos as UP.
  rewrite <- M_mul in *. set (m := M i j) in *.
  assert (MM : 0 < m * m) by (apply Rmult_lt_0_compat; exact P).
  assert (KU : k * U * (m * m) <= 0.01 * (sc * sc) * (m * m)).
  { apply Rmult_le_compat_r; [lra|]. apply Rle_trans with (10 ^ 6 * (sc * sc) * (12 / 10 ^ 17)); [apply Rmult_le_compat; lra|]. assert (0 < sc * sc) by (apply Rmult_lt_0_compat; lra). lra. }
  assert (X : 0.99 * sc * m * (0.99 * sc * m) <= B2R x).
  { apply Rabs_le_inv in E. assert (0 < sc * sc * (m * m)) by (apply Rmult_lt_0_compat; [apply Rmult_lt_0_compat|]; lra). lra. }
  assert (SM : 0 < sc * m) by (apply Rmult_lt_0_compat; lra).
  assert (R1 : 0 <= r) by (assert (0 <= sc * sc * (m * m)) by (apply Rmult_le_pos; [apply Rle_0_sqr|lra]); lra).
  assert (X1 : 0 <= B2R x) by (pose proof (Rle_0_sqr (0.99 * sc * m)) as Z; unfold Rsqr in Z; lra).
  assert (SX : 0.99 * (sc * m) <= sqrt (B2R x)).
  { rewrite <- (sqrt_square (0.99 * (sc * m))) by lra. apply sqrt_le_1_alt. lra. }
  assert (SR : sc * m <= sqrt r).
  { rewrite <- (sqrt_square (sc * m)) by lra. apply sqrt_le_1_alt. lra. }
  assert (G : Rabs (sqrt (B2R x) - sqrt r) <= k / (1.99 * sc) * U * m).
  { assert (D : sqrt (B2R x) - sqrt r = (B2R x - r) / (sqrt (B2R x) + sqrt r)).
    { pose proof (sqrt_sqrt _ X1) as Z1. pose proof (sqrt_sqrt _ R1) as Z2. set (u := sqrt (B2R x)) in *. set (v := sqrt r) in *.
      assert (W : (u - v) * (u + v) = B2R x - r) by (rewrite <- Z1, <- Z2; ring). rewrite <- W. field. lra. }
    rewrite D. unfold Rdiv at 1. rewrite Rabs_mult, Rabs_inv, (Rabs_pos_eq (sqrt (B2R x) + sqrt r)) by lra.
    apply Rle_trans with (k * U * (m * m) * / (1.99 * (sc * m))).
    - apply Rmult_le_compat; [apply Rabs_pos|left; apply Rinv_0_lt_compat; lra|exact E|apply Rinv_le; lra].
    - apply Req_le. field. split; lra. }
  assert (BB : Rabs (sqrt r) <= b' * m).
  { rewrite Rabs_pos_eq by apply sqrt_pos. rewrite <- (sqrt_square (b' * m)) by (apply Rmult_le_pos; lra). apply sqrt_le_1_alt.
    rewrite Rabs_pos_eq in B by exact R1. eapply Rle_trans; [exact B|]. replace (b' * m * (b' * m)) with (b' * b' * (m * m)) by ring. apply Rmult_le_compat_r; lra. }
  assert (Y0 : 0 <= k / (1.99 * sc)) by (unfold Rdiv; apply Rmult_le_pos; [lra|left; apply Rinv_0_lt_compat; lra]).
  destruct (Fsqrt_ok x F X1) as [EZ FZ].
  apply (er_make _ (k / (1.99 * sc)) (sqrt (B2R x))); try assumption; try lra; lia.
Qed.
End Scales.
