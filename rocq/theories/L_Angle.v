(** * The triangle inequality for angles *)

From Coq Require Import ZArith Reals Lra Lia Bool List Psatz.
From Flocq Require Import Core.
From Verif Require Import Outcome Arith ArithR M_Common Spec_Matrix.
From Verif Require Import L_ArithR L_Matrix L_PMatrix L_Near.
Open Scope R_scope.

Lemma gram : forall x y z, 0 <= sprod x x * sprod y y * sprod z z + 2 * (sprod x y * sprod y z * sprod x z)
  - sprod x x * (sprod y z * sprod y z) - sprod y y * (sprod x z * sprod x z) - sprod z z * (sprod x y * sprod x y).
Proof.
  intros [a b c] [d e f] [g h i]. unfold sprod, coord. cbn [vget v0 v1 v2]. change (num realA) with R in *.
  apply Rle_trans with ((a * (e * i - f * h) - b * (d * i - f * g) + c * (d * h - e * g)) * (a * (e * i - f * h) - b * (d * i - f * g) + c * (d * h - e * g))).
  - apply Rle_0_sqr.
  - right. ring.
Qed.

Lemma cos_triangle : forall a b c, -1 <= a <= 1 -> -1 <= b <= 1 -> -1 <= c <= 1 -> 0 <= 1 + 2 * (a * b * c) - a * a - b * b - c * c ->
  acos c <= acos a + acos b.
Proof.
  intros a b c Ha Hb Hc G. pose proof (acos_bound a) as A. pose proof (acos_bound b) as B. pose proof (acos_bound c) as C.
  destruct (Rle_or_lt PI (acos a + acos b)) as [L|L]; [lra|]. apply Rnot_lt_le. intros N.
  pose proof (cos_decreasing_1 (acos a + acos b) (acos c) ltac:(lra) ltac:(lra) ltac:(lra) ltac:(lra) N) as D.
  rewrite cos_plus, !cos_acos, !sin_acos in D by lra. unfold Rsqr in D.
  assert (SQ : R_sqrt.sqrt (1 - a * a) * R_sqrt.sqrt (1 - b * b) < a * b - c) by lra.
  pose proof (sqrt_pos (1 - a * a)) as S1. pose proof (sqrt_pos (1 - b * b)) as S2.
  assert (A1 : 0 <= 1 - a * a) by nra. assert (B1 : 0 <= 1 - b * b) by nra. pose proof (sqrt_def _ A1) as D1. pose proof (sqrt_def _ B1) as D2.
  set (s := R_sqrt.sqrt (1 - a * a)) in *. set (t := R_sqrt.sqrt (1 - b * b)) in *. clearbody s t.
  assert (0 <= s * t) by nra. assert (Q : (s * t) * (s * t) < (a * b - c) * (a * b - c)) by nra.
  replace ((s * t) * (s * t)) with ((s * s) * (t * t)) in Q by ring. rewrite D1, D2 in Q. clear - Q G. nra.
Qed.

Definition unit_dot (x y : vec3 realA) : R := sprod x y / (nrm x * nrm y).

Lemma unit_dot_range : forall x y, 0 < nrm x -> 0 < nrm y -> -1 <= unit_dot x y <= 1.
Proof.
  intros x y Hx Hy. pose proof (nrm_sq x) as X. pose proof (nrm_sq y) as Y. pose proof (cauchy x y) as C.
  assert (P : 0 < nrm x * nrm y) by nra. unfold unit_dot.
  assert (Q : Rabs (sprod x y) <= nrm x * nrm y).
  { rewrite <- (Rabs_pos_eq (nrm x * nrm y)) by lra. apply Rsqr_le_abs_0. unfold Rsqr. rewrite <- X, <- Y in C. lra. }
  apply Rabs_le_inv in Q. split.
  - apply (Rmult_le_reg_r (nrm x * nrm y)); [exact P|]. replace (sprod x y / (nrm x * nrm y) * (nrm x * nrm y)) with (sprod x y) by (field; lra). lra.
  - apply (Rmult_le_reg_r (nrm x * nrm y)); [exact P|]. replace (sprod x y / (nrm x * nrm y) * (nrm x * nrm y)) with (sprod x y) by (field; lra). lra.
Qed.

Lemma angle_triangle : forall x y z, 0 < nrm x -> 0 < nrm y -> 0 < nrm z -> acos (unit_dot x z) <= acos (unit_dot x y) + acos (unit_dot y z).
Proof.
  intros x y z Hx Hy Hz. apply cos_triangle; try (apply unit_dot_range; assumption).
  pose proof (gram x y z) as G. pose proof (nrm_sq x) as X. pose proof (nrm_sq y) as Y. pose proof (nrm_sq z) as Z. rewrite <- X, <- Y, <- Z in G.
  unfold unit_dot. set (p := nrm x) in *. set (q := nrm y) in *. set (r := nrm z) in *. set (a := sprod x y) in *. set (b := sprod y z) in *. set (c := sprod x z) in *. clearbody p q r a b c.
  assert (I : 0 < / ((p * q * r) * (p * q * r))) by (apply Rinv_0_lt_compat; assert (0 < p * q) by nra; assert (0 < p * q * r) by nra; nra).
  match type of G with 0 <= ?g => replace (1 + _ - _ - _ - _) with (g * / ((p * q * r) * (p * q * r))) by (field; lra) end. nra.
Qed.

Lemma acos_asin_le : forall g e, 0 < g <= 1 -> 0 <= e < 1 -> 1 - e * e <= g * g -> acos g <= asin e.
Proof.
  intros g e Hg He H. pose proof (acos_bound g) as A. pose proof (asin_bound e) as B.
  assert (E0 : 0 <= asin e). { apply Rnot_lt_le. intros N. pose proof PI_RGT_0. pose proof (sin_lt_0_var (asin e) ltac:(lra) N) as S. rewrite sin_asin in S; lra. }
  apply Rnot_lt_le. intros N. pose proof (cos_decreasing_1 (asin e) (acos g) ltac:(lra) ltac:(lra) ltac:(lra) ltac:(lra) N) as D.
  rewrite cos_acos, cos_asin in D by lra. unfold Rsqr in D. pose proof (sqrt_pos (1 - e * e)) as P. assert (Q : 0 <= 1 - e * e) by nra. pose proof (sqrt_def _ Q) as S.
  set (k := R_sqrt.sqrt (1 - e * e)) in *. clearbody k. nra.
Qed.

(** A vector close to a multiple of a unit vector makes a small angle with it. *)
Lemma angle_close : forall y s w r e, nrm s = 1 -> 0 < r -> 0 <= e < 1 -> (forall i, coord w i = r * coord s i) -> nrm (sub y w) <= e * r ->
  0 < nrm y /\ acos (unit_dot s y) <= asin e.
Proof.
  intros y s w r e Hs Hr He Hw H.
  assert (Q : sprod (sub y w) (sub y w) = sprod y y - 2 * r * sprod s y + r * r * sprod s s).
  { unfold sprod. assert (C : forall i, coord (sub y w) i = coord y i - r * coord s i).
    { intros i. rewrite <- Hw. clear. destruct y, w, i; reflexivity. } rewrite !C. ring. }
  pose proof (nrm_sq (sub y w)) as N1. pose proof (nrm_sq y) as N2. pose proof (nrm_sq s) as N3. pose proof (nrm_pos (sub y w)) as P1. pose proof (nrm_pos y) as P2.
  pose proof (cauchy s y) as CS. rewrite <- N2, <- N3, Hs in CS. rewrite Hs in N3. rewrite <- N1, <- N2, <- N3 in Q. set (d := nrm (sub y w)) in *. pose proof (unit_dot_range s y) as R. unfold unit_dot in *. rewrite Hs, Rmult_1_l in *.
  set (n := nrm y) in *. set (h := sprod s y) in *. clearbody d n h. clear N1 N2 N3 Hs Hw.
  assert (DD : d * d <= e * e * (r * r)) by nra.
  assert (QQ : n * n - 2 * r * h + r * r <= e * e * (r * r)) by lra. clear Q DD.
  assert (EE : e * e < 1) by nra. assert (H0 : 0 < h).
  { assert (RR : 0 < r * r) by nra. assert (RE : 0 < (1 - e * e) * (r * r)) by (apply Rmult_lt_0_compat; lra). assert (NN : 0 <= n * n) by nra. apply (Rmult_lt_reg_l r); [exact Hr|]. lra. }
  assert (N0 : 0 < n). { destruct P2 as [L|E]; [exact L|]. exfalso. rewrite <- E in CS. nra. }
  split; [exact N0|]. specialize (R ltac:(lra) N0).
  assert (DISC : (1 - e * e) * (n * n) <= h * h).
  { assert (0 <= ((1 - e * e) * r - h) * ((1 - e * e) * r - h)) by apply Rle_0_sqr.
    assert ((1 - e * e) * (n * n - 2 * r * h + r * r) <= (1 - e * e) * (e * e * (r * r))) by (apply Rmult_le_compat_l; lra). nra. }
  apply acos_asin_le; [split; [apply Rdiv_lt_0_compat; lra|lra]|exact He|].
  apply (Rmult_le_reg_r (n * n)); [nra|]. replace (h / n * (h / n) * (n * n)) with (h * h) by (field; lra). exact DISC.
Qed.
