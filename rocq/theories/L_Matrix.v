(** * Lemmas on the 3x3 matrices *)

From Coq Require Import ZArith Reals Lra Lia Bool List.
From Verif Require Import Outcome Arith ArithR M_Common Spec_Matrix.
From Verif Require Import L_ArithR.
Open Scope R_scope.

Ltac mat_open :=
  repeat match goal with
  | m : mat3 _ |- _ => destruct m as [? ? ?]
  | v : vec3 _ |- _ => destruct v as [? ? ?]
  end.
Ltac mat_calc :=
  unfold mcompose, mtranspose, mapply, midentity, mzero, idx_all, is_product, is_column_image, is_row_image, entry, coord;
  cbn [fold_left mget mset vget vset mrow r0 r1 r2 v0 v1 v2]; realA_ops; rlit_in_goal.

Lemma mat_ext : forall a b : mat3 realA, (forall i j, entry a i j = entry b i j) -> a = b.
Proof.
  intros [[a00 a01 a02] [a10 a11 a12] [a20 a21 a22]] [[b00 b01 b02] [b10 b11 b12] [b20 b21 b22]] H.
  pose proof (H I0 I0). pose proof (H I0 I1). pose proof (H I0 I2).
  pose proof (H I1 I0). pose proof (H I1 I1). pose proof (H I1 I2).
  pose proof (H I2 I0). pose proof (H I2 I1). pose proof (H I2 I2).
  unfold entry in *. cbn [mget mrow vget r0 r1 r2 v0 v1 v2] in *. subst. reflexivity.
Qed.

Lemma vec_ext : forall a b : vec3 realA, (forall i, coord a i = coord b i) -> a = b.
Proof.
  intros [a0 a1 a2] [b0 b1 b2] H.
  pose proof (H I0). pose proof (H I1). pose proof (H I2).
  unfold coord in *. cbn [vget v0 v1 v2] in *. subst. reflexivity.
Qed.

Lemma mcompose_product : forall a b, is_product a b (mcompose (A := realA) a b).
Proof. intros a b. mat_open. intros i j. destruct i, j; mat_calc; ring. Qed.

Lemma mtranspose_entry : forall a i j, entry (mtranspose (A := realA) a) i j = entry a j i.
Proof. intros a i j. mat_open. destruct i, j; mat_calc; reflexivity. Qed.

Lemma midentity_entry : forall i j, entry (midentity (A := realA)) i j = kron i j.
Proof. intros i j. destruct i, j; unfold kron; mat_calc; reflexivity. Qed.

Lemma mzero_entry : forall i j, entry (mzero (A := realA)) i j = 0.
Proof. intros i j. destruct i, j; mat_calc; reflexivity. Qed.

Lemma mul3_entry : forall a b i j, entry (mul3 a b) i j =
  entry a i I0 * entry b I0 j + entry a i I1 * entry b I1 j + entry a i I2 * entry b I2 j.
Proof. intros a b i j. destruct i, j; reflexivity. Qed.
Lemma mul3_compose : forall a b, mul3 a b = mcompose (A := realA) a b.
Proof. intros a b. apply mat_ext. intros i j. rewrite mul3_entry, (mcompose_product a b i j). reflexivity. Qed.
Lemma unit3_identity : unit3 = midentity (A := realA).
Proof. apply mat_ext. intros i j. rewrite midentity_entry. destruct i, j; reflexivity. Qed.

Ltac use_product :=
  repeat match goal with
  | |- context [entry (mcompose ?a ?b) ?i ?j] => rewrite (mcompose_product a b i j)
  | |- context [entry (mtranspose ?a) ?i ?j] => rewrite (mtranspose_entry a i j)
  | |- context [entry midentity ?i ?j] => rewrite (midentity_entry i j)
  | |- context [entry mzero ?i ?j] => rewrite (mzero_entry i j)
  end.

Lemma compose_assoc : forall a b c, mcompose (A := realA) (mcompose (A := realA) a b) c =
  mcompose (A := realA) a (mcompose (A := realA) b c).
Proof. intros. apply mat_ext. intros i j. use_product. ring. Qed.
Lemma compose_id_l : forall a, mcompose (A := realA) (midentity (A := realA)) a = a.
Proof. intros. apply mat_ext. intros i j. use_product. destruct i; unfold kron; ring. Qed.
Lemma compose_id_r : forall a, mcompose (A := realA) a (midentity (A := realA)) = a.
Proof. intros. apply mat_ext. intros i j. use_product. destruct j; unfold kron; ring. Qed.

Lemma proper_identity : proper (midentity (A := realA)).
Proof.
  split.
  - intros i j. use_product. destruct i, j; unfold kron; ring.
  - unfold det. cbv zeta. use_product. unfold kron. ring.
Qed.

Lemma proper_compose : forall a b, proper a -> proper b -> proper (mcompose (A := realA) a b).
Proof.
  intros a b [A1 A2] [B1 B2]. split.
  - intros i j. use_product. rewrite <- (A1 i j).
    pose proof (B1 I0 I0) as b00. pose proof (B1 I0 I1) as b01. pose proof (B1 I0 I2) as b02.
    pose proof (B1 I1 I1) as b11. pose proof (B1 I1 I2) as b12. pose proof (B1 I2 I2) as b22.
    unfold kron in b00, b01, b02, b11, b12, b22. clear - b00 b01 b02 b11 b12 b22.
    set (x := entry a i I0). set (y := entry a i I1). set (z := entry a i I2).
    set (x' := entry a j I0). set (y' := entry a j I1). set (z' := entry a j I2).
    transitivity (x*x' * (entry b I0 I0 * entry b I0 I0 + entry b I0 I1 * entry b I0 I1 + entry b I0 I2 * entry b I0 I2)
      + (x*y' + y*x') * (entry b I0 I0 * entry b I1 I0 + entry b I0 I1 * entry b I1 I1 + entry b I0 I2 * entry b I1 I2)
      + (x*z' + z*x') * (entry b I0 I0 * entry b I2 I0 + entry b I0 I1 * entry b I2 I1 + entry b I0 I2 * entry b I2 I2)
      + y*y' * (entry b I1 I0 * entry b I1 I0 + entry b I1 I1 * entry b I1 I1 + entry b I1 I2 * entry b I1 I2)
      + (y*z' + z*y') * (entry b I1 I0 * entry b I2 I0 + entry b I1 I1 * entry b I2 I1 + entry b I1 I2 * entry b I2 I2)
      + z*z' * (entry b I2 I0 * entry b I2 I0 + entry b I2 I1 * entry b I2 I1 + entry b I2 I2 * entry b I2 I2)); [ring|].
    rewrite b00, b01, b02, b11, b12, b22. ring.
  - transitivity (det a * det b).
    + unfold det. cbv zeta. use_product. ring.
    + rewrite A2, B2. ring.
Qed.

(** In a proper rotation the rows are orthonormal and so are the columns. *)
Lemma proper_inverse : forall a, proper a ->
  mcompose (A := realA) a (mtranspose (A := realA) a) = midentity (A := realA) /\
  mcompose (A := realA) (mtranspose (A := realA) a) a = midentity (A := realA).
Proof.
  intros a [A1 A2].
  assert (P : mcompose (A := realA) a (mtranspose (A := realA) a) = midentity (A := realA)).
  { apply mat_ext. intros i j. use_product. apply A1. }
  split; [exact P|].
  (* adjugate: a^T = a^-1 because adj(a) a = det a *)
  set (e := entry a).
  pose (adj := M3 (A := realA)
    (V3 (A := realA) (e I1 I1 * e I2 I2 - e I1 I2 * e I2 I1) (e I0 I2 * e I2 I1 - e I0 I1 * e I2 I2) (e I0 I1 * e I1 I2 - e I0 I2 * e I1 I1))
    (V3 (A := realA) (e I1 I2 * e I2 I0 - e I1 I0 * e I2 I2) (e I0 I0 * e I2 I2 - e I0 I2 * e I2 I0) (e I0 I2 * e I1 I0 - e I0 I0 * e I1 I2))
    (V3 (A := realA) (e I1 I0 * e I2 I1 - e I1 I1 * e I2 I0) (e I0 I1 * e I2 I0 - e I0 I0 * e I2 I1) (e I0 I0 * e I1 I1 - e I0 I1 * e I1 I0))).
  assert (Q : mcompose (A := realA) adj a = midentity (A := realA)).
  { apply mat_ext. intros i j. use_product. unfold det in A2. cbv zeta in A2. 
    clear - A2. unfold adj, e, entry in *. cbn [mget mrow vget r0 r1 r2 v0 v1 v2] in *. change (num realA) with R in *.
    destruct i, j; unfold kron; cbn [mget mrow vget r0 r1 r2 v0 v1 v2]; try rewrite <- A2; ring. }
  assert (E : adj = mtranspose (A := realA) a).
  { rewrite <- (compose_id_r adj), <- P, <- compose_assoc, Q. apply compose_id_l. }
  rewrite <- E. exact Q.
Qed.

Lemma proper_transpose : forall a, proper a -> proper (mtranspose (A := realA) a).
Proof.
  intros a Ha. destruct (proper_inverse a Ha) as [_ Q]. destruct Ha as [A1 A2]. split.
  - intros i j. use_product. rewrite <- (midentity_entry i j), <- Q.
    rewrite (mcompose_product (mtranspose (A := realA) a) a i j). use_product. reflexivity.
  - rewrite <- A2. unfold det. cbv zeta. use_product. ring.
Qed.

Lemma rotation_0 : forall t, rotation (A := realA) 0 t = Val (rot3 I0 t).
Proof.
  intros t. unfold rotation, mzero. cbn [Nat.add Nat.modulo Nat.divmod Nat.sub fst snd idx_of_nat mset vset r0 r1 r2 v0 v1 v2].
  realA_ops. rlit_in_goal. reflexivity.
Qed.
Lemma rotation_1 : forall t, rotation (A := realA) 1 t = Val (rot3 I1 t).
Proof.
  intros t. unfold rotation, mzero. cbn [Nat.add Nat.modulo Nat.divmod Nat.sub fst snd idx_of_nat mset vset r0 r1 r2 v0 v1 v2].
  realA_ops. rlit_in_goal. reflexivity.
Qed.
Lemma rotation_2 : forall t, rotation (A := realA) 2 t = Val (rot3 I2 t).
Proof.
  intros t. unfold rotation, mzero. cbn [Nat.add Nat.modulo Nat.divmod Nat.sub fst snd idx_of_nat mset vset r0 r1 r2 v0 v1 v2].
  realA_ops. rlit_in_goal. reflexivity.
Qed.

Lemma rot3_proper : forall ax t, proper (rot3 ax t).
Proof.
  intros ax t. pose proof (sin2_cos2 t) as S. unfold Rsqr in S. split.
  - intros i j. destruct ax, i, j; unfold kron, entry, rot3; cbn [mget mrow vget r0 r1 r2 v0 v1 v2]; lra.
  - destruct ax; unfold det, entry, rot3; cbn [mget mrow vget r0 r1 r2 v0 v1 v2]; lra.
Qed.

Lemma rot3_add : forall ax s t, mcompose (A := realA) (rot3 ax s) (rot3 ax t) = rot3 ax (s + t).
Proof.
  intros ax s t. apply mat_ext. intros i j. use_product.
  destruct ax, i, j; unfold entry, rot3; cbn [mget mrow vget r0 r1 r2 v0 v1 v2]; rewrite ?sin_plus, ?cos_plus; ring.
Qed.

Lemma rot3_neg : forall ax t, mtranspose (A := realA) (rot3 ax t) = rot3 ax (- t).
Proof.
  intros ax t. apply mat_ext. intros i j. use_product.
  destruct ax, i, j; unfold entry, rot3; cbn [mget mrow vget r0 r1 r2 v0 v1 v2]; rewrite ?sin_neg, ?cos_neg; ring.
Qed.

Lemma rot3_0 : forall ax, rot3 ax 0 = midentity (A := realA).
Proof.
  intros ax. apply mat_ext. intros i j. use_product.
  destruct ax, i, j; unfold entry, rot3, kron; cbn [mget mrow vget r0 r1 r2 v0 v1 v2]; rewrite ?sin_0, ?cos_0; ring.
Qed.
