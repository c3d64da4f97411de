(** * The Frobenius norm of 3x3 matrices and products of inexact rotations *)

From Coq Require Import ZArith Reals Lra Lia Bool List Psatz.
From Flocq Require Import Core BinarySingleNaN.
From Verif Require Import Outcome Arith ArithR ArithF Spec_Float Spec_Accuracy M_Common Spec_Matrix.
From Verif Require Import L_ArithF L_ArithR L_Matrix L_Apx L_ApxMod L_ApxAngle.
Import ListNotations.
Open Scope R_scope.

Definition hyp (x y : R) : R := R_sqrt.sqrt (x * x + y * y).
Lemma hyp_nonneg : forall x y, 0 <= hyp x y.
Proof. intros. apply sqrt_pos. Qed.
Lemma hyp_sq : forall x y, hyp x y * hyp x y = x * x + y * y.
Proof. intros. apply sqrt_sqrt. nra. Qed.
Lemma sq_le : forall x y, 0 <= y -> x * x <= y * y -> x <= y.
Proof. intros x y H K. destruct (Rle_lt_dec x y); [assumption|nra]. Qed.
Lemma hyp_tri : forall a b c d, hyp (a + b) (c + d) <= hyp a c + hyp b d.
Proof.
  intros. pose proof (hyp_nonneg a c) as P. pose proof (hyp_nonneg b d) as Q.
  pose proof (hyp_sq a c) as A. pose proof (hyp_sq b d) as B. pose proof (hyp_sq (a + b) (c + d)) as S.
  apply sq_le; [lra|]. rewrite S. set (p := hyp a c) in *. set (q := hyp b d) in *.
  assert (a * b + c * d <= p * q).
  { apply sq_le; [nra|]. replace (p * q * (p * q)) with ((p * p) * (q * q)) by ring. rewrite A, B.
    assert (0 <= (a * d - b * c) * (a * d - b * c)) by apply Rle_0_sqr. nra. }
  nra.
Qed.
Lemma hyp_mono : forall a b c d, Rabs a <= c -> Rabs b <= d -> hyp a b <= hyp c d.
Proof.
  intros a b c d H K. apply sqrt_le_1_alt. apply Rplus_le_compat.
  - replace (a * a) with (Rabs a * Rabs a) by (rewrite <- Rabs_mult; apply Rabs_pos_eq, Rle_0_sqr). pose proof (Rabs_pos a). apply Rmult_le_compat; assumption.
  - replace (b * b) with (Rabs b * Rabs b) by (rewrite <- Rabs_mult; apply Rabs_pos_eq, Rle_0_sqr). pose proof (Rabs_pos b). apply Rmult_le_compat; assumption.
Qed.
Lemma hyp_mono1 : forall a b c, Rabs a <= c -> hyp a b <= hyp c b.
Proof.
  intros a b c H. apply sqrt_le_1_alt. apply Rplus_le_compat_r.
  replace (a * a) with (Rabs a * Rabs a) by (rewrite <- Rabs_mult; apply Rabs_pos_eq, Rle_0_sqr). pose proof (Rabs_pos a).
  apply Rmult_le_compat; assumption.
Qed.

Definition emat : Type := idx -> idx -> R.
Definition erow (m : emat) (i : idx) : R := hyp (hyp (m i I0) (m i I1)) (m i I2).
Definition fro (m : emat) : R := hyp (hyp (erow m I0) (erow m I1)) (erow m I2).
Definition eplus (a b : emat) : emat := fun i j => a i j + b i j.
Definition emul (a b : emat) : emat := fun i j => a i I0 * b I0 j + a i I1 * b I1 j + a i I2 * b I2 j.

Lemma erow_nonneg : forall m i, 0 <= erow m i.
Proof. intros. apply hyp_nonneg. Qed.
Lemma fro_nonneg : forall m, 0 <= fro m.
Proof. intros. apply hyp_nonneg. Qed.
Lemma erow_sq : forall m i, erow m i * erow m i = m i I0 * m i I0 + m i I1 * m i I1 + m i I2 * m i I2.
Proof. intros. unfold erow. rewrite !hyp_sq. reflexivity. Qed.
Lemma fro_sq : forall m, fro m * fro m = erow m I0 * erow m I0 + erow m I1 * erow m I1 + erow m I2 * erow m I2.
Proof. intros. unfold fro. rewrite !hyp_sq. reflexivity. Qed.
Lemma erow_tri : forall a b i, erow (eplus a b) i <= erow a i + erow b i.
Proof.
  intros. unfold erow, eplus. eapply Rle_trans; [|apply hyp_tri].
  apply hyp_mono1. rewrite Rabs_pos_eq by apply hyp_nonneg. apply hyp_tri.
Qed.
Lemma fro_tri : forall a b, fro (eplus a b) <= fro a + fro b.
Proof.
  intros. unfold fro. eapply Rle_trans; [|apply hyp_tri].
  apply hyp_mono; [|rewrite Rabs_pos_eq by apply erow_nonneg; apply erow_tri].
  rewrite Rabs_pos_eq by apply hyp_nonneg. eapply Rle_trans; [|apply hyp_tri].
  apply hyp_mono; rewrite Rabs_pos_eq by apply erow_nonneg; apply erow_tri.
Qed.
Lemma fro_ext : forall a b, (forall i j, a i j = b i j) -> fro a = fro b.
Proof. intros a b H. unfold fro, erow. rewrite !H. reflexivity. Qed.
Lemma abs_le_sq : forall x y, 0 <= y -> x * x <= y * y -> Rabs x <= y.
Proof.
  intros x y H K. apply sq_le; [exact H|]. rewrite <- Rabs_mult, Rabs_pos_eq by apply Rle_0_sqr. exact K.
Qed.
Lemma fro_ge : forall m i j, Rabs (m i j) <= fro m.
Proof.
  intros m i j. apply abs_le_sq; [apply fro_nonneg|]. rewrite fro_sq, !erow_sq.
  pose proof (fun i j => Rle_0_sqr (m i j)) as P. unfold Rsqr in P.
  pose proof (P I0 I0). pose proof (P I0 I1). pose proof (P I0 I2). pose proof (P I1 I0). pose proof (P I1 I1).
  pose proof (P I1 I2). pose proof (P I2 I0). pose proof (P I2 I1). pose proof (P I2 I2). destruct i, j; lra.
Qed.
Lemma fro_le_sq : forall m c, 0 <= c -> erow m I0 * erow m I0 + erow m I1 * erow m I1 + erow m I2 * erow m I2 <= c * c -> fro m <= c.
Proof. intros m c H K. apply sq_le; [exact H|]. rewrite fro_sq. exact K. Qed.
Lemma fro_le : forall m c, (forall i j, Rabs (m i j) <= c) -> fro m <= 3 * c.
Proof.
  intros m c H. assert (C : 0 <= c) by (eapply Rle_trans; [apply Rabs_pos|apply (H I0 I0)]).
  apply fro_le_sq; [lra|]. rewrite !erow_sq.
  assert (P : forall i j, m i j * m i j <= c * c).
  { intros i j. replace (m i j * m i j) with (Rabs (m i j) * Rabs (m i j)) by (rewrite <- Rabs_mult; apply Rabs_pos_eq, Rle_0_sqr).
    pose proof (Rabs_pos (m i j)). apply Rmult_le_compat; try assumption; apply H. }
  pose proof (P I0 I0). pose proof (P I0 I1). pose proof (P I0 I2). pose proof (P I1 I0). pose proof (P I1 I1).
  pose proof (P I1 I2). pose proof (P I2 I0). pose proof (P I2 I1). pose proof (P I2 I2). lra.
Qed.

Lemma fro_mul_r : forall e b, proper b -> fro (emul e (entry b)) = fro e.
Proof.
  intros e b [B _].
  assert (R : forall i, erow (emul e (entry b)) i * erow (emul e (entry b)) i = erow e i * erow e i).
  { intros i. rewrite !erow_sq. unfold emul.
    pose proof (B I0 I0) as b00. pose proof (B I0 I1) as b01. pose proof (B I0 I2) as b02.
    pose proof (B I1 I1) as b11. pose proof (B I1 I2) as b12. pose proof (B I2 I2) as b22. unfold kron in *.
    set (x := e i I0). set (y := e i I1). set (z := e i I2).
    match goal with |- ?l = _ => transitivity
     (x * x * (entry b I0 I0 * entry b I0 I0 + entry b I0 I1 * entry b I0 I1 + entry b I0 I2 * entry b I0 I2) +
      y * y * (entry b I1 I0 * entry b I1 I0 + entry b I1 I1 * entry b I1 I1 + entry b I1 I2 * entry b I1 I2) +
      z * z * (entry b I2 I0 * entry b I2 I0 + entry b I2 I1 * entry b I2 I1 + entry b I2 I2 * entry b I2 I2) +
      2 * x * y * (entry b I0 I0 * entry b I1 I0 + entry b I0 I1 * entry b I1 I1 + entry b I0 I2 * entry b I1 I2) +
      2 * x * z * (entry b I0 I0 * entry b I2 I0 + entry b I0 I1 * entry b I2 I1 + entry b I0 I2 * entry b I2 I2) +
      2 * y * z * (entry b I1 I0 * entry b I2 I0 + entry b I1 I1 * entry b I2 I1 + entry b I1 I2 * entry b I2 I2)) end.
    - ring.
    - rewrite b00, b01, b02, b11, b12, b22. ring. }
  pose proof (fro_nonneg e). pose proof (fro_nonneg (emul e (entry b))).
  apply Rle_antisym; apply sq_le; try assumption; rewrite !fro_sq, !R; apply Rle_refl.
Qed.
Lemma fro_transpose : forall e, fro (fun i j => e j i) = fro e.
Proof.
  intros e. pose proof (fro_nonneg e). pose proof (fro_nonneg (fun i j => e j i)).
  apply Rle_antisym; apply sq_le; try assumption; rewrite !fro_sq, !erow_sq; lra.
Qed.
Lemma fro_mul_l : forall e a, proper a -> fro (emul (entry a) e) = fro e.
Proof.
  intros e a P. rewrite <- (fro_transpose e), <- (fro_mul_r (fun i j => e j i) _ (proper_transpose a P)).
  rewrite <- fro_transpose. apply fro_ext. intros i j. unfold emul. rewrite !mtranspose_entry. ring.
Qed.
Lemma fro_mul2 : forall e g, fro (emul e g) <= 9 * (fro e * fro g).
Proof.
  intros e g. replace (9 * (fro e * fro g)) with (3 * (3 * (fro e * fro g))) by ring. apply fro_le. intros i j. unfold emul.
  assert (P : forall k, Rabs (e i k * g k j) <= fro e * fro g).
  { intros k. rewrite Rabs_mult. apply Rmult_le_compat; try apply Rabs_pos; apply fro_ge. }
  eapply Rle_trans; [apply Rabs_triang|]. eapply Rle_trans; [apply Rplus_le_compat_r, Rabs_triang|].
  pose proof (P I0). pose proof (P I1). pose proof (P I2). lra.
Qed.

(** ** Binary64 matrices close to exact ones *)

Definition errm {lm} (M : mat3 (b64A lm)) (M' : mat3 realA) : emat := fun i j => B2R (mget (A := b64A lm) M i j) - entry M' i j.
Definition mfro {lm} (M : mat3 (b64A lm)) (M' : mat3 realA) (f : R) : Prop :=
  (forall i j, fin (mget (A := b64A lm) M i j) = true) /\ fro (errm M M') <= f.

Lemma mfro_le : forall lm (M : mat3 (b64A lm)) M' f g, mfro M M' f -> f <= g -> mfro M M' g.
Proof. intros lm M M' f g [F H] L. split; [exact F|lra]. Qed.
Lemma mfro_near : forall lm (M : mat3 (b64A lm)) M' f i j, mfro M M' f -> near (mget (A := b64A lm) M i j) (entry M' i j) f.
Proof. intros lm M M' f i j [F H]. split; [apply F|]. eapply Rle_trans; [apply (fro_ge (errm M M') i j)|exact H]. Qed.

Definition dot3 {A : arith} (x y z u v w : num A) : num A :=
  add A (add A (add A (lit A 0 0) (mul A x u)) (mul A y v)) (mul A z w).
Lemma mcompose_get : forall (A : arith) (a b : mat3 A) i j, mget (mcompose a b) i j =
  dot3 (mget a i I0) (mget a i I1) (mget a i I2) (mget b I0 j) (mget b I1 j) (mget b I2 j).
Proof. intros A a b [| |] [| |]; reflexivity. Qed.
Lemma dot3_eval : forall (A : arith) (x y z u v w : num A),
  eval A [x; y; z; u; v; w] (dot3 (A := exprA) (EVar 0) (EVar 1) (EVar 2) (EVar 3) (EVar 4) (EVar 5)) = dot3 x y z u v w.
Proof. reflexivity. Qed.

Definition b_ent : bnd := Eval vm_compute in B (- (1002 * one / 1000)) (1002 * one / 1000) 0.
Lemma apx_ent : forall x, fin x = true -> Rabs (B2R x) <= 1.001 -> apx x (B2R x) b_ent.
Proof.
  intros x F H. apply Rabs_le_inv in H. split; [exact F|].
  assert (E : 1.001 <= val (hi b_ent)).
  { apply Rle_trans with (val (1002 * one / 1000)); [|apply Rle_refl]. unfold val.
    pose proof (div_up (1002 * one) 1000 ltac:(reflexivity)) as D. rewrite plus_IZR, mult_IZR in D.
    pose proof val_one as V. unfold val in V. pose proof uu_pos. 
    assert (U : uu <= 1 / 1000000) by (unfold uu; apply Rle_trans with (bpow radix2 (-20)); [apply bpow_le; lia|change (bpow radix2 (-20)) with (/ 1048576); lra]).
    apply Rle_trans with ((1002 * IZR one / 1000 - 1) * uu).
    - replace ((1002 * IZR one / 1000 - 1) * uu) with (1002 / 1000 * (IZR one * uu) - uu) by (unfold Rdiv; ring). rewrite V. lra.
    - apply Rmult_le_compat_r; lra. }
  assert (E' : val (lo b_ent) <= -1.001).
  { replace (lo b_ent) with (- hi b_ent)%Z by reflexivity. rewrite val_opp. lra. }
  split; [lra|]. cbn [er b_ent]. rewrite val_0, Rminus_diag_eq by reflexivity. rewrite Rabs_R0. apply Rle_refl.
Qed.

Lemma dot3_ok : forall lm, good_libm lm -> forall x y z u v w : b64,
  fin x = true -> fin y = true -> fin z = true -> fin u = true -> fin v = true -> fin w = true ->
  Rabs (B2R x) <= 1.001 -> Rabs (B2R y) <= 1.001 -> Rabs (B2R z) <= 1.001 ->
  Rabs (B2R u) <= 1.001 -> Rabs (B2R v) <= 1.001 -> Rabs (B2R w) <= 1.001 ->
  near (dot3 (A := b64A lm) x y z u v w) (B2R x * B2R u + B2R y * B2R v + B2R z * B2R w) (11 / 10000000000000000).
Proof.
  intros lm G x y z u v w Fx Fy Fz Fu Fv Fw Hx Hy Hz Hu Hv Hw.
  pose proof (apx_ent x Fx Hx) as Ax. pose proof (apx_ent y Fy Hy) as Ay. pose proof (apx_ent z Fz Hz) as Az.
  pose proof (apx_ent u Fu Hu) as Au. pose proof (apx_ent v Fv Hv) as Av. pose proof (apx_ent w Fw Hw) as Aw.
  pose proof (checkb_ok lm G _ _ _ (dot3 (A := exprA) (EVar 0) (EVar 1) (EVar 2) (EVar 3) (EVar 4) (EVar 5))
    (B (-4 * one) (4 * one) (11 * one / 10000000000000000))
    (apxl_cons Ax (apxl_cons Ay (apxl_cons Az (apxl_cons Au (apxl_cons Av (apxl_cons Aw apxl_nil))))))) as K.
  rewrite (dot3_eval (b64A lm)), (dot3_eval realA) in K. specialize (K ltac:(vm_compute; reflexivity)).
  replace (B2R x * B2R u + B2R y * B2R v + B2R z * B2R w) with (dot3 (A := realA) (B2R x) (B2R y) (B2R z) (B2R u) (B2R v) (B2R w)).
  - split; [apply K|]. apply (apx_err _ _ _ _ _ K); vm_compute; reflexivity.
  - unfold dot3. realA_ops. rlit_in_goal. ring.
Qed.

Lemma entry_1 : forall m i j, proper m -> Rabs (entry m i j) <= 1.
Proof.
  intros m i j [H _]. specialize (H i i). apply abs_le_sq; [lra|].
  assert (K : kron i i = 1) by (destruct i; reflexivity). rewrite K in H.
  pose proof (Rle_0_sqr (entry m i I0)). pose proof (Rle_0_sqr (entry m i I1)). pose proof (Rle_0_sqr (entry m i I2)). unfold Rsqr in *.
  destruct j; lra.
Qed.

Lemma mfro_compose : forall lm, good_libm lm -> forall (M N : mat3 (b64A lm)) M' N' f g, proper M' -> proper N' ->
  mfro M M' f -> mfro N N' g -> f <= 1 / 1000 -> g <= 1 / 1000 ->
  mfro (mcompose (A := b64A lm) M N) (mcompose (A := realA) M' N') (f + 1.009 * g + 3.3 / 10 ^ 15).
Proof.
  intros lm G M N M' N' f g PM PN [FM HM] [FN HN] Lf Lg.
  assert (BM : forall i j, Rabs (B2R (mget (A := b64A lm) M i j)) <= 1.001).
  { intros i j. pose proof (fro_ge (errm M M') i j) as K. pose proof (entry_1 M' i j PM) as L. unfold errm in K at 1.
    replace (B2R (mget (A := b64A lm) M i j)) with ((B2R (mget (A := b64A lm) M i j) - entry M' i j) + entry M' i j) by ring.
    eapply Rle_trans; [apply Rabs_triang|]. lra. }
  assert (BN : forall i j, Rabs (B2R (mget (A := b64A lm) N i j)) <= 1.001).
  { intros i j. pose proof (fro_ge (errm N N') i j) as K. pose proof (entry_1 N' i j PN) as L. unfold errm in K at 1.
    replace (B2R (mget (A := b64A lm) N i j)) with ((B2R (mget (A := b64A lm) N i j) - entry N' i j) + entry N' i j) by ring.
    eapply Rle_trans; [apply Rabs_triang|]. lra. }
  assert (D : forall i j, near (mget (A := b64A lm) (mcompose (A := b64A lm) M N) i j)
     (B2R (mget (A := b64A lm) M i I0) * B2R (mget (A := b64A lm) N I0 j) + B2R (mget (A := b64A lm) M i I1) * B2R (mget (A := b64A lm) N I1 j) +
      B2R (mget (A := b64A lm) M i I2) * B2R (mget (A := b64A lm) N I2 j)) (11 / 10000000000000000)).
  { intros i j. rewrite (mcompose_get (b64A lm)). apply (dot3_ok lm G); try apply FM; try apply FN; try apply BM; apply BN. }
  split; [intros i j; apply (D i j)|].
  set (rr := (fun i j => B2R (mget (A := b64A lm) (mcompose (A := b64A lm) M N) i j) -
     (B2R (mget (A := b64A lm) M i I0) * B2R (mget (A := b64A lm) N I0 j) + B2R (mget (A := b64A lm) M i I1) * B2R (mget (A := b64A lm) N I1 j) +
      B2R (mget (A := b64A lm) M i I2) * B2R (mget (A := b64A lm) N I2 j))) : emat).
  assert (FR : fro rr <= 3 * (11 / 10000000000000000)) by (apply fro_le; intros i j; apply (D i j)).
  rewrite (fro_ext _ (eplus rr (eplus (emul (errm M M') (entry N')) (eplus (emul (entry M') (errm N N')) (emul (errm M M') (errm N N')))))).
  2:{ intros i j. unfold eplus, emul, rr, errm. rewrite (mcompose_product M' N' i j). ring. }
  eapply Rle_trans; [apply fro_tri|]. pose proof (fro_tri (emul (errm M M') (entry N')) (eplus (emul (entry M') (errm N N')) (emul (errm M M') (errm N N')))) as T1.
  pose proof (fro_tri (emul (entry M') (errm N N')) (emul (errm M M') (errm N N'))) as T2.
  rewrite fro_mul_r in T1 by exact PN. rewrite fro_mul_l in T2 by exact PM.
  pose proof (fro_mul2 (errm M M') (errm N N')) as T3. pose proof (fro_nonneg (errm M M')) as P1. pose proof (fro_nonneg (errm N N')) as P2.
  assert (fro (errm M M') * fro (errm N N') <= 1 / 1000 * g) by (apply Rmult_le_compat; lra). lra.
Qed.

Lemma mfro_identity : forall lm, mfro (midentity (A := b64A lm)) (midentity (A := realA)) 0.
Proof.
  intros lm. assert (Z : forall i j, fin (mget (A := b64A lm) (midentity (A := b64A lm)) i j) = true /\
    B2R (mget (A := b64A lm) (midentity (A := b64A lm)) i j) = kron i j).
  { destruct (FofZ_ok 0 ltac:(lia)) as (V0 & F0 & _). destruct (FofZ_ok 1 ltac:(lia)) as (V1 & F1 & _).
    intros [| |] [| |]; unfold kron; split; first [exact F0|exact F1|exact V0|exact V1]. }
  split; [intros i j; apply Z|]. rewrite (fro_ext _ (fun _ _ => 0)).
  - apply fro_le_sq; [lra|]. rewrite !erow_sq. lra.
  - intros i j. unfold errm. rewrite (proj2 (Z i j)), midentity_entry. ring.
Qed.

Lemma trig_near : forall lm, good_libm lm -> forall x r e, near_angle x r e ->
  near (lm_cos lm x) (cos r) (e + bpow radix2 (-52)) /\ near (lm_sin lm x) (sin r) (e + bpow radix2 (-52)).
Proof.
  intros lm G x r e (F & k & H). destruct (trig_turns r k) as [TC TS]. rewrite <- TC, <- TS.
  destruct (good_cos lm G x F) as [FC HC]. destruct (good_sin lm G x F) as [FS HS].
  split; (split; [assumption|]).
  - pose proof (cos_lip (B2R x) (r + IZR k * (2 * PI))).
    replace (B2R (lm_cos lm x) - cos (r + IZR k * (2 * PI))) with ((B2R (lm_cos lm x) - cos (B2R x)) + (cos (B2R x) - cos (r + IZR k * (2 * PI)))) by ring.
    eapply Rle_trans; [apply Rabs_triang|]. lra.
  - pose proof (sin_lip (B2R x) (r + IZR k * (2 * PI))).
    replace (B2R (lm_sin lm x) - sin (r + IZR k * (2 * PI))) with ((B2R (lm_sin lm x) - sin (B2R x)) + (sin (B2R x) - sin (r + IZR k * (2 * PI)))) by ring.
    eapply Rle_trans; [apply Rabs_triang|]. lra.
Qed.

(** Rotations at binary64 *)
Definition rotF (lm : libm) (ax : idx) (c s n : b64) : mat3 (b64A lm) :=
  let o := Flit 0 0 in let l := Flit 1 0 in
  match ax with
  | I0 => M3 (A := b64A lm) (V3 (A := b64A lm) l o o) (V3 (A := b64A lm) o c s) (V3 (A := b64A lm) o n c)
  | I1 => M3 (A := b64A lm) (V3 (A := b64A lm) c o n) (V3 (A := b64A lm) o l o) (V3 (A := b64A lm) s o c)
  | I2 => M3 (A := b64A lm) (V3 (A := b64A lm) c s o) (V3 (A := b64A lm) n c o) (V3 (A := b64A lm) o o l)
  end.
Lemma rotation_F : forall lm ax (x : b64), rotation (A := b64A lm) (axis_number ax) x =
  Val (rotF lm ax (lm_cos lm x) (lm_sin lm x) (Bopp (lm_sin lm x))).
Proof. intros lm [| |] x; reflexivity. Qed.

Lemma mfro_rotation : forall lm, good_libm lm -> forall ax x r e, near_angle x r e ->
  exists m, rotation (A := b64A lm) (axis_number ax) x = Val m /\ mfro m (rot3 ax r) (2 * (e + bpow radix2 (-52))).
Proof.
  intros lm G ax x r e H. destruct (trig_near lm G x r e H) as [[FC HC] [FS HS]].
  eexists. split; [apply rotation_F|]. set (c := lm_cos lm x) in *. set (s := lm_sin lm x) in *. set (d := e + bpow radix2 (-52)) in *.
  assert (D0 : 0 <= d) by (eapply Rle_trans; [apply Rabs_pos|exact HC]). clearbody c s d.
  destruct (FofZ_ok 0 ltac:(lia)) as (V0 & F0 & _). destruct (FofZ_ok 1 ltac:(lia)) as (V1 & F1 & _).
  assert (FN : fin (Bopp s) = true) by (rewrite is_finite_Bopp; exact FS).
  assert (W0 : B2R (Flit 0 0) = 0) by exact V0. assert (W1 : B2R (Flit 1 0) = 1) by exact V1.
  assert (QC : (B2R c - cos r) * (B2R c - cos r) <= d * d).
  { rewrite <- (Rabs_pos_eq ((B2R c - cos r) * (B2R c - cos r))) by apply Rle_0_sqr. rewrite Rabs_mult. pose proof (Rabs_pos (B2R c - cos r)).
    apply Rmult_le_compat; assumption. }
  assert (QS : (B2R s - sin r) * (B2R s - sin r) <= d * d).
  { rewrite <- (Rabs_pos_eq ((B2R s - sin r) * (B2R s - sin r))) by apply Rle_0_sqr. rewrite Rabs_mult. pose proof (Rabs_pos (B2R s - sin r)).
    apply Rmult_le_compat; assumption. }
  split.
  - destruct ax; intros [| |] [| |]; first [exact F0|exact F1|exact FC|exact FS|exact FN].
  - apply fro_le_sq; [lra|]. rewrite !erow_sq. unfold errm, entry.
    destruct ax; cbn [rotF rot3 mget mrow vget r0 r1 r2 v0 v1 v2]; rewrite ?B2R_Bopp, ?W0, ?W1; nra.
Qed.
