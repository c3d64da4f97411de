(** * Bounds on the series in exact arithmetic *)

From Coq Require Import ZArith Reals Lra Lia Bool List.
From Flocq Require Import Core.
From Verif Require Import Outcome Arith ArithR M_Common M_Time M_Earth M_Locator M_Frames T_Epv00 T_Nut T_Cio.
From Verif Require Import L_ArithR L_Series.
Import ListNotations.
Open Scope R_scope.

(** ** Decimal literals as scaled integers *)

Definition rl (d : Z * Z) : R := Rlit (fst d) (snd d).
Definition sc (k : Z) (d : Z * Z) : Z := (fst d * 10 ^ (snd d + k))%Z.

Lemma rl_sc : forall k d, (0 <= k)%Z -> (- k <= snd d)%Z -> rl d = IZR (sc k d) / IZR (10 ^ k).
Proof.
  intros k [m e] Hk He. cbn [snd] in He. unfold rl, sc. cbn [fst snd].
  assert (P : forall n, (0 <= n)%Z -> IZR (10 ^ n) <> 0).
  { intros n Hn. apply IZR_neq. apply Z.pow_nonzero; lia. }
  unfold Rlit. destruct e as [|p|p].
  - rewrite Z.add_0_l, !mult_IZR. change (10 ^ 0)%Z with 1%Z. field. apply P; lia.
  - rewrite Z.pow_add_r by lia. rewrite !mult_IZR. field. apply P; lia.
  - change (Z.pow_pos 10 p) with (10 ^ Zpos p)%Z.
    assert (E : (10 ^ k = 10 ^ (Zneg p + k) * 10 ^ Zpos p)%Z) by (rewrite <- Z.pow_add_r by lia; f_equal; lia).
    rewrite E, !mult_IZR. field. split; apply P; lia.
Qed.

Definition sumR (B : nat -> R) (l : list nat) : R := fold_right (fun i s => B i + s) 0 l.
Definition sumZ (B : nat -> Z) (l : list nat) : Z := fold_right (fun i s => (B i + s)%Z) 0%Z l.

Lemma sumR_abs_lit : forall k (d : nat -> Z * Z) l, (0 <= k)%Z ->
  forallb (fun i => (- k <=? snd (d i))%Z) l = true ->
  sumR (fun i => Rabs (rl (d i))) l = IZR (sumZ (fun i => Z.abs (sc k (d i))) l) / IZR (10 ^ k).
Proof.
  intros k d l Hk H. assert (P : 0 < IZR (10 ^ k)) by (apply IZR_lt; apply Z.pow_pos_nonneg; lia).
  induction l as [|i l IH]; [cbn [sumR sumZ fold_right]; field; lra|].
  cbn [forallb] in H. apply andb_true_iff in H. destruct H as [H1 H2].
  cbn [sumR sumZ fold_right]. fold (sumR (fun i => Rabs (rl (d i))) l). fold (sumZ (fun i => Z.abs (sc k (d i))) l).
  rewrite (IH H2), plus_IZR, (rl_sc k) by (try lia; apply Z.leb_le; exact H1).
  unfold Rdiv at 1. rewrite Rabs_mult, <- abs_IZR. rewrite (Rabs_pos_eq (/ _)) by (apply Rlt_le, Rinv_0_lt_compat, P).
  field. lra.
Qed.

Lemma sumR_le : forall B C l, (forall i, In i l -> B i <= C i) -> sumR B l <= sumR C l.
Proof.
  intros B C l H. induction l as [|i l IH]; [cbn; lra|]. cbn [sumR fold_right].
  pose proof (H i (or_introl eq_refl)). assert (sumR B l <= sumR C l) by (apply IH; intros j Hj; apply H; right; exact Hj).
  unfold sumR in *. lra.
Qed.
Lemma sumR_plus : forall B C l, sumR (fun i => B i + C i) l = sumR B l + sumR C l.
Proof. intros B C l. induction l as [|i l IH]; cbn [sumR fold_right] in *; [lra|]. unfold sumR in *. rewrite IH. lra. Qed.
Lemma sumR_scal : forall c B l, sumR (fun i => c * B i) l = c * sumR B l.
Proof. intros c B l. induction l as [|i l IH]; cbn [sumR fold_right] in *; [lra|]. unfold sumR in *. rewrite IH. lra. Qed.
Lemma sumR_rev : forall B l, sumR B (rev l) = sumR B l.
Proof.
  intros B l. assert (A : forall l1 l2, sumR B (l1 ++ l2) = sumR B l1 + sumR B l2).
  { intros l1 l2. unfold sumR. induction l1 as [|i l1 IH]; cbn [fold_right app] in *; [lra|]. rewrite IH. lra. }
  induction l as [|i l IH]; [reflexivity|]. cbn [rev]. rewrite A, IH. unfold sumR. cbn [fold_right]. lra.
Qed.

Lemma fold_bound : forall (S : Type) (p : S -> R) (f : S -> nat -> S) (B : nat -> R) l,
  (forall s i, In i l -> Rabs (p (f s i) - p s) <= B i) ->
  forall s, Rabs (p (fold_left f l s) - p s) <= sumR B l.
Proof.
  intros S p f B l. induction l as [|i l IH]; intros H s.
  - cbn. rewrite Rminus_diag_eq by reflexivity. rewrite Rabs_R0. lra.
  - cbn [fold_left]. pose proof (H s i (or_introl eq_refl)) as H1.
    assert (H2 : Rabs (p (fold_left f l (f s i)) - p (f s i)) <= sumR B l) by (apply IH; intros; apply H; right; assumption).
    cbn [sumR fold_right]. fold (sumR B l).
    apply Rabs_le_inv in H1. apply Rabs_le_inv in H2. apply Rabs_le. lra.
Qed.

(** ** Nutation *)

Definition clsd (i q : nat) : Z * Z := nth q (nth i CLS []) (0, 0)%Z.

Lemma trig_term : forall a b c t u v, Rabs u <= 1 -> Rabs v <= 1 ->
  Rabs ((a + b * t) * u + c * v) <= Rabs a + Rabs t * Rabs b + Rabs c.
Proof.
  intros a b c t u v Hu Hv.
  assert (A1 : Rabs (a + b * t) <= Rabs a + Rabs t * Rabs b).
  { eapply Rle_trans; [apply Rabs_triang|]. rewrite Rabs_mult. lra. }
  eapply Rle_trans; [apply Rabs_triang|]. rewrite !Rabs_mult.
  pose proof (Rabs_pos (a + b * t)). pose proof (Rabs_pos c). nra.
Qed.
Lemma sin_abs : forall x, Rabs (sin x) <= 1.
Proof. intros x. apply Rabs_le. pose proof (SIN_bound x). lra. Qed.
Lemma cos_abs : forall x, Rabs (cos x) <= 1.
Proof. intros x. apply Rabs_le. pose proof (COS_bound x). lra. Qed.

Lemma cls_R : forall i q, cls realA i q = rl (clsd i q).
Proof. reflexivity. Qed.

Definition sumcls (q : nat) : R := sumR (fun i => Rabs (rl (clsd i q))) (seq 0 77).

Lemma nut_sum_bound : forall t,
  Rabs (fst (nut_sum realA t)) <= sumcls 0 + Rabs t * sumcls 1 + sumcls 2 /\
  Rabs (snd (nut_sum realA t)) <= sumcls 3 + Rabs t * sumcls 4 + sumcls 5.
Proof.
  intros t. unfold nut_sum, sumcls.
  assert (S0 : Rlit 0 0 = 0) by (apply Rlit_0). split.
  - pose proof (fold_bound (R * R) fst (nut_step realA t)
      (fun i => Rabs (rl (clsd i 0)) + Rabs t * Rabs (rl (clsd i 1)) + Rabs (rl (clsd i 2))) (rev (seq 0 77))) as F.
    assert (H : forall s i, In i (rev (seq 0 77)) -> Rabs (fst (nut_step realA t s i) - fst s) <=
      Rabs (rl (clsd i 0)) + Rabs t * Rabs (rl (clsd i 1)) + Rabs (rl (clsd i 2))).
    { intros s i _. unfold nut_step. cbn [fst]. realA_ops. rewrite !cls_R.
      match goal with |- Rabs (?a + ?b - ?a) <= _ => replace (a + b - a) with b by ring end.
      apply trig_term; [apply sin_abs|apply cos_abs]. }
    specialize (F H (Rlit 0 0, Rlit 0 0)). cbn [fst] in F. rewrite S0, Rminus_0_r in F.
    rewrite sumR_rev, !sumR_plus, sumR_scal in F. change (lit realA 0 0) with (Rlit 0 0). rewrite S0. exact F.
  - pose proof (fold_bound (R * R) snd (nut_step realA t)
      (fun i => Rabs (rl (clsd i 3)) + Rabs t * Rabs (rl (clsd i 4)) + Rabs (rl (clsd i 5))) (rev (seq 0 77))) as F.
    assert (H : forall s i, In i (rev (seq 0 77)) -> Rabs (snd (nut_step realA t s i) - snd s) <=
      Rabs (rl (clsd i 3)) + Rabs t * Rabs (rl (clsd i 4)) + Rabs (rl (clsd i 5))).
    { intros s i _. unfold nut_step. cbn [snd]. realA_ops. rewrite !cls_R.
      match goal with |- Rabs (?a + ?b - ?a) <= _ => replace (a + b - a) with b by ring end.
      apply trig_term; [apply cos_abs|apply sin_abs]. }
    specialize (F H (Rlit 0 0, Rlit 0 0)). cbn [snd] in F. rewrite S0, Rminus_0_r in F.
    rewrite sumR_rev, !sumR_plus, sumR_scal in F. change (lit realA 0 0) with (Rlit 0 0). rewrite S0. exact F.
Qed.

Lemma sumcls_values : sumcls 0 = 194486804 /\ sumcls 1 = 183352 /\ sumcls 2 = 67561 /\
  sumcls 3 = 100820673 /\ sumcls 4 = 14436 /\ sumcls 5 = 25901.
Proof.
  unfold sumcls. repeat split;
  (rewrite (sumR_abs_lit 0) by (try lia; vm_compute; reflexivity));
  match goal with |- IZR ?z / _ = IZR ?n => replace z with n%Z by (vm_compute; reflexivity) end;
  change (10 ^ 0)%Z with 1%Z; field.
Qed.
