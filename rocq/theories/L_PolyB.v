(** * Bounds of polynomials with decimal coefficients

    A polynomial expression is expanded and equal monomials are collected.  The
    absolute value is bounded by the sum over the monomials, given a bound of the
    absolute value of every variable. *)

From Coq Require Import ZArith Reals Lra Lia Bool List.
Import ListNotations.
Open Scope R_scope.

(** m / 10^n *)
Definition dcm (m : Z) (n : nat) : R := IZR m / IZR (10 ^ Z.of_nat n).
Lemma p10 : forall n, 0 < IZR (10 ^ Z.of_nat n).
Proof. intros n. apply IZR_lt. apply Z.pow_pos_nonneg; lia. Qed.
Lemma dcm_shift : forall m n k, dcm (m * 10 ^ Z.of_nat k) (n + k) = dcm m n.
Proof.
  intros m n k. unfold dcm. rewrite Nat2Z.inj_add, Z.pow_add_r, !mult_IZR by lia. pose proof (p10 n). pose proof (p10 k). field. split; lra.
Qed.
Definition dec_t : Type := (Z * nat)%type.
Definition dv (d : dec_t) : R := dcm (fst d) (snd d).
Definition dadd (a b : dec_t) : dec_t :=
  let '(m, i) := a in let '(n, j) := b in
  if Nat.leb i j then ((m * 10 ^ Z.of_nat (j - i) + n)%Z, j) else ((m + n * 10 ^ Z.of_nat (i - j))%Z, i).
Lemma dadd_ok : forall a b, dv (dadd a b) = dv a + dv b.
Proof.
  intros [m i] [n j]. unfold dadd, dv. cbn [fst snd]. destruct (Nat.leb i j) eqn:E.
  - apply Nat.leb_le in E. cbn [fst snd]. rewrite <- (dcm_shift m i (j - i)). replace (i + (j - i))%nat with j by lia.
    unfold dcm. rewrite plus_IZR. unfold Rdiv. ring.
  - apply Nat.leb_gt in E. cbn [fst snd]. rewrite <- (dcm_shift n j (i - j)). replace (j + (i - j))%nat with i by lia.
    unfold dcm. rewrite plus_IZR. unfold Rdiv. ring.
Qed.
Definition dmul (a b : dec_t) : dec_t := ((fst a * fst b)%Z, (snd a + snd b)%nat).
Lemma dmul_ok : forall a b, dv (dmul a b) = dv a * dv b.
Proof.
  intros [m i] [n j]. unfold dmul, dv, dcm. cbn [fst snd]. rewrite Nat2Z.inj_add, Z.pow_add_r, !mult_IZR by lia.
  pose proof (p10 i). pose proof (p10 j). field. split; lra.
Qed.
Definition dneg (a : dec_t) : dec_t := ((- fst a)%Z, snd a).
Lemma dneg_ok : forall a, dv (dneg a) = - dv a.
Proof. intros [m i]. unfold dneg, dv, dcm. cbn [fst snd]. rewrite opp_IZR. unfold Rdiv. ring. Qed.
Definition dabs (a : dec_t) : dec_t := (Z.abs (fst a), snd a).
Lemma dabs_ok : forall a, dv (dabs a) = Rabs (dv a).
Proof.
  intros [m i]. unfold dabs, dv, dcm. cbn [fst snd]. rewrite abs_IZR. unfold Rdiv. rewrite Rabs_mult. f_equal.
  symmetry. apply Rabs_pos_eq. left. apply Rinv_0_lt_compat, p10.
Qed.
Definition dle (a b : dec_t) : bool := let '(m, i) := a in let '(n, j) := b in (m * 10 ^ Z.of_nat j <=? n * 10 ^ Z.of_nat i)%Z.
Lemma dle_ok : forall a b, dle a b = true -> dv a <= dv b.
Proof.
  intros [m i] [n j] H. unfold dle in H. apply Z.leb_le in H. apply IZR_le in H. rewrite !mult_IZR in H. unfold dv, dcm. cbn [fst snd].
  pose proof (p10 i). pose proof (p10 j). set (x := IZR (10 ^ Z.of_nat i)) in *. set (y := IZR (10 ^ Z.of_nat j)) in *.
  apply (Rmult_le_reg_r (x * y)); [apply Rmult_lt_0_compat; assumption|]. 
  replace (IZR m / x * (x * y)) with (IZR m * y) by (field; lra). replace (IZR n / y * (x * y)) with (IZR n * x) by (field; lra). exact H.
Qed.

(** ** Expressions *)
Inductive pe : Type :=
| PC : Z -> nat -> pe
| PV : nat -> pe
| PA : pe -> pe -> pe
| PS : pe -> pe -> pe
| PM : pe -> pe -> pe.

Definition mono : Type := list nat.
Definition poly : Type := list (mono * dec_t).

Section Sem.
Variable env : list R.
Fixpoint peval (e : pe) : R :=
  match e with
  | PC m n => dcm m n
  | PV i => nth i env 0
  | PA a b => peval a + peval b
  | PS a b => peval a - peval b
  | PM a b => peval a * peval b
  end.
Fixpoint meval (m : mono) : R := match m with [] => 1 | i :: r => nth i env 0 * meval r end.
Fixpoint ppev (p : poly) : R := match p with [] => 0 | (m, d) :: r => dv d * meval m + ppev r end.

Fixpoint meq (a b : mono) : bool :=
  match a, b with [], [] => true | x :: a', y :: b' => Nat.eqb x y && meq a' b' | _, _ => false end.
Lemma meq_ok : forall a b, meq a b = true -> a = b.
Proof.
  induction a as [|x a IH]; intros [|y b] H; try discriminate; [reflexivity|]. cbn [meq] in H. apply andb_prop in H. destruct H as [H1 H2].
  apply Nat.eqb_eq in H1. rewrite H1, (IH b H2). reflexivity.
Qed.
Fixpoint pput (m : mono) (d : dec_t) (p : poly) : poly :=
  match p with
  | [] => [(m, d)]
  | (n, c) :: r => if meq m n then (n, dadd d c) :: r else (n, c) :: pput m d r
  end.
Lemma pput_ok : forall m d p, ppev (pput m d p) = dv d * meval m + ppev p.
Proof.
  intros m d p. induction p as [|[n c] r IH]; [reflexivity|]. cbn [pput]. destruct (meq m n) eqn:E; cbn [ppev].
  - apply meq_ok in E. subst n. rewrite dadd_ok. ring.
  - rewrite IH. ring.
Qed.
Definition padd (p q : poly) : poly := fold_right (fun x r => pput (fst x) (snd x) r) q p.
Lemma padd_ok : forall p q, ppev (padd p q) = ppev p + ppev q.
Proof.
  intros p q. induction p as [|[m d] p IH]; [cbn; ring|]. cbn [padd fold_right fst snd] in *. unfold padd in IH. rewrite pput_ok, IH. cbn [ppev]. ring.
Qed.
Definition pneg (p : poly) : poly := map (fun x => (fst x, dneg (snd x))) p.
Lemma pneg_ok : forall p, ppev (pneg p) = - ppev p.
Proof.
  induction p as [|[m d] p IH]; [cbn; ring|]. cbn [pneg map fst snd ppev] in *. unfold pneg in IH. rewrite IH, dneg_ok. ring.
Qed.
Fixpoint mput (i : nat) (m : mono) : mono :=
  match m with [] => [i] | j :: r => if Nat.leb i j then i :: m else j :: mput i r end.
Lemma mput_ok : forall i m, meval (mput i m) = nth i env 0 * meval m.
Proof. intros i m. induction m as [|j r IH]; [reflexivity|]. cbn [mput]. destruct (Nat.leb i j); cbn [meval]; [reflexivity|rewrite IH; ring]. Qed.
Definition mmul (a b : mono) : mono := fold_right mput b a.
Lemma mmul_ok : forall a b, meval (mmul a b) = meval a * meval b.
Proof.
  intros a b. induction a as [|i a IH]; [cbn; ring|]. cbn [mmul fold_right meval] in *. unfold mmul in IH. rewrite mput_ok, IH. ring.
Qed.
Definition prow (m : mono) (d : dec_t) (q acc : poly) : poly :=
  fold_right (fun y r => pput (mmul m (fst y)) (dmul d (snd y)) r) acc q.
Lemma prow_ok : forall m d q acc, ppev (prow m d q acc) = dv d * meval m * ppev q + ppev acc.
Proof.
  intros m d q acc. induction q as [|[n c] q IH]; [cbn; ring|]. cbn [prow fold_right fst snd ppev] in *. unfold prow in IH.
  rewrite pput_ok, IH, dmul_ok, mmul_ok. ring.
Qed.
Definition pmul (p q : poly) : poly := fold_right (fun x r => prow (fst x) (snd x) q r) [] p.
Lemma pmul_ok : forall p q, ppev (pmul p q) = ppev p * ppev q.
Proof.
  intros p q. induction p as [|[m d] p IH]; [cbn; ring|]. cbn [pmul fold_right fst snd ppev] in *. unfold pmul in IH. rewrite prow_ok, IH. ring.
Qed.
Fixpoint pnorm (e : pe) : poly :=
  match e with
  | PC m n => [([], (m, n))]
  | PV i => [([i], (1%Z, 0%nat))]
  | PA a b => padd (pnorm a) (pnorm b)
  | PS a b => padd (pneg (pnorm b)) (pnorm a)
  | PM a b => pmul (pnorm a) (pnorm b)
  end.
Lemma pnorm_ok : forall e, ppev (pnorm e) = peval e.
Proof.
  induction e as [m n|i|a IHa b IHb|a IHa b IHb|a IHa b IHb]; cbn [pnorm peval].
  - cbn [ppev meval]. unfold dv. cbn [fst snd]. ring.
  - cbn [ppev meval]. unfold dv, dcm. cbn [fst snd Z.of_nat Z.pow]. lra.
  - rewrite padd_ok, IHa, IHb. reflexivity.
  - rewrite padd_ok, pneg_ok, IHa, IHb. ring.
  - rewrite pmul_ok, IHa, IHb. reflexivity.
Qed.

(** ** Bounds *)
Variable bnd : list dec_t.
Definition vb (i : nat) : dec_t := nth i bnd (0%Z, 0%nat).
Hypothesis vb_ok : Forall2 (fun x b => Rabs x <= dv b) env bnd.
Lemma vb_nth : forall i, Rabs (nth i env 0) <= dv (vb i).
Proof.
  unfold vb. revert vb_ok. generalize env bnd. induction env0 as [|x l IH]; intros bnd0 F i; inversion F as [|a b l1 l' H F']; subst.
  - destruct i; cbn [nth]; rewrite Rabs_R0; unfold dv, dcm; cbn [fst snd Z.of_nat Z.pow]; lra.
  - destruct i as [|i]; cbn [nth]; [exact H|apply IH; exact F'].
Qed.
Fixpoint mbound (m : mono) : dec_t := match m with [] => (1%Z, 0%nat) | i :: r => dmul (vb i) (mbound r) end.
Lemma mbound_ok : forall m, Rabs (meval m) <= dv (mbound m).
Proof.
  induction m as [|i r IH]; cbn [meval mbound].
  - rewrite Rabs_R1. unfold dv, dcm. cbn [fst snd Z.of_nat Z.pow]. lra.
  - rewrite dmul_ok, Rabs_mult. apply Rmult_le_compat; try apply Rabs_pos; [apply vb_nth|exact IH].
Qed.
Fixpoint pbound (p : poly) : dec_t := match p with [] => (0%Z, 0%nat) | (m, d) :: r => dadd (dmul (dabs d) (mbound m)) (pbound r) end.
Lemma pbound_ok : forall p, Rabs (ppev p) <= dv (pbound p).
Proof.
  induction p as [|[m d] r IH]; cbn [ppev pbound].
  - rewrite Rabs_R0. unfold dv, dcm. cbn [fst snd Z.of_nat Z.pow]. lra.
  - rewrite dadd_ok, dmul_ok, dabs_ok. eapply Rle_trans; [apply Rabs_triang|]. apply Rplus_le_compat; [|exact IH].
    rewrite Rabs_mult. apply Rmult_le_compat_l; [apply Rabs_pos|apply mbound_ok].
Qed.
Lemma peval_bound : forall e c, dle (pbound (pnorm e)) c = true -> Rabs (peval e) <= dv c.
Proof. intros e c H. rewrite <- pnorm_ok. eapply Rle_trans; [apply pbound_ok|apply dle_ok; exact H]. Qed.
End Sem.
