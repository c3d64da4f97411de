(** * Polynomial expressions with a bounded error, and derivatives of polynomial expressions *)

From Coq Require Import ZArith Reals Lra Lia Bool List.
From Flocq Require Import Core.
From Verif Require Import L_PolyB L_Spin.
Import ListNotations.
Open Scope R_scope.

(** ** Derivatives *)
Section Der.
Variables (env : R -> list R) (der : list pe).
Fixpoint pder (e : pe) : pe :=
  match e with
  | PC _ _ => PC 0 0
  | PV i => nth i der (PC 0 0)
  | PA a b => PA (pder a) (pder b)
  | PS a b => PS (pder a) (pder b)
  | PM a b => PA (PM (pder a) b) (PM a (pder b))
  end.
Fixpoint uses (n : nat) (e : pe) : bool :=
  match e with
  | PC _ _ => true
  | PV i => Nat.ltb i n
  | PA a b | PS a b | PM a b => uses n a && uses n b
  end.
Lemma pder_C1 : forall n, (forall i, (i < n)%nat -> C1 (fun t => nth i (env t) 0) (fun t => peval (env t) (nth i der (PC 0 0)))) ->
  forall e, uses n e = true -> C1 (fun t => peval (env t) e) (fun t => peval (env t) (pder e)).
Proof.
  intros n H e. induction e as [m k|i|a IHa b IHb|a IHa b IHb|a IHa b IHb]; cbn [uses pder peval]; intros U; try (apply andb_prop in U; destruct U as [Ua Ub]).
  - apply (C1_ext _ _ _ _ (C1_const (dcm m k))); intros t; [reflexivity|]. unfold dcm. lra.
  - apply H. apply Nat.ltb_lt. exact U.
  - apply C1_plus; auto.
  - apply C1_minus; auto.
  - apply (C1_ext _ _ _ _ (C1_mult _ _ _ _ (IHa Ua) (IHb Ub))); intros t; ring.
Qed.
End Der.

(** ** Polynomials with an error *)
Definition tm : Type := (poly * dec_t)%type.
Section Tay.
Variables (env : list R) (bnd : list dec_t).
Hypothesis B : Forall2 (fun x b => Rabs x <= dv b) env bnd.
Definition tsem (v : R) (x : tm) : Prop := Rabs (v - ppev env (fst x)) <= dv (snd x).

Definition dround (d : dec_t) : dec_t := let '(m, n) := d in if Nat.leb n 30 then d else ((m / 10 ^ Z.of_nat (n - 30))%Z, 30%nat).
Lemma dround_ok : forall d, Rabs (dv d - dv (dround d)) <= dv (1%Z, 30%nat).
Proof.
  intros [m n]. unfold dround. destruct (Nat.leb n 30) eqn:E.
  - rewrite Rminus_eq_0, Rabs_R0. unfold dv, dcm. cbn [fst snd]. change (10 ^ Z.of_nat 30)%Z with 1000000000000000000000000000000%Z. lra.
  - apply Nat.leb_gt in E. unfold dv. cbn [fst snd]. rewrite <- (dcm_shift (m / 10 ^ Z.of_nat (n - 30)) 30 (n - 30)). replace (30 + (n - 30))%nat with n by lia. 
    unfold dcm. set (p := (10 ^ Z.of_nat (n - 30))%Z). assert (Hp : (0 < p)%Z) by (apply Z.pow_pos_nonneg; lia).
    pose proof (Z.div_mod m p ltac:(lia)) as D. pose proof (Z.mod_pos_bound m p Hp) as M.
    assert (P : IZR (10 ^ Z.of_nat n) = IZR (10 ^ Z.of_nat 30) * IZR p) by (unfold p; rewrite <- mult_IZR, <- Z.pow_add_r by lia; f_equal; f_equal; lia).
    replace (IZR m / IZR (10 ^ Z.of_nat n) - IZR (m / p * p) / IZR (10 ^ Z.of_nat n)) with (IZR (m mod p) / IZR (10 ^ Z.of_nat n)).
    2:{ unfold Rdiv. rewrite <- Rmult_minus_distr_r, <- minus_IZR. do 2 f_equal. lia. }
    destruct M as [M1 M2]. apply IZR_le in M1. apply IZR_lt in M2. rewrite P. set (t30 := IZR (10 ^ Z.of_nat 30)). assert (T : 0 < t30) by (unfold t30; apply p10). apply (IZR_lt 0) in Hp.
    set (u := IZR (m mod p)) in *. set (q := IZR p) in *. clearbody u q. 
    assert (I : 0 < / (t30 * q)) by (apply Rinv_0_lt_compat, Rmult_lt_0_compat; assumption).
    rewrite Rabs_pos_eq by (apply Rmult_le_pos; lra). apply Rle_trans with (q / (t30 * q)); [apply Rmult_le_compat_r; lra|]. right. field. lra.
Qed.
Lemma dle_dv : forall a b, dv a <= b -> 0 <= b - dv a.
Proof. intros. lra. Qed.
(** Leaves out the monomials below [tol]. *)
Fixpoint prune (tol : dec_t) (p : poly) : tm :=
  match p with
  | [] => ([], (0%Z, 0%nat))
  | (m, d) :: r =>
      let '(q, e) := prune tol r in
      let mb := mbound bnd m in
      let b := dmul (dabs d) mb in
      if dle b tol then (q, dadd (dround b) (dadd (1%Z, 30%nat) e)) else ((m, dround d) :: q, dadd (dround (dmul (1%Z, 30%nat) mb)) (dadd (1%Z, 30%nat) e))
  end.
Lemma prune_ok : forall tol p, Rabs (ppev env p - ppev env (fst (prune tol p))) <= dv (snd (prune tol p)).
Proof.
  intros tol p. induction p as [|[m d] r IH]; cbn [prune].
  - cbn [fst snd ppev]. rewrite Rminus_0_r, Rabs_R0. unfold dv, dcm. cbn [fst snd Z.of_nat Z.pow]. lra.
  - destruct (prune tol r) as [q e]. cbn [fst snd] in IH. pose proof (mbound_ok env bnd B m) as M. destruct (dle _ tol); cbn [fst snd ppev]; rewrite !dadd_ok.
    + pose proof (dround_ok (dmul (dabs d) (mbound bnd m))) as D. rewrite dmul_ok, dabs_ok in D.
      assert (X : Rabs (dv d * meval env m) <= Rabs (dv d) * dv (mbound bnd m)) by (rewrite Rabs_mult; apply Rmult_le_compat_l; [apply Rabs_pos|exact M]).
      apply Rabs_le_inv in D. apply Rabs_le_inv in X. apply Rabs_le_inv in IH. apply Rabs_le. lra.
    + pose proof (dround_ok d) as D. pose proof (dround_ok (dmul (1%Z, 30%nat) (mbound bnd m))) as D2. rewrite dmul_ok in D2.
      assert (X : Rabs ((dv d - dv (dround d)) * meval env m) <= dv (1%Z, 30%nat) * dv (mbound bnd m)) by (rewrite Rabs_mult; apply Rmult_le_compat; try apply Rabs_pos; assumption).
      rewrite Rmult_minus_distr_r in X. apply Rabs_le_inv in D2. apply Rabs_le_inv in X. apply Rabs_le_inv in IH. apply Rabs_le. lra.
Qed.
Variable tol : dec_t.
Definition trim (x : tm) : tm := let '(q, e) := prune tol (fst x) in (q, dadd e (snd x)).
Lemma trim_ok : forall v x, tsem v x -> tsem v (trim x).
Proof.
  intros v [p e] H. unfold tsem, trim in *. cbn [fst snd] in *. pose proof (prune_ok tol p) as P. destruct (prune tol p) as [q f]. cbn [fst snd] in *. rewrite dadd_ok.
  apply Rabs_le_inv in P. apply Rabs_le_inv in H. apply Rabs_le. lra.
Qed.
Definition cut (d : dec_t) : dec_t := let '(m, n) := d in if Nat.leb n 30 then d else ((m / 10 ^ Z.of_nat (n - 30) + 1)%Z, 30%nat).
Lemma cut_ok : forall d, dv d <= dv (cut d).
Proof.
  intros [m n]. pose proof (dround_ok (m, n)) as H. unfold dround, cut in *. destruct (Nat.leb n 30); [lra|]. apply Rabs_le_inv in H.
  unfold dv, dcm in *. cbn [fst snd] in *. rewrite plus_IZR. unfold Rdiv in *. lra.
Qed.
Definition tmulm (x y : tm) : tm :=
  let '(p, e) := x in let '(q, f) := y in
  trim (pmul p q, cut (dadd (dmul (pbound bnd p) f) (dmul e (dadd (pbound bnd q) f)))).
Lemma tmulm_ok : forall u v x y, tsem u x -> tsem v y -> tsem (u * v) (tmulm x y).
Proof.
  intros u v [p e] [q f] Hu Hv. unfold tmulm. apply trim_ok. unfold tsem in *. cbn [fst snd] in *. rewrite pmul_ok.
  pose proof (pbound_ok env bnd B p) as BP. pose proof (pbound_ok env bnd B q) as BQ. eapply Rle_trans; [|apply cut_ok]. rewrite dadd_ok, !dmul_ok, dadd_ok.
  assert (V : Rabs v <= dv (pbound bnd q) + dv f) by (apply Rabs_le_inv in Hv; apply Rabs_le_inv in BQ; apply Rabs_le; lra).
  replace (u * v - ppev env p * ppev env q) with (ppev env p * (v - ppev env q) + (u - ppev env p) * v) by ring.
  eapply Rle_trans; [apply Rabs_triang|]. rewrite !Rabs_mult. apply Rplus_le_compat; apply Rmult_le_compat; try apply Rabs_pos; assumption.
Qed.
Fixpoint teval (atoms : list tm) (e : pe) : tm :=
  match e with
  | PC m n => ([([], (m, n))], (0%Z, 0%nat))
  | PV i => nth i atoms ([], (0%Z, 0%nat))
  | PA a b => let x := teval atoms a in let y := teval atoms b in (padd (fst x) (fst y), dadd (snd x) (snd y))
  | PS a b => let x := teval atoms a in let y := teval atoms b in (padd (pneg (fst y)) (fst x), dadd (snd x) (snd y))
  | PM a b => tmulm (teval atoms a) (teval atoms b)
  end.
Lemma teval_ok : forall vals atoms, Forall2 tsem vals atoms -> forall e, tsem (peval vals e) (teval atoms e).
Proof.
  intros vals atoms F e. induction e as [m k|i|a IHa b IHb|a IHa b IHb|a IHa b IHb]; cbn [peval teval].
  - unfold tsem. cbn [fst snd ppev meval]. unfold dv at 1. cbn [fst snd]. rewrite Rmult_1_r, Rplus_0_r, Rminus_eq_0, Rabs_R0. unfold dv, dcm. cbn [fst snd Z.of_nat Z.pow]. lra.
  - revert i. induction F as [|v x vals atoms H F IH]; intros i.
    + destruct i; cbn [nth]; unfold tsem; cbn [fst snd ppev]; rewrite Rminus_0_r, Rabs_R0; unfold dv, dcm; cbn [fst snd Z.of_nat Z.pow]; lra.
    + destruct i as [|i]; cbn [nth]; [exact H|apply IH].
  - unfold tsem in *. cbn [fst snd]. rewrite padd_ok, dadd_ok. apply Rabs_le_inv in IHa. apply Rabs_le_inv in IHb. apply Rabs_le. lra.
  - unfold tsem in *. cbn [fst snd]. rewrite padd_ok, pneg_ok, dadd_ok. apply Rabs_le_inv in IHa. apply Rabs_le_inv in IHb. apply Rabs_le. lra.
  - apply tmulm_ok; assumption.
Qed.
Definition tsize (x : tm) : dec_t := dadd (pbound bnd (fst x)) (snd x).
Lemma teval_bound : forall vals atoms, Forall2 tsem vals atoms -> forall e c, dle (tsize (teval atoms e)) c = true -> Rabs (peval vals e) <= dv c.
Proof.
  intros vals atoms F e c H. pose proof (teval_ok vals atoms F e) as T. unfold tsem in T. pose proof (pbound_ok env bnd B (fst (teval atoms e))) as P.
  apply dle_ok in H. unfold tsize in H. rewrite dadd_ok in H. apply Rabs_le_inv in T. apply Rabs_le_inv in P. apply Rabs_le. lra.
Qed.
End Tay.

(** ** Straight-line programs: every expression may use the values before it *)
Fixpoint ext (v : list R) (l : list pe) : list R := match l with [] => v | e :: r => ext (v ++ [peval v e]) r end.
Fixpoint text (bnd : list dec_t) (tol : dec_t) (a : list tm) (l : list pe) : list tm := match l with [] => a | e :: r => text bnd tol (a ++ [teval bnd tol a e]) r end.
Lemma text_ok : forall env bnd, Forall2 (fun x b => Rabs x <= dv b) env bnd -> forall tol l v a, Forall2 (tsem env) v a -> Forall2 (tsem env) (ext v l) (text bnd tol a l).
Proof.
  intros env bnd B tol l. induction l as [|e l IH]; intros v a F; cbn [ext text]; [exact F|]. apply IH. apply Forall2_app; [exact F|].
  constructor; [|constructor]. apply teval_ok; assumption.
Qed.
