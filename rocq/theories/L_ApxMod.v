(** * Running error bounds: remainders, whole turns *)

From Coq Require Import ZArith Reals Lra Lia Bool List.
From Flocq Require Import Core BinarySingleNaN.
From Verif Require Import Outcome Arith ArithR ArithF Spec_Float Spec_Accuracy M_Common.
From Verif Require Import L_ArithF L_ArithR L_FromJulianF L_Flit L_Apx.
Import ListNotations.
Open Scope R_scope.

Lemma obind_some : forall (S T : Type) (o : option S) (f : S -> option T) y, obind o f = Some y -> exists x, o = Some x /\ f x = Some y.
Proof. intros S T [x|] f y H; [exists x; split; [reflexivity|exact H]|discriminate H]. Qed.
Arguments obind_some {S T o f y}.

Definition b_rem (a c : bnd) : option bnd :=
  if (er c <? lo c)%Z then
    let k := ((mg a + er a) / (lo c - er c) + 1)%Z in
    let e := (er a + k * er c)%Z in
    let h := (hi c + er c + e)%Z in
    Some (B (- h) h e)
  else None.

Lemma val_k : forall k z, val (k * z) = IZR k * val z.
Proof. intros. unfold val. rewrite mult_IZR. ring. Qed.

Lemma trunc_abs : forall x, Rabs (IZR (Ztrunc x)) <= Rabs x.
Proof.
  intros x. rewrite <- abs_IZR. unfold Ztrunc. destruct (Rlt_bool_spec x 0) as [H|H].
  - rewrite (Rabs_left x H). pose proof (Zceil_ub x). 
    assert (Zceil x <= 0)%Z by (apply Zceil_glb; simpl; lra).
    rewrite Z.abs_neq by assumption. rewrite opp_IZR. lra.
  - rewrite (Rabs_pos_eq x H). assert (0 <= Zfloor x)%Z by (apply Zfloor_lub; exact H).
    rewrite Z.abs_eq by assumption. apply Zfloor_lb.
Qed.

Lemma apx_rem : forall x y r P a c b, apx x r a -> apx y P c -> b_rem a c = Some b ->
  exists k : Z, apx (Frem x y) (r + IZR k * P) b.
Proof.
  intros x y r P a c b Ax Ay E. pose proof (apx_mg _ _ _ Ax) as Mx.
  pose proof (apx_er _ _ _ Ax) as Nx. pose proof (apx_er _ _ _ Ay) as Ny.
  destruct Ax as (Fx & Hx & Ex). destruct Ay as (Fy & Hy & Ey). unfold b_rem in E.
  destruct (er c <? lo c)%Z eqn:C; [|discriminate E]. apply Z.ltb_lt in C.
  set (km := ((mg a + er a) / (lo c - er c) + 1)%Z) in *. set (e := (er a + km * er c)%Z) in *. set (h := (hi c + er c + e)%Z) in *.
  assert (b = B (- h) h e) by congruence. subst b.
  assert (D0 : 0 < val (lo c - er c)) by (apply val_pos; lia).
  assert (Y0 : val (lo c - er c) <= B2R y <= val (hi c + er c)).
  { apply Rabs_le_inv in Ey. rewrite val_sub, val_add. lra. }
  assert (YN : B2R y <> 0) by lra.
  destruct (Frem_full x y Fx Fy YN) as (V & F & _).
  set (k := Ztrunc (B2R x / B2R y)) in *.
  assert (XM : Rabs (B2R x) <= val (mg a + er a)).
  { rewrite val_add. replace (B2R x) with (r + (B2R x - r)) by ring. eapply Rle_trans; [apply Rabs_triang|]. lra. }
  assert (K : Rabs (IZR k) <= IZR km).
  { unfold k. eapply Rle_trans; [apply trunc_abs|]. unfold Rdiv. rewrite Rabs_mult.
    apply Rle_trans with (val (mg a + er a) * / val (lo c - er c)).
    - apply Rmult_le_compat; try apply Rabs_pos; [exact XM|]. rewrite Rabs_pos_eq by (left; apply Rinv_0_lt_compat; lra).
      apply Rinv_le_contravar; lra.
    - unfold km. eapply Rle_trans; [|apply div_up; lia]. unfold val. right. field.
      split; [apply Rgt_not_eq, IZR_lt; lia|apply Rgt_not_eq, uu_pos]. }
  assert (EE : Rabs (B2R (Frem x y) - (r + IZR (- k) * P)) <= val e).
  { rewrite V. unfold Rrem. fold k. unfold e. rewrite val_add, val_k, opp_IZR.
    replace (B2R x - B2R y * IZR k - (r + - IZR k * P)) with ((B2R x - r) + - (IZR k * (B2R y - P))) by ring.
    eapply Rle_trans; [apply Rabs_triang|]. apply Rplus_le_compat; [exact Ex|]. rewrite Rabs_Ropp, Rabs_mult.
    apply Rmult_le_compat; try apply Rabs_pos; assumption. }
  exists (- k)%Z. split; [exact F|]. cbn [lo hi er]. split; [|exact EE].
  assert (RM : Rabs (B2R (Frem x y)) <= B2R y).
  { rewrite V. unfold Rrem. fold k.
    replace (B2R x - B2R y * IZR k) with (B2R y * (B2R x / B2R y - IZR k)) by (field; exact YN).
    rewrite Rabs_mult, (Rabs_pos_eq (B2R y)) by lra. apply Rle_trans with (B2R y * 1); [|lra].
    apply Rmult_le_compat_l; [lra|]. unfold k. left.
    set (q := B2R x / B2R y). unfold Ztrunc. destruct (Rlt_bool_spec q 0).
    - pose proof (Zceil_ub q). pose proof (Zceil_lb q). apply Rabs_lt. lra.
    - pose proof (Zfloor_lb q). pose proof (Zfloor_ub q). apply Rabs_lt. lra. }
  rewrite val_opp. apply Rabs_le_inv. unfold h. rewrite val_add.
  replace (r + IZR (- k) * P) with (B2R (Frem x y) + - (B2R (Frem x y) - (r + IZR (- k) * P))) by ring.
  eapply Rle_trans; [apply Rabs_triang|]. rewrite Rabs_Ropp. apply Rplus_le_compat; [|exact EE]. lra.
Qed.

(** [x] is close to [r] up to a whole number of turns. *)
Definition apxm (x : b64) (r : R) (b : bnd) : Prop := exists k : Z, apx x (r + IZR k * (2 * PI)) b.

Lemma apxm_of_apx : forall x r b, apx x r b -> apxm x r b.
Proof. intros x r b H. exists 0%Z. replace (r + 0 * (2 * PI)) with r by ring. exact H. Qed.

Lemma apxm_same : forall x r b k, apxm x r b -> apxm x (r + IZR k * (2 * PI)) b.
Proof.
  intros x r b k (j & H). exists (j - k)%Z. rewrite minus_IZR.
  replace (r + IZR k * (2 * PI) + (IZR j - IZR k) * (2 * PI)) with (r + IZR j * (2 * PI)) by ring. exact H.
Qed.

Lemma apxm_weaken : forall x r a b, apxm x r a -> bleb a b = true -> apxm x r b.
Proof. intros x r a b (k & H) L. exists k. eapply apx_weaken; eassumption. Qed.

Lemma trig_turns : forall x k, cos (x + IZR k * (2 * PI)) = cos x /\ sin (x + IZR k * (2 * PI)) = sin x.
Proof.
  assert (P : forall n x, cos (x + 2 * INR n * PI) = cos x /\ sin (x + 2 * INR n * PI) = sin x).
  { intros n x. split; [apply cos_period|apply sin_period]. }
  intros x k. destruct (Z_le_dec 0 k) as [H|H].
  - rewrite <- (Z2Nat.id k H), <- INR_IZR_INZ. destruct (P (Z.to_nat k) x) as [A B'].
    replace (x + INR (Z.to_nat k) * (2 * PI)) with (x + 2 * INR (Z.to_nat k) * PI) by ring. split; assumption.
  - destruct (P (Z.to_nat (- k)) (x + IZR k * (2 * PI))) as [A B'].
    assert (E : x + IZR k * (2 * PI) + 2 * INR (Z.to_nat (- k)) * PI = x).
    { rewrite INR_IZR_INZ, Z2Nat.id by lia. rewrite opp_IZR. ring. }
    rewrite E in A, B'. split; symmetry; assumption.
Qed.

Lemma apxm_sin : forall lm, good_libm lm -> forall x r a, apxm x r a -> apx (lm_sin lm x) (sin r) (b_trig a).
Proof. intros lm G x r a (k & H). rewrite <- (proj2 (trig_turns r k)). apply apx_sin; assumption. Qed.
Lemma apxm_cos : forall lm, good_libm lm -> forall x r a, apxm x r a -> apx (lm_cos lm x) (cos r) (b_trig a).
Proof. intros lm G x r a (k & H). rewrite <- (proj1 (trig_turns r k)). apply apx_cos; assumption. Qed.

Lemma apxm_rem : forall x r a b, apxm x r a -> b_rem a b_two_pi = Some b ->
  apxm (Frem x (Flit 6283185307179586476925287 (-24))) r b.
Proof.
  intros x r a b (k & H) E. destruct (apx_rem _ _ _ _ _ _ _ H apx_two_pi E) as (j & K).
  exists (k + j)%Z. rewrite plus_IZR. replace (r + (IZR k + IZR j) * (2 * PI)) with (r + IZR k * (2 * PI) + IZR j * (2 * PI)) by ring.
  exact K.
Qed.

Definition b_hull (a b : bnd) : bnd := B (Z.min (lo a) (lo b)) (Z.max (hi a) (hi b)) (Z.max (er a) (er b)).
Lemma hull_l : forall x r a b, apx x r a -> apx x r (b_hull a b).
Proof. intros x r a b H. eapply apx_weaken; [exact H|]. unfold bleb, b_hull. cbn [lo hi er]. rewrite !andb_true_iff, !Z.leb_le. lia. Qed.
Lemma hull_r : forall x r a b, apx x r b -> apx x r (b_hull a b).
Proof. intros x r a b H. eapply apx_weaken; [exact H|]. unfold bleb, b_hull. cbn [lo hi er]. rewrite !andb_true_iff, !Z.leb_le. lia. Qed.

Definition b_anp (a : bnd) : option bnd :=
  obind (b_rem a b_two_pi) (fun w => obind (b_add w b_two_pi) (fun v => Some (b_hull v w))).
Lemma apxm_anp : forall lm x r a b, apxm x r a -> b_anp a = Some b -> apxm (anp (A := b64A lm) x) r b.
Proof.
  intros lm x r a b H E. unfold b_anp, obind in E.
  destruct (b_rem a b_two_pi) as [w|] eqn:E1; [|discriminate E]. destruct (b_add w b_two_pi) as [v|] eqn:E2; [|discriminate E].
  assert (b_hull v w = b) as <- by congruence. apply (apxm_rem _ _ _ _ H) in E1. destruct E1 as (k & K).
  unfold anp. b64A_ops. set (y := Frem x (Flit 6283185307179586476925287 (-24))) in *.
  destruct (Bltb y (Flit 0 0)).
  - exists (k + 1)%Z. apply hull_l. rewrite plus_IZR.
    replace (r + (IZR k + 1) * (2 * PI)) with (r + IZR k * (2 * PI) + 2 * PI) by ring.
    apply (apx_add _ _ _ _ _ _ _ K apx_two_pi E2).
  - exists k. apply hull_r. exact K.
Qed.
