(** * Error bounds: Earth rotation angle *)

From Coq Require Import ZArith Reals Lra Lia Bool List.
From Flocq Require Import Core BinarySingleNaN.
From Verif Require Import Outcome Arith ArithR ArithF Spec_Float Spec_Accuracy M_Common M_Time M_Earth Spec_Matrix Spec_Frames.
From Verif Require Import L_ArithF L_ArithR L_FromJulianF L_Flit L_Apx L_ApxMod.
Import ListNotations.
Open Scope R_scope.

Lemma val_dec : forall z m d, (0 < d)%Z -> (z * d <= m * one)%Z -> val z <= IZR m / IZR d.
Proof.
  intros z m d D H. apply Rmult_le_reg_r with (IZR d); [apply IZR_lt, D|].
  replace (IZR m / IZR d * IZR d) with (IZR m) by (field; apply Rgt_not_eq, IZR_lt, D).
  rewrite <- (val_int m). unfold val. replace (IZR z * uu * IZR d) with (IZR (z * d) * uu) by (rewrite mult_IZR; ring).
  apply Rmult_le_compat_r; [left; apply uu_pos|]. apply IZR_le, H.
Qed.
Lemma apx_err : forall x r b m d, apx x r b -> (0 <? d)%Z = true -> (er b * d <=? m * one)%Z = true ->
  Rabs (B2R x - r) <= IZR m / IZR d.
Proof.
  intros x r b m d (_ & _ & E) D H. eapply Rle_trans; [exact E|]. apply val_dec; [apply Z.ltb_lt, D|apply Z.leb_le, H].
Qed.

(** An input number, known exactly. *)
Lemma apx_var : forall x l h, fin x = true -> IZR l <= B2R x <= IZR h -> apx x (B2R x) (B (l * one) (h * one) 0).
Proof.
  intros x l h F H. split; [exact F|]. cbn [lo hi er]. rewrite !val_int, val_0. split; [exact H|].
  rewrite Rminus_diag_eq by reflexivity. rewrite Rabs_R0. apply Rle_refl.
Qed.

Definition b_sym (n : Z) : bnd := B (- n * one) (n * one) 0.

Definition b_mjd0 : bnd := Eval compute in B (24000005 * one / 10) (24000005 * one / 10) 0.
Lemma apx_mjd0 : forall x, fin x = true -> B2R x = 2400000.5 -> apx x (B2R x) b_mjd0.
Proof.
  intros x F H. pose proof (apx_var x 2400000 2400001 F ltac:(lra)) as K.
  apply (apx_refine _ _ _ (24000005 * one / 10) (24000005 * one / 10)) in K; [exact K|].
  rewrite H. assert (E : val (24000005 * one / 10) = 2400000.5).
  { unfold val, uu. change (24000005 * one / 10)%Z with (4800001 * 2 ^ 127)%Z. rewrite mult_IZR.
    change (IZR (2 ^ 127)) with (bpow radix2 127). rewrite Rmult_assoc, <- bpow_plus. change (bpow radix2 (127 + -128)) with (/ 2). lra. }
  rewrite E. lra.
Qed.

(** The part of [rotation_angle] after the split into whole and fractional days. *)
Definition era_arg {A : arith} (f t : num A) : num A :=
  mul A (c_two_pi A) (add A (add A f (lit A 7790572732640 (-13))) (mul A (lit A 273781191135448 (-17)) t)).

Lemma era_arg_eval : forall (A : arith) (f t : num A),
  eval A [f; t] (era_arg (A := exprA) (EVar 0) (EVar 1)) = era_arg f t.
Proof. reflexivity. Qed.

Definition b_era (d1 d2 : bnd) : option bnd :=
  obind (bound [d1; d2] (EAdd (EVar 0) (ESub (EVar 1) (ELit 2451545 0)))) (fun t =>
  obind (b_rem d1 (B one one 0)) (fun f1 => obind (b_rem d2 (B one one 0)) (fun f2 =>
  obind (b_add f1 f2) (fun f =>
  obind (bound [f; t] (era_arg (A := exprA) (EVar 0) (EVar 1))) b_anp)))).

Lemma apx_one : apx (Flit 1 0) 1 (B one one 0).
Proof. apply (apx_lit 1 0). reflexivity. Qed.

Lemma dj00_eval : forall (A : arith) (x y : num A),
  add A x (sub A y (DJ00 (A := A))) = eval A [x; y] (EAdd (EVar 0) (ESub (EVar 1) (ELit 2451545 0))).
Proof. reflexivity. Qed.

Lemma apxm_era_core : forall lm, good_libm lm -> forall d1 d2 r1 r2 b1 b2 b, apx d1 r1 b1 -> apx d2 r2 b2 ->
  b_era b1 b2 = Some b ->
  apxm (anp (A := b64A lm) (era_arg (A := b64A lm)
     (Fadd (Frem d1 (Flit 1 0)) (Frem d2 (Flit 1 0))) (Fadd d1 (Fsub d2 (Flit 2451545 0)))))
   (2 * PI * (0.7790572732640 + 1.00273781191135448 * (r1 + r2 - 2451545))) b.
Proof.
  intros lm G d1 d2 r1 r2 b1 b2 b H1 H2 E. unfold b_era, obind in E.
  destruct (bound [b1; b2] (EAdd (EVar 0) (ESub (EVar 1) (ELit 2451545 0)))) as [bt|] eqn:Et; [|discriminate E].
  destruct (b_rem b1 (B one one 0)) as [f1|] eqn:E1; [|discriminate E].
  destruct (b_rem b2 (B one one 0)) as [f2|] eqn:E2; [|discriminate E].
  destruct (b_add f1 f2) as [f|] eqn:Ef; [|discriminate E].
  destruct (bound [f; bt] (era_arg (A := exprA) (EVar 0) (EVar 1))) as [ba|] eqn:Ea; [|discriminate E].
  apply (bound_ok lm G _ _ _ (apxl_cons H1 (apxl_cons H2 apxl_nil))) in Et.
  destruct (apx_rem _ _ _ _ _ _ _ H1 apx_one E1) as (k1 & K1). destruct (apx_rem _ _ _ _ _ _ _ H2 apx_one E2) as (k2 & K2).
  pose proof (apx_add _ _ _ _ _ _ _ K1 K2 Ef) as K.
  apply (bound_ok lm G _ _ _ (apxl_cons K (apxl_cons Et apxl_nil))) in Ea.
  refine (apxm_anp lm _ _ _ _ _ E). rewrite !era_arg_eval in Ea.
  exists (k1 + k2 + 2451545)%Z. cbn [eval nth realA lit sub add] in Ea.
  match goal with |- apx _ ?p _ => match type of Ea with apx _ ?q _ => assert (EQ : @eq R p q) end end; [|rewrite EQ; exact Ea].
  unfold era_arg. realA_ops. rlit_in_goal. rewrite !plus_IZR. unfold Rlit. change (Z.pow_pos 10 13) with 10000000000000%Z.
  change (Z.pow_pos 10 17) with 100000000000000000%Z. change (2451545 * 10 ^ 0)%Z with 2451545%Z. lra.
Qed.

Lemma rotation_angle_core : forall lm (a b : b64), rotation_angle (A := b64A lm) (MkUT1 (A := b64A lm) a b) =
  let '(d1, d2) := if Bltb a b then (a, b) else (b, a) in
  anp (A := b64A lm) (era_arg (A := b64A lm)
     (Fadd (Frem d1 (Flit 1 0)) (Frem d2 (Flit 1 0))) (Fadd d1 (Fsub d2 (Flit 2451545 0)))).
Proof. intros lm a b. unfold rotation_angle. cbn [ut1_1 ut1_2]. b64A_ops. destruct (Bltb a b); reflexivity. Qed.

Lemma apxm_era : forall lm, good_libm lm -> forall a b r s ba bb c, apx a r ba -> apx b s bb ->
  (exists c1 c2, b_era ba bb = Some c1 /\ b_era bb ba = Some c2 /\ bleb c1 c = true /\ bleb c2 c = true) ->
  apxm (rotation_angle (A := b64A lm) (MkUT1 (A := b64A lm) a b)) (era_of (MkUT1 (A := realA) r s)) c.
Proof.
  intros lm G a b r s ba bb c Ha Hb (c1 & c2 & E1 & E2 & L1 & L2). rewrite rotation_angle_core.
  unfold era_of. cbn [ut1_1 ut1_2]. destruct (Bltb a b).
  - eapply apxm_weaken; [|exact L1]. apply (apxm_era_core lm G a b r s _ _ _ Ha Hb E1).
  - eapply apxm_weaken; [|exact L2]. rewrite (Rplus_comm r s). apply (apxm_era_core lm G b a s r _ _ _ Hb Ha E2).
Qed.

Definition b_chk (o : option bnd) (c : bnd) : bool := match o with Some b => bleb b c | None => false end.
Lemma b_chk_ok : forall o c, b_chk o c = true -> exists b, o = Some b /\ bleb b c = true.
Proof. intros [b|] c H; [exists b; split; [reflexivity|exact H]|discriminate H]. Qed.

Lemma apxm_era_chk : forall lm, good_libm lm -> forall a b r s ba bb c, apx a r ba -> apx b s bb ->
  (b_chk (b_era ba bb) c && b_chk (b_era bb ba) c)%bool = true ->
  apxm (rotation_angle (A := b64A lm) (MkUT1 (A := b64A lm) a b)) (era_of (MkUT1 (A := realA) r s)) c.
Proof.
  intros lm G a b r s ba bb c Ha Hb H. apply andb_true_iff in H. destruct H as [H1 H2].
  destruct (b_chk_ok _ _ H1) as (c1 & E1 & L1). destruct (b_chk_ok _ _ H2) as (c2 & E2 & L2).
  apply (apxm_era lm G a b r s ba bb c Ha Hb). exists c1, c2. auto.
Qed.
