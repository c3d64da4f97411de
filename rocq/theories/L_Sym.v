(** * Symmetry of from_julian in binary64, bit for bit *)

From Coq Require Import ZArith Reals Lra Lia Bool.
From Flocq Require Import Core BinarySingleNaN.
From Verif Require Import Outcome Arith ArithR ArithF L_ArithF
  M_Common M_Calendar L_FromJulianF.
Open Scope R_scope.

Lemma Fadd_comm : forall x y, Fadd x y = Fadd y x.
Proof.
  intros x y.
  destruct (fin x) eqn:Fx; [destruct (fin y) eqn:Fy|].
  - pose proof (Bplus_correct 53 1024 _ _ mode_NE x y Fx Fy) as C1.
    pose proof (Bplus_correct 53 1024 _ _ mode_NE y x Fy Fx) as C2.
    rewrite (Rplus_comm (B2R y) (B2R x)) in C2.
    destruct (Rlt_bool _ _).
    + destruct C1 as (A1 & A2 & A3). destruct C2 as (B1 & B2 & B3).
      apply B2R_Bsign_inj; try assumption.
      * unfold Fadd. rewrite A1, B1. reflexivity.
      * unfold Fadd. rewrite A3, B3. destruct (Rcompare _ _); try reflexivity. apply andb_comm.
    + destruct C1 as [A1 A2]. destruct C2 as [B1 B2].
      apply B2SF_inj. unfold Fadd. rewrite A1, B1, A2. reflexivity.
  - destruct y as [| [|] | |]; try discriminate; destruct x as [| [|] | |]; try discriminate; reflexivity.
  - destruct x as [| [|] | |]; try discriminate; destruct y as [| [|] | |]; reflexivity.
Qed.

Lemma Fadd_nan_r : forall x, Fadd x B754_nan = B754_nan.
Proof. intros [| [|] | |]; reflexivity. Qed.
Lemma Fadd_nan_l : forall x, Fadd B754_nan x = B754_nan.
Proof. intros [| [|] | |]; reflexivity. Qed.
Lemma Fsub_nan_r : forall x, Fsub x B754_nan = B754_nan.
Proof. intros [| [|] | |]; reflexivity. Qed.
Lemma Fsub_nan_l : forall x, Fsub B754_nan x = B754_nan.
Proof. intros [| [|] | |]; reflexivity. Qed.

Lemma split_ord_nan_l : forall b, split_ord B754_nan b = (B754_nan, B754_nan).
Proof.
  intros b. unfold split_ord. cbv zeta.
  change (Frem B754_nan (Flit 1 0)) with (@B754_nan 53 1024). rewrite !Fadd_nan_l.
  change (Frem B754_nan (Flit 1 0)) with (@B754_nan 53 1024).
  change (Bltb B754_nan (Flit 0 0)) with false. cbv iota. reflexivity.
Qed.

Lemma split_ord_nan_r : forall a, split_ord a B754_nan = (B754_nan, B754_nan).
Proof.
  intros a. unfold split_ord. cbv zeta. rewrite !Fsub_nan_l.
  change (Frem B754_nan (Flit 1 0)) with (@B754_nan 53 1024). rewrite !Fadd_nan_r.
  change (Frem B754_nan (Flit 1 0)) with (@B754_nan 53 1024).
  change (Bltb B754_nan (Flit 0 0)) with false. cbv iota. rewrite ?Fsub_nan_l, ?Fadd_nan_r. reflexivity.
Qed.

Lemma Bleb_total : forall x y : b64, is_nan x = false -> is_nan y = false ->
  Bleb x y = false -> Bleb y x = true.
Proof.
  intros x y Nx Ny H. pose proof (Bcompare_swap _ _ y x) as K.
  unfold Bcompare in K. unfold Bleb, SpecFloat.SFleb in *. rewrite <- K in H || rewrite K in *.
  destruct (SpecFloat.SFcompare (B2SF y) (B2SF x)) as [[| |]|] eqn:E; try discriminate; try reflexivity.
  exfalso. clear H K. destruct x as [[|]|[|]| |[|] ? ? ?], y as [[|]|[|]| |[|] ? ? ?]; discriminate.
Qed.

Lemma Bleb_antisym : forall x y : b64, Bleb x y = true -> Bleb y x = true ->
  x = y \/ (B2R x = 0 /\ B2R y = 0 /\ fin x = true /\ fin y = true).
Proof.
  intros x y H1 H2.
  destruct (fin x) eqn:Fx; [destruct (fin y) eqn:Fy|].
  - rewrite (Bleb_correct 53 1024) in H1, H2 by assumption.
    assert (E : B2R x = B2R y).
    { destruct (Rle_bool_spec (B2R x) (B2R y)), (Rle_bool_spec (B2R y) (B2R x)); try discriminate. lra. }
    destruct (Req_dec (B2R x) 0) as [Z|N]; [right; rewrite <- E; auto|left].
    apply B2R_inj; try assumption.
    + destruct x; try discriminate; [exfalso; apply N; reflexivity|reflexivity].
    + destruct y; try discriminate; [exfalso; apply N; rewrite E; reflexivity|reflexivity].
  - left. destruct y as [|[|]| |]; try discriminate; destruct x as [[|]|[|]| |[|] ? ? ?]; try discriminate; reflexivity.
  - left. destruct x as [|[|]| |]; try discriminate; destruct y as [[|]|[|]| |[|] ? ? ?]; try discriminate; reflexivity.
Qed.

Lemma zero_cases : forall x : b64, fin x = true -> B2R x = 0 -> exists s, x = B754_zero s.
Proof.
  intros x F H. destruct x as [s| | |s m e P]; try discriminate; [exists s; reflexivity|].
  exfalso. cbn in H. apply eq_0_F2R in H. destruct s; discriminate.
Qed.

Lemma split_ord_zeros : forall s t,
  split_ord (B754_zero s) (B754_zero t) = split_ord (B754_zero t) (B754_zero s).
Proof.
  intros s t.
  assert (H : forall s t, B2SF (fst (split_ord (B754_zero s) (B754_zero t))) =
    B2SF (fst (split_ord (B754_zero t) (B754_zero s))) /\
    B2SF (snd (split_ord (B754_zero s) (B754_zero t))) =
    B2SF (snd (split_ord (B754_zero t) (B754_zero s)))).
  { intros [|] [|]; vm_compute; split; reflexivity. }
  destruct (H s t) as [H1 H2]. apply B2SF_inj in H1, H2.
  rewrite (surjective_pairing (split_ord (B754_zero s) (B754_zero t))), H1, H2.
  symmetry. apply surjective_pairing.
Qed.

Lemma split_julian_sym : forall lm x y,
  split_julian (A := b64A lm) x y = split_julian (A := b64A lm) y x.
Proof.
  intros lm x y. rewrite !split_julian_F.
  destruct (is_nan x) eqn:Nx.
  { destruct x; try discriminate. rewrite !split_ord_nan_l, !split_ord_nan_r.
    destruct (Bleb y B754_nan), (Bleb B754_nan y); reflexivity. }
  destruct (is_nan y) eqn:Ny.
  { destruct y; try discriminate. rewrite !split_ord_nan_l, !split_ord_nan_r.
    destruct (Bleb B754_nan x), (Bleb x B754_nan); reflexivity. }
  destruct (Bleb y x) eqn:L1, (Bleb x y) eqn:L2; try reflexivity.
  - destruct (Bleb_antisym _ _ L1 L2) as [->|(Zy & Zx & Fy & Fx)]; [reflexivity|].
    destruct (zero_cases x Fx Zx) as [s ->]. destruct (zero_cases y Fy Zy) as [t ->].
    apply split_ord_zeros.
  - rewrite (Bleb_total _ _ Nx Ny L2) in L1. discriminate.
Qed.

Lemma from_julian_sym : forall lm p x y,
  from_julian (A := b64A lm) p x y = from_julian (A := b64A lm) p y x.
Proof.
  intros lm p x y. unfold from_julian. rewrite (split_julian_sym lm x y).
  b64A_ops. rewrite (Fadd_comm x y). reflexivity.
Qed.
