(** * Decimal literals are correctly rounded *)

From Coq Require Import ZArith Reals Lra Lia Bool.
From Flocq Require Import Core BinarySingleNaN.
From Verif Require Import Outcome Arith ArithR ArithF L_ArithF L_FromJulianF.
Open Scope R_scope.

Lemma F2R_0e : forall z, F2R (Float radix2 z 0) = IZR z.
Proof. intros z. unfold F2R. cbn [Fnum Fexp bpow]. ring. Qed.

Lemma Fquot_ok : forall m d, small (IZR m / IZR (Zpos d)) ->
  B2R (Fquot m d) = rnd (IZR m / IZR (Zpos d)) /\ fin (Fquot m d) = true.
Proof.
  intros m d H.
  assert (G : forall s p, IZR m = IZR (cond_Zopp s (Zpos p)) ->
    B2R (SF2B _ (proj1 (Bdiv_correct_aux 53 1024 _ _ mode_NE s p 0 false d 0))) = rnd (IZR m / IZR (Zpos d)) /\
    fin (SF2B _ (proj1 (Bdiv_correct_aux 53 1024 _ _ mode_NE s p 0 false d 0))) = true).
  { intros s p E. rewrite B2R_SF2B, is_finite_SF2B.
    pose proof (proj2 (Bdiv_correct_aux 53 1024 _ _ mode_NE s p 0 false d 0)) as C.
    rewrite !F2R_0e, <- E in C. change (cond_Zopp false (Zpos d)) with (Zpos d) in C.
    change (round_mode mode_NE) with ZnearestE in C. change (SpecFloat.fexp 53 1024) with fx in C.
    rewrite small_rnd in C by exact H. destruct C as (C1 & C2 & _). split; [exact C1|exact C2]. }
  destruct m as [|m|m].
  - cbn [Fquot]. split; [|reflexivity]. unfold Rdiv. rewrite Rmult_0_l, round_0; [reflexivity|apply valid_rnd_N].
  - apply (G false m). reflexivity.
  - apply (G true m). reflexivity.
Qed.

(** A literal with a negative exponent is the nearest binary64 number. *)
Lemma Flit_neg : forall m p, small (Rlit m (Zneg p)) ->
  B2R (Flit m (Zneg p)) = rnd (Rlit m (Zneg p)) /\ fin (Flit m (Zneg p)) = true.
Proof.
  intros m p H. cbn [Flit]. unfold Rlit in *.
  assert (E : Zpos (Pos.pow 10 p) = Z.pow_pos 10 p) by (rewrite Pos2Z.inj_pow; reflexivity).
  rewrite <- E in *. apply Fquot_ok, H.
Qed.

(** A whole literal below 2^53 is exact. *)
Lemma Flit_int : forall m, (Z.abs m <= 2 ^ 53)%Z ->
  B2R (Flit m 0) = IZR m /\ fin (Flit m 0) = true.
Proof.
  intros m H. cbn [Flit]. rewrite Z.mul_1_r. destruct (FofZ_ok m H) as (A & B & _). auto.
Qed.
