(** * A libm with the assumed accuracy exists *)

From Coq Require Import ZArith Reals Lra Lia Bool.
From Flocq Require Import Core BinarySingleNaN.
From Verif Require Import Outcome Arith ArithR ArithF Spec_Float Spec_Accuracy L_ArithF.
Open Scope R_scope.

(** The multiple of 2^-n below v. *)
Definition below (n : Z) (v : R) : b64 := Fof (Zfloor (v * bpow radix2 n)) (- n).

Lemma below_ok : forall n v, (0 <= n <= 53)%Z -> Rabs v <= bpow radix2 (53 - n) ->
  fin (below n v) = true /\ Rabs (B2R (below n v) - v) <= bpow radix2 (- n).
Proof.
  intros n v Hn Hv. set (m := Zfloor (v * bpow radix2 n)).
  pose proof (bpow_gt_0 radix2 n) as Pn. pose proof (bpow_gt_0 radix2 (- n)) as Pm.
  assert (EI : bpow radix2 n * bpow radix2 (- n) = 1) by (rewrite <- bpow_plus, Z.add_opp_diag_r; reflexivity).
  assert (Hm : (Z.abs m <= 2 ^ 53)%Z).
  { assert (K : Rabs (v * bpow radix2 n) <= IZR (2 ^ 53)).
    { rewrite Rabs_mult, (Rabs_pos_eq (bpow radix2 n)) by lra. change (IZR (2 ^ 53)) with (bpow radix2 53).
      replace (bpow radix2 53) with (bpow radix2 (53 - n) * bpow radix2 n) by (rewrite <- bpow_plus; f_equal; ring). apply Rmult_le_compat_r; lra. }
    apply Rabs_le_inv in K. apply Z.abs_le. split.
    - apply Zfloor_lub. rewrite opp_IZR. lra.
    - apply le_IZR. eapply Rle_trans; [apply Zfloor_lb|]. lra. }
  pose proof (binary_normalize_correct 53 1024 _ _ mode_NE m (- n) false) as C.
  change (round_mode mode_NE) with ZnearestE in C. change (SpecFloat.fexp 53 1024) with fx in C.
  unfold F2R in C. cbn [Fnum Fexp] in C.
  assert (FM : format (IZR m * bpow radix2 (- n))) by (apply format_dyadic; lia).
  rewrite (rnd_id _ FM) in C. rewrite Rlt_bool_true in C.
  - destruct C as (C1 & C2 & _). unfold below. fold m. unfold Fof. rewrite C1. split; [exact C2|].
    pose proof (Zfloor_lb (v * bpow radix2 n)) as L. pose proof (Zfloor_ub (v * bpow radix2 n)) as U. fold m in L, U.
    replace (IZR m * bpow radix2 (- n) - v) with ((IZR m - v * bpow radix2 n) * bpow radix2 (- n))
      by (rewrite Rmult_minus_distr_r, Rmult_assoc, EI; ring).
    rewrite Rabs_mult, (Rabs_pos_eq (bpow radix2 (- n))) by lra.
    apply Rle_trans with (1 * bpow radix2 (- n)); [|lra]. apply Rmult_le_compat_r; [lra|]. apply Rabs_le. lra.
  - rewrite Rabs_mult, (Rabs_pos_eq (bpow radix2 (- n))) by lra. rewrite <- abs_IZR.
    apply Rle_lt_trans with (bpow radix2 53 * bpow radix2 (- n)).
    + apply Rmult_le_compat_r; [lra|]. change (bpow radix2 53) with (IZR (2 ^ 53)). apply IZR_le, Hm.
    + rewrite <- bpow_plus. apply bpow_lt. lia.
Qed.

Definition nice_libm : libm := {|
  lm_sin := fun x => below 52 (sin (B2R x));
  lm_cos := fun x => below 52 (cos (B2R x));
  lm_acos := fun x => below 51 (acos (B2R x));
  lm_atan := fun x => below 52 (atan (B2R x));
  lm_atan2 := fun y x => below 51 (Ratan2 (B2R y) (B2R x)) |}.

Lemma atan2_abs : forall y x, Rabs (Ratan2 y x) <= PI.
Proof.
  intros y x. pose proof PI_RGT_0 as P. unfold Ratan2.
  pose proof (atan_bound (y / x)) as A.
  destruct (Rlt_bool_spec 0 x) as [X|X]; [apply Rabs_le; lra|].
  destruct (Rlt_bool_spec x 0) as [X'|X'].
  - assert (I : / x < 0) by (apply Rinv_lt_0_compat; exact X').
    destruct (Rle_bool_spec 0 y) as [Y|Y].
    + assert (atan (y / x) <= 0).
      { rewrite <- atan_0. assert (y / x <= 0) by (unfold Rdiv; nra).
        destruct (Rle_lt_or_eq_dec _ _ H) as [L| ->]; [left; apply atan_increasing, L|apply Rle_refl]. }
      apply Rabs_le. lra.
    + assert (0 <= atan (y / x)).
      { rewrite <- atan_0. left. apply atan_increasing. unfold Rdiv. nra. }
      apply Rabs_le. lra.
  - destruct (Rlt_bool_spec 0 y); [apply Rabs_le; lra|]. destruct (Rlt_bool_spec y 0); apply Rabs_le; lra.
Qed.

Lemma nice_good : good_libm nice_libm.
Proof.
  pose proof PI_4. pose proof PI_RGT_0.
  split; cbn [nice_libm lm_sin lm_cos lm_acos lm_atan lm_atan2].
  - intros x _. apply (below_ok 52); [lia|]. change (bpow radix2 (53 - 52)) with 2.
    pose proof (SIN_bound (B2R x)). apply Rabs_le. lra.
  - intros x _. apply (below_ok 52); [lia|]. change (bpow radix2 (53 - 52)) with 2.
    pose proof (COS_bound (B2R x)). apply Rabs_le. lra.
  - intros x _ _. apply (below_ok 51); [lia|]. change (bpow radix2 (53 - 51)) with 4.
    pose proof (acos_bound (B2R x)). apply Rabs_le. lra.
  - intros x _. apply (below_ok 52); [lia|]. change (bpow radix2 (53 - 52)) with 2.
    pose proof (atan_bound (B2R x)). apply Rabs_le. lra.
  - intros y x _ _ _. assert (K : Rabs (Ratan2 (B2R y) (B2R x)) <= bpow radix2 (53 - 51)).
    { eapply Rle_trans; [apply atan2_abs|]. change (bpow radix2 (53 - 51)) with 4. lra. }
    destruct (below_ok 51 _ ltac:(lia) K) as [F E]. split; [exact F|]. exists 0%Z. split; [lia|].
    rewrite Rmult_0_l, Rplus_0_r. exact E.
Qed.
