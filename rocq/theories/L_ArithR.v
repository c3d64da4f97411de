(** * Basic facts about the exact-real arithmetic *)

From Coq Require Import ZArith Reals Lra Lia Bool.
From Flocq Require Import Core.
From Verif Require Import Outcome Arith ArithR.
Open Scope R_scope.

(** Select the operations of the instance, and nothing else. *)
Ltac realA_ops := cbn [realA num lit of_int add sub mul div rem neg nabs nsqrt nround ntrunc ltb leb to_i32 to_u32 nsin ncos nacos natan natan2 c_pi c_two_pi c_as2r] in *.

(** Turn decimal literals into quotients of integer constants. *)

Lemma Rlit_0 : forall m, Rlit m 0 = IZR m.
Proof. intros m. unfold Rlit. f_equal. lia. Qed.

Ltac rlit_in_goal :=
  repeat match goal with
  | |- context [Rlit ?m ?e] =>
      let t := eval unfold Rlit in (Rlit m e) in
      let t := eval cbv beta iota zeta delta [Z.pow_pos Z.pow Pos.iter Z.mul Pos.mul Pos.add Pos.succ] in t in
      change (Rlit m e) with t
  end.

Lemma Ztrunc_plus_frac : forall x, exists r, x = IZR (Ztrunc x) + r /\ -1 < r < 1 /\
  (0 <= x -> 0 <= r) /\ (x <= 0 -> r <= 0).
Proof.
  intros x. exists (x - IZR (Ztrunc x)). split; [ring|].
  destruct (Rle_or_lt 0 x) as [H|H].
  - rewrite Ztrunc_floor by assumption.
    pose proof (Zfloor_lb x). pose proof (Zfloor_ub x).
    split; [lra|]. split; [lra|]. intros Hx. assert (x = 0) by lra. subst x.
    rewrite (Zfloor_IZR 0) in *. lra.
  - rewrite Ztrunc_ceil by lra.
    pose proof (Zceil_ub x). pose proof (Zceil_lb x).
    split; [lra|]. split; lra.
Qed.

(** Remainder by 1. *)
Lemma Rrem_1 : forall x, Rrem x 1 = x - IZR (Ztrunc x).
Proof. intros x. unfold Rrem. rewrite Rdiv_1_r || (unfold Rdiv; rewrite Rinv_1, Rmult_1_r). ring. Qed.

Lemma Rround_IZR : forall n, Rround (IZR n) = IZR n.
Proof. intros n. unfold Rround. rewrite Zrnd_IZR; [reflexivity|apply valid_rnd_N]. Qed.

(** Two reals in [0,1) that differ by an integer are equal. *)
Lemma frac_unique : forall (x y : R) (n m : Z), 0 <= x < 1 -> 0 <= y < 1 ->
  IZR n + x = IZR m + y -> n = m /\ x = y.
Proof.
  intros x y n m Hx Hy H.
  assert (n = m).
  { assert (-1 < IZR n - IZR m < 1) as [A B] by lra.
    rewrite <- minus_IZR in A, B.
    apply lt_IZR in A. apply lt_IZR in B. lia. }
  subst m. split; [reflexivity|lra].
Qed.

Lemma Zfloor_unique_frac : forall (x : R) (n : Z), 0 <= x - IZR n < 1 -> Zfloor x = n.
Proof. intros x n H. apply Zfloor_imp. rewrite plus_IZR. lra. Qed.
