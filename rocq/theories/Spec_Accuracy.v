(** * What is assumed of libm where a theorem speaks about accuracy

    An absolute error of at most 2^-52 (2^-51 for functions that reach pi), for
    every finite argument.  A libm that is accurate to one unit in the last place
    satisfies this. *)

From Coq Require Import ZArith Reals.
From Flocq Require Import Core BinarySingleNaN.
From Verif Require Import Arith ArithR ArithF Spec_Float.
Open Scope R_scope.

Record good_libm (lm : libm) : Prop := {
  good_sin : forall x, fin x = true ->
    fin (lm_sin lm x) = true /\ Rabs (B2R (lm_sin lm x) - sin (B2R x)) <= bpow radix2 (-52);
  good_cos : forall x, fin x = true ->
    fin (lm_cos lm x) = true /\ Rabs (B2R (lm_cos lm x) - cos (B2R x)) <= bpow radix2 (-52);
  good_acos : forall x, fin x = true -> -1 <= B2R x <= 1 ->
    fin (lm_acos lm x) = true /\ Rabs (B2R (lm_acos lm x) - acos (B2R x)) <= bpow radix2 (-51);
  good_atan : forall x, fin x = true ->
    fin (lm_atan lm x) = true /\ Rabs (B2R (lm_atan lm x) - atan (B2R x)) <= bpow radix2 (-52);
  (** Up to a whole turn: IEEE atan2 returns -pi at (-0, x) with x < 0. *)
  good_atan2 : forall y x, fin y = true -> fin x = true -> B2R x <> 0 \/ B2R y <> 0 ->
    fin (lm_atan2 lm y x) = true /\
    exists k : Z, (-1 <= k <= 1)%Z /\ Rabs (B2R (lm_atan2 lm y x) - (Ratan2 (B2R y) (B2R x) + IZR k * (2 * PI))) <= bpow radix2 (-51)
}.

(** The number [x] is finite and within [e] of the real [r]. *)
Definition near (x : b64) (r e : R) : Prop := fin x = true /\ Rabs (B2R x - r) <= e.
(** The same for an angle, up to a whole number of turns. *)
Definition near_angle (x : b64) (r e : R) : Prop :=
  fin x = true /\ exists k : Z, Rabs (B2R x - (r + IZR k * (2 * PI))) <= e.
