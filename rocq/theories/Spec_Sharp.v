(** * A sharper assumption on libm, for results that depend on signs

    Near a zero of the sine or the cosine the absolute error of Spec_Accuracy.v
    does not even fix the sign of the result.  Here: a relative error of at most
    2^-52 (and one subnormal unit), and an atan2 that returns the principal
    argument wherever that is not a question of the sign of a zero.  A libm that is
    accurate to one unit in the last place satisfies this. *)

From Coq Require Import ZArith Reals.
From Flocq Require Import Core BinarySingleNaN.
From Verif Require Import Arith ArithR ArithF Spec_Float.
Open Scope R_scope.

Record sharp_libm (lm : libm) : Prop := {
  sharp_sin : forall x, fin x = true ->
    Rabs (B2R (lm_sin lm x) - sin (B2R x)) <= bpow radix2 (-52) * Rabs (sin (B2R x)) + bpow radix2 (-1074);
  sharp_cos : forall x, fin x = true ->
    Rabs (B2R (lm_cos lm x) - cos (B2R x)) <= bpow radix2 (-52) * Rabs (cos (B2R x)) + bpow radix2 (-1074);
  sharp_atan2 : forall y x, fin y = true -> fin x = true -> B2R y <> 0 \/ 0 < B2R x ->
    Rabs (B2R (lm_atan2 lm y x) - Ratan2 (B2R y) (B2R x)) <= bpow radix2 (-51)
}.
