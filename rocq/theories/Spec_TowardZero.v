(** * A libm whose sine and cosine are rounded toward zero

    Each result is the binary64 number next to the exact value on the side of zero,
    so the error is less than one unit in the last place. *)

From Coq Require Import ZArith Reals.
From Flocq Require Import Core BinarySingleNaN.
From Verif Require Import Arith ArithR ArithF Spec_Float.
Open Scope R_scope.

Definition toward_zero (lm : libm) : Prop := forall x, fin x = true ->
  (fin (lm_sin lm x) = true /\ B2R (lm_sin lm x) = round radix2 fx Ztrunc (sin (B2R x))) /\
  (fin (lm_cos lm x) = true /\ B2R (lm_cos lm x) = round radix2 fx Ztrunc (cos (B2R x))).
