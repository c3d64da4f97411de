(** * Vocabulary for statements about time-scale conversions in binary64 *)

From Coq Require Import ZArith Reals.
From Flocq Require Import Core BinarySingleNaN.
From Verif Require Import ArithF Spec_Float.
Open Scope R_scope.

(** What C27 says about one conversion of (a,b) into (a',b') by an offset of
    [s] seconds ([neg]: subtracted): the larger part is untouched, bit for bit;
    the other is the rounded sum with the rounded quotient s/86400. *)
Definition shifted (a b a' b' : b64) (neg : bool) (s : R) : Prop :=
  let q := rnd (s / 86400) in
  (B2R b < B2R a -> a' = a /\ fin b' = true /\ B2R b' = rnd (if neg then B2R b - q else B2R b + q)) /\
  (B2R a <= B2R b -> b' = b /\ fin a' = true /\ B2R a' = rnd (if neg then B2R a - q else B2R a + q)).

(** Finite and far from overflow. *)
Definition moderate (x : b64) : Prop := fin x = true /\ Rabs (B2R x) <= 1000000000000000.
