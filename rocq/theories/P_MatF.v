(** * Properties: MatF

    Statements only; proofs are in L_PMatF.v. *)

From Coq Require Import ZArith Reals Lra Lia Bool List.
From Flocq Require Import Core BinarySingleNaN.
From Verif Require Import Outcome Arith ArithR ArithF Spec_Float Spec_Accuracy M_Common.
Import ListNotations.
Open Scope R_scope.
From Verif Require L_PMatF.

(** C31 in binary64: for finite entries up to 2^500 in size every entry of a product is
    within four roundings of the true value, relative to the sum of the sizes of the terms
    (and 2^-1072 for underflow). *)
Theorem C31_compose_b64 : forall lm (a b : mat3 (b64A lm)),
  (forall i j, fin (mget (A := b64A lm) a i j) = true /\ Rabs (B2R (mget (A := b64A lm) a i j)) <= bpow radix2 500) ->
  (forall i j, fin (mget (A := b64A lm) b i j) = true /\ Rabs (B2R (mget (A := b64A lm) b i j)) <= bpow radix2 500) ->
  forall i j, let t k := B2R (mget (A := b64A lm) a i k) * B2R (mget (A := b64A lm) b k j) in
  near (mget (A := b64A lm) (mcompose (A := b64A lm) a b) i j) (t I0 + t I1 + t I2)
    (4 * bpow radix2 (-53) * (Rabs (t I0) + Rabs (t I1) + Rabs (t I2)) + bpow radix2 (-1072)).
Proof. exact L_PMatF.C31_compose_b64_pf. Qed.
Print Assumptions C31_compose_b64.

(** C31, any arithmetic (so binary64, NaN and infinities included): the transpose copies the
    entries. *)
Theorem C31_transpose_any : forall (A : arith) (a : mat3 A) i j, mget (mtranspose a) i j = mget a j i.
Proof. exact L_PMatF.C31_transpose_any_pf. Qed.
Print Assumptions C31_transpose_any.

(** C32 in binary64: [apply] is the row action within the same error. *)
Theorem C32_apply_b64_partial : forall lm (a : mat3 (b64A lm)) (x : vec3 (b64A lm)),
  (forall i j, fin (mget (A := b64A lm) a i j) = true /\ Rabs (B2R (mget (A := b64A lm) a i j)) <= bpow radix2 500) ->
  (forall i, fin (vget (A := b64A lm) x i) = true /\ Rabs (B2R (vget (A := b64A lm) x i)) <= bpow radix2 500) ->
  forall i, let t k := B2R (mget (A := b64A lm) a k i) * B2R (vget (A := b64A lm) x k) in
  near (vget (A := b64A lm) (mapply (A := b64A lm) a x) i) (t I0 + t I1 + t I2)
    (4 * bpow radix2 (-53) * (Rabs (t I0) + Rabs (t I1) + Rabs (t I2)) + bpow radix2 (-1072)).
Proof. exact L_PMatF.C32_apply_b64_partial_pf. Qed.
Print Assumptions C32_apply_b64_partial.

(** C63 in binary64: for finite coordinates up to 2^500 in size the scalar product, sum,
    difference and multiple of vectors. *)
Theorem C63_accuracy_b64 : forall lm (x y : vec3 (b64A lm)) (c : b64),
  (forall i, fin (vget (A := b64A lm) x i) = true /\ Rabs (B2R (vget (A := b64A lm) x i)) <= bpow radix2 500) ->
  (forall i, fin (vget (A := b64A lm) y i) = true /\ Rabs (B2R (vget (A := b64A lm) y i)) <= bpow radix2 500) ->
  fin c = true -> Rabs (B2R c) <= bpow radix2 500 ->
  let X i := B2R (vget (A := b64A lm) x i) in let Y i := B2R (vget (A := b64A lm) y i) in
  near (vdot (A := b64A lm) x y) (X I0 * Y I0 + X I1 * Y I1 + X I2 * Y I2)
    (4 * bpow radix2 (-53) * (Rabs (X I0 * Y I0) + Rabs (X I1 * Y I1) + Rabs (X I2 * Y I2)) + bpow radix2 (-1072)) /\
  forall i,
  near (vget (A := b64A lm) (vadd (A := b64A lm) x y) i) (X i + Y i) (bpow radix2 (-53) * Rabs (X i + Y i) + bpow radix2 (-1075)) /\
  near (vget (A := b64A lm) (vsub (A := b64A lm) x y) i) (X i - Y i) (bpow radix2 (-53) * Rabs (X i - Y i) + bpow radix2 (-1075)) /\
  near (vget (A := b64A lm) (vscale (A := b64A lm) x c) i) (B2R c * X i) (bpow radix2 (-53) * Rabs (B2R c * X i) + bpow radix2 (-1075)) /\
  near (vget (A := b64A lm) (vneg (A := b64A lm) x) i) (- X i) 0.
Proof. exact L_PMatF.C63_accuracy_b64_pf. Qed.
Print Assumptions C63_accuracy_b64.

(** The scalar product of (1e8, 1, 1) and (1e8, 1, 0), 1e16 + 1, is 1e16 in binary64. *)
Example C63_b64_example : forall lm,
  vdot (A := b64A lm) (V3 (A := b64A lm) (Flit 1 8) (Flit 1 0) (Flit 1 0)) (V3 (A := b64A lm) (Flit 1 8) (Flit 1 0) (Flit 0 0)) = Flit 1 16.
Proof. exact L_PMatF.C63_b64_example_pf. Qed.
