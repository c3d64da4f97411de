(** * Properties: Vec

    Statements only; proofs are in L_PVec.v. *)

From Coq Require Import ZArith Reals Lra Lia Bool List Psatz.
From Flocq Require Import Core BinarySingleNaN.
From Verif Require Import Outcome Arith ArithR ArithF Spec_Float Spec_Accuracy M_Common Spec_Matrix.
Import ListNotations.
Open Scope R_scope.
From Verif Require L_PVec.

(** C34 in binary64: for vectors with no component above 2^500 and of length at
    least 2^-400, the argument given to acos is within 4.1e-15 of the cosine of the
    angle (so at most 1 + 4.1e-15); when it does not exceed 1 in magnitude the
    result is within 1.2e-7 rad of the angle; and for angles whose sine is at least
    1e-6 it never does, and the result is within 5e-15 / sin(angle). *)
Theorem C34_angle_accuracy_b64_partial : forall lm, good_libm lm -> forall (a b : vec3 (b64A lm)) th,
  (forall i, fin (vget (A := b64A lm) a i) = true /\ Rabs (B2R (vget (A := b64A lm) a i)) <= bpow radix2 500) ->
  (forall i, fin (vget (A := b64A lm) b i) = true /\ Rabs (B2R (vget (A := b64A lm) b i)) <= bpow radix2 500) ->
  let la := R_sqrt.sqrt (B2R (v0 a) ^ 2 + B2R (v1 a) ^ 2 + B2R (v2 a) ^ 2) in
  let lb := R_sqrt.sqrt (B2R (v0 b) ^ 2 + B2R (v1 b) ^ 2 + B2R (v2 b) ^ 2) in
  bpow radix2 (-400) <= la -> bpow radix2 (-400) <= lb -> 0 <= th <= PI ->
  B2R (v0 a) * B2R (v0 b) + B2R (v1 a) * B2R (v1 b) + B2R (v2 a) * B2R (v2 b) = la * lb * cos th ->
  let c := vdot (A := b64A lm) (vnormalize (A := b64A lm) a) (vnormalize (A := b64A lm) b) in
  near c (cos th) (4.1 / 10 ^ 15) /\
  (-1 <= B2R c <= 1 -> near (vangle (A := b64A lm) a b) th (1.2 / 10 ^ 7)) /\
  (1 / 10 ^ 6 <= sin th -> near (vangle (A := b64A lm) a b) th (5 / 10 ^ 15 / sin th)).
Proof. exact L_PVec.C34_angle_accuracy_b64_partial_pf. Qed.
Print Assumptions C34_angle_accuracy_b64_partial.

(** C33 in binary64: for a finite angle every entry of the matrix is within 2^-52 of
    that of the exact rotation by the same angle, and each entry of its product
    with its transpose within 2^-50 of that of the identity. *)
Theorem C33_rotation_b64 : forall lm, good_libm lm -> forall ax (t : b64), fin t = true ->
  exists m : mat3 (b64A lm), rotation (A := b64A lm) (axis_number ax) t = Val m /\
  (forall i j, near (mget (A := b64A lm) m i j) (entry (rot3 ax (B2R t)) i j) (bpow radix2 (-52))) /\
  (forall i j, Rabs (B2R (mget (A := b64A lm) m I0 i) * B2R (mget (A := b64A lm) m I0 j) +
                     B2R (mget (A := b64A lm) m I1 i) * B2R (mget (A := b64A lm) m I1 j) +
                     B2R (mget (A := b64A lm) m I2 i) * B2R (mget (A := b64A lm) m I2 j) - kron i j) <= bpow radix2 (-50)).
Proof. exact L_PVec.C33_rotation_b64_pf. Qed.
Print Assumptions C33_rotation_b64.

(** The right angle between (1,1,0) and (1,-1,0) in binary64, for any such libm, and one
    entry of the rotation by 1 rad. *)
Example C34_b64_example : forall lm, good_libm lm ->
  near (vangle (A := b64A lm) (V3 (A := b64A lm) (Flit 1 0) (Flit 1 0) (Flit 0 0))
                              (V3 (A := b64A lm) (Flit 1 0) (Flit (-1) 0) (Flit 0 0))) (PI / 2) (5 / 10 ^ 15) /\
  (exists m, rotation (A := b64A lm) 0 (Flit 1 0) = Val m /\ near (mget (A := b64A lm) m I1 I2) (sin 1) (bpow radix2 (-52))).
Proof. exact L_PVec.C34_b64_example_pf. Qed.
