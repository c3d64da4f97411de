(** * Properties: Origin

    Statements only; proofs are in L_POrigin.v. *)

From Coq Require Import ZArith Reals Lra Lia Bool List.
From Flocq Require Import Core BinarySingleNaN.
From Verif Require Import Outcome Arith ArithR ArithF Spec_Float Spec_Accuracy M_Common M_Time M_Frames Spec_Matrix Spec_Frames Spec_Series Spec_C2t Spec_Origin.
Import ListNotations.
Open Scope R_scope.
From Verif Require L_POrigin.

(** The origin of the intermediate frame is a non-rotating origin.  Within a century of
    J2000 the exact celestial-to-intermediate matrix is, up to a turn about its own third
    axis of at most 1.8e-9 rad (0.4 mas), a frame whose first axis never moves towards its
    second: the accumulated error of the locator over the whole century is that angle. *)
Theorem C100_origin : exists (F : R -> mat3 realA) (phi : R -> R), phi 0 = 0 /\
  (forall t, Rabs t <= 1 -> proper (F t) /\ spins F t 0 /\ Rabs (phi t) <= 1.8 / 10 ^ 9) /\
  forall d, Rabs (centuries d) <= 1 -> exists m, celestial_to_intermediate (A := realA) d = Val m /\
    F (centuries d) = mul3 (R3 (phi (centuries d))) m.
Proof. exact L_POrigin.C100_origin_pf. Qed.
Print Assumptions C100_origin.

(** The binary64 matrix, for every split of the date with parts up to 2^22 days: one
    frame that never spins is within 1.9e-9 of the results at every date within a
    century of J2000, entry by entry, and agrees with the exact matrix at J2000. *)
Theorem C100_float : exists F : R -> mat3 realA,
  (forall t, Rabs t <= 1 -> proper (F t) /\ spins F t 0) /\
  (forall d, centuries d = 0 -> celestial_to_intermediate (A := realA) d = Val (F 0)) /\
  forall lm, good_libm lm -> forall a b : b64, fin a = true -> fin b = true ->
    Rabs (B2R a) <= 4194304 -> Rabs (B2R b) <= 4194304 ->
    let t := centuries (MkTT (A := realA) (B2R a) (B2R b)) in
    Rabs t <= 1 ->
    exists q, celestial_to_intermediate (A := b64A lm) (MkTT (A := b64A lm) a b) = Val q /\
      forall i j, near (mget (A := b64A lm) q i j) (entry (F t) i j) (1.9 / 10 ^ 9).
Proof. exact L_POrigin.C100_float_pf. Qed.
Print Assumptions C100_float.

(** What the notion says: a frame turning about its own third axis spins at the rate it
    turns, one turning about its second axis moves without spinning, and turning the
    latter about the third axis by the precession in right ascension of 4612 arc seconds
    a century, as the equinox does, makes it spin at that rate. *)
Example C100_example :
  spins R3 0.7 1 /\ spins R2 0.7 0 /\
  spins (fun t => mul3 (R3 (arcsec (4612 * t))) (R2 t)) 0.7 (arcsec 4612).
Proof. exact L_POrigin.C100_example_pf. Qed.
