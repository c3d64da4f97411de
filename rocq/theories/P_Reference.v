(** * Properties: Reference

    Statements only; proofs are in L_PReference.v. *)

From Coq Require Import ZArith Reals Lra Lia List.
From Flocq Require Import Core BinarySingleNaN.
From Verif Require Import Outcome Arith ArithR ArithF Spec_Float Spec_Accuracy M_Common M_Time M_Earth T_Epv00 Spec_Matrix Spec_Frames Spec_Series Spec_Reference.
Import ListNotations.
Open Scope R_scope.
From Verif Require L_PReference.

(** C99.  At the date of the IAU SOFA test of EPV00, however it is split in two, the exact
    position and velocity agree with the published values within 2e-17 AU and 1e-18 AU per
    day. *)
Theorem C99_reference : forall a b, a + b = 2400000.5 + 53411.52501161 ->
  exists r, earth_pos_vel (A := realA) (MkTDB (A := realA) a b) = Val r /\ forall i,
  Rabs (coord (pv_p (A := realA) (heliocentric (A := realA) r)) i - ref_helio_p i) <= 2 / 10 ^ 17 /\
  Rabs (coord (pv_v (A := realA) (heliocentric (A := realA) r)) i - ref_helio_v i) <= 1 / 10 ^ 18 /\
  Rabs (coord (pv_p (A := realA) (barycentric (A := realA) r)) i - ref_bary_p i) <= 2 / 10 ^ 17 /\
  Rabs (coord (pv_v (A := realA) (barycentric (A := realA) r)) i - ref_bary_v i) <= 1 / 10 ^ 18.
Proof. exact L_PReference.C99_reference_pf. Qed.
Print Assumptions C99_reference.

(** C99.  The binary64 functions at that date, read as the decimal literals 2400000.5 and
    53411.52501161: within 1.31e-12 AU and 2.4e-14 AU per day of the published values. *)
Theorem C99_reference_b64 : forall lm, good_libm lm ->
  exists r, earth_pos_vel (A := b64A lm) (MkTDB (A := b64A lm) (Flit 24000005 (-1)) (Flit 5341152501161 (-8))) = Val r /\ forall i,
  near (vget (A := b64A lm) (pv_p (A := b64A lm) (heliocentric (A := b64A lm) r)) i) (ref_helio_p i) (1.31 / 10 ^ 12) /\
  near (vget (A := b64A lm) (pv_v (A := b64A lm) (heliocentric (A := b64A lm) r)) i) (ref_helio_v i) (2.4 / 10 ^ 14) /\
  near (vget (A := b64A lm) (pv_p (A := b64A lm) (barycentric (A := b64A lm) r)) i) (ref_bary_p i) (1.31 / 10 ^ 12) /\
  near (vget (A := b64A lm) (pv_v (A := b64A lm) (barycentric (A := b64A lm) r)) i) (ref_bary_v i) (2.4 / 10 ^ 14).
Proof. exact L_PReference.C99_reference_b64_pf. Qed.
Print Assumptions C99_reference_b64.

(** C99 stated for one number: the heliocentric x coordinate, and the agreement is not vacuous,
    for the barycentric coordinate differs by 0.0043. *)
Example C99_example :
  (exists r, earth_pos_vel (A := realA) (MkTDB (A := realA) 2400000.5 53411.52501161) = Val r /\
    Rabs (coord (pv_p (A := realA) (heliocentric (A := realA) r)) I0 + 0.7757238809297706813) <= 2 / 10 ^ 17) /\
  0.0043 <= ref_bary_p I0 - ref_helio_p I0 <= 0.0044.
Proof. exact L_PReference.C99_example_pf. Qed.
