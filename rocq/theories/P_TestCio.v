(** * Properties: TestCio

    Statements only; proofs are in L_PTestCio.v. *)

From Coq Require Import ZArith Reals Lra Lia Bool List.
From Flocq Require Import Core BinarySingleNaN.
From Verif Require Import Outcome Arith ArithR ArithF Spec_Float Spec_Accuracy Spec_Sharp Spec_TowardZero M_Common M_Time M_Frames M_Tests M_TestTables M_TestBp T_TestsCio M_TestCio.
Import ListNotations.
Open Scope R_scope.
From Verif Require L_PTestCio.

(** C110.  So does the test of the matrix from celestial to terrestrial coordinates out
    of its components. *)
Theorem C110_from_cio_refuted : forall lm, toward_zero lm -> test_from_cio (A := b64A lm) = Panic.
Proof. exact L_PTestCio.C110_from_cio_refuted_pf. Qed.
Print Assumptions C110_from_cio_refuted.

(** C110.  And by rounding only: the row that breaks it is within two EPSILON. *)
Theorem C110_from_cio_within_two : forall lm, toward_zero lm ->
  compare_from_cio (A := b64A lm) EPSILON (nth 52 C2TCIO_DATA []) = Panic /\
  compare_from_cio (A := b64A lm) (add (b64A lm) EPSILON EPSILON) (nth 52 C2TCIO_DATA []) = Val tt.
Proof. exact L_PTestCio.C110_from_cio_within_two_pf. Qed.
Print Assumptions C110_from_cio_within_two.
