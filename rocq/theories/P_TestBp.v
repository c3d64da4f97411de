(** * Properties: TestBp

    Statements only; proofs are in L_PTestBp.v. *)

From Coq Require Import ZArith Reals Lra Lia Bool List.
From Flocq Require Import Core BinarySingleNaN.
From Verif Require Import Outcome Arith ArithR ArithF Spec_Float Spec_Accuracy Spec_Sharp Spec_TowardZero M_Common M_Time M_Locator M_Frames M_Tests M_TestTables T_TestsBp M_TestBp.
Import ListNotations.
Open Scope R_scope.
From Verif Require L_PTestBp.

(** C110.  test_bias_and_precession panics as well with every libm whose sine and cosine
    are rounded toward zero. *)
Theorem C110_bias_and_precession_refuted : forall lm, toward_zero lm -> test_bias_and_precession (A := b64A lm) = Panic.
Proof. exact L_PTestBp.C110_bias_and_precession_refuted_pf. Qed.
Print Assumptions C110_bias_and_precession_refuted.

(** C110.  Again the cause is rounding: with the double of the tolerance the row passes
    that breaks the test. *)
Theorem C110_bias_within_two : forall lm, toward_zero lm ->
  compare_bias_and_precession (A := b64A lm) EPSILON (nth 1 BP00_DATA []) = Panic /\
  compare_bias_and_precession (A := b64A lm) (add (b64A lm) EPSILON EPSILON) (nth 1 BP00_DATA []) = Val tt.
Proof. exact L_PTestBp.C110_bias_within_two_pf. Qed.
Print Assumptions C110_bias_within_two.
