(** * Properties: TestRot

    Statements only; proofs are in L_PTestRot.v. *)

From Coq Require Import ZArith Reals Lra Lia Bool List.
From Flocq Require Import Core BinarySingleNaN.
From Verif Require Import Outcome Arith ArithR ArithF Spec_Float Spec_Accuracy Spec_Sharp Spec_TowardZero M_Common M_Earth M_Frames M_Tests M_TestTables T_TestsRot M_TestRot.
Import ListNotations.
Open Scope R_scope.
From Verif Require L_PTestRot.

(** C110.  test_polar_motion_matrix panics with every libm whose sine and cosine are
    rounded toward zero. *)
Theorem C110_polar_motion_refuted : forall lm, toward_zero lm -> test_polar_motion_matrix (A := b64A lm) = Panic.
Proof. exact L_PTestRot.C110_polar_motion_refuted_pf. Qed.
Print Assumptions C110_polar_motion_refuted.

(** C110.  So does test_nutation_matrix. *)
Theorem C110_nutation_matrix_refuted : forall lm, toward_zero lm -> test_nutation_matrix (A := b64A lm) = Panic.
Proof. exact L_PTestRot.C110_nutation_matrix_refuted_pf. Qed.
Print Assumptions C110_nutation_matrix_refuted.

(** C110.  What makes them panic is rounding: at the rows of the witnesses the matrices
    differ from those of the tables by more than one EPSILON and by at most two. *)
Theorem C110_within_two : forall lm, toward_zero lm ->
  let two := add (b64A lm) EPSILON EPSILON in
  let polar := fun tol => bind (polar_motion_matrix (A := b64A lm) (cell (nth 44 POM00_DATA []) 0) (cell (nth 44 POM00_DATA []) 1) (cell (nth 44 POM00_DATA []) 2))
    (fun m => compare_matrices (A := b64A lm) (row_matrix (nth 44 POM00_DATA [])) m tol) in
  let nutation := fun tol => bind (nutation_matrix (A := b64A lm) (cell (nth 19 NUMAT_DATA []) 0) (cell (nth 19 NUMAT_DATA []) 1) (cell (nth 19 NUMAT_DATA []) 2))
    (fun m => compare_matrices (A := b64A lm) (row_matrix (nth 19 NUMAT_DATA [])) m tol) in
  polar EPSILON = Panic /\ polar two = Val tt /\ nutation EPSILON = Panic /\ nutation two = Val tt.
Proof. exact L_PTestRot.C110_within_two_pf. Qed.
Print Assumptions C110_within_two.

(** C110.  There is such a libm, of the accuracy assumed of a libm throughout. *)
Theorem C110_libm_exists : exists lm, good_libm lm /\ sharp_libm lm /\ toward_zero lm.
Proof. exact L_PTestRot.C110_libm_exists_pf. Qed.
Print Assumptions C110_libm_exists.
