(** * Model of the tests of crates/tofas/src/tests.rs against tables of rotation matrices

    The two tests of matrices made of three elementary rotations; what they print is
    left out; see M_Tests.v. *)

From Coq Require Import ZArith Bool List.
From Verif Require Import Outcome Arith M_Common M_Earth M_Frames M_Tests M_TestTables T_TestsRot.
Import ListNotations.
Open Scope Z_scope.
Open Scope outcome_scope.

Section Rotations.
Context {A : arith}.

(** The matrix in the numbers 3 to 11 of a row. *)
Definition row_matrix (row : list (Z * Z)) : mat3 A :=
  M3 (V3 (cell row 3) (cell row 4) (cell row 5)) (V3 (cell row 6) (cell row 7) (cell row 8)) (V3 (cell row 9) (cell row 10) (cell row 11)).

(** tests.rs:187-194 *)
Definition test_polar_motion_matrix : outcome unit :=
  each (fun row =>
    rpom2 <- polar_motion_matrix (A := A) (cell row 0) (cell row 1) (cell row 2);;
    compare_matrices (row_matrix row) rpom2 EPSILON) POM00_DATA.

(** tests.rs:216-222 *)
Definition test_nutation_matrix : outcome unit :=
  each (fun row =>
    rmatn2 <- nutation_matrix (A := A) (cell row 0) (cell row 1) (cell row 2);;
    compare_matrices (row_matrix row) rmatn2 EPSILON) NUMAT_DATA.

End Rotations.
