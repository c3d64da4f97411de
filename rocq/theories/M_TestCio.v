(** * Model of the test of crates/tofas/src/tests.rs of the matrix from celestial to
    terrestrial coordinates out of its components

    What it prints is left out; see M_Tests.v. *)

From Coq Require Import ZArith Bool List.
From Verif Require Import Outcome Arith M_Common M_Time M_Frames M_Tests M_TestTables M_TestBp T_TestsCio.
Import ListNotations.
Open Scope Z_scope.
Open Scope outcome_scope.

Section Cio.
Context {A : arith}.

(** tests.rs:298-301, one row *)
Definition compare_from_cio (tol : num A) (row : list (Z * Z)) : outcome unit :=
  rc2t2 <- c2t_from_cio (A := A) (matrix_at row 0) (cell row 9) (matrix_at row 10);;
  compare_matrices (matrix_at row 19) rc2t2 tol.

(** tests.rs:296-302 *)
Definition test_from_cio : outcome unit := each (compare_from_cio EPSILON) C2TCIO_DATA.

End Cio.
