(** * Model of the test of bias and precession of crates/tofas/src/tests.rs

    What it prints is left out; see M_Tests.v. *)

From Coq Require Import ZArith Bool List.
From Verif Require Import Outcome Arith M_Common M_Time M_Frames M_Tests M_TestTables T_TestsBp.
Import ListNotations.
Open Scope Z_scope.
Open Scope outcome_scope.

Section BiasPrecession.
Context {A : arith}.

(** The matrix in the nine numbers of a row from the [k]-th. *)
Definition matrix_at (row : list (Z * Z)) (k : nat) : mat3 A :=
  M3 (V3 (cell row k) (cell row (k + 1)) (cell row (k + 2))) (V3 (cell row (k + 3)) (cell row (k + 4)) (cell row (k + 5)))
     (V3 (cell row (k + 6)) (cell row (k + 7)) (cell row (k + 8))).

(** tests.rs:238-243, one row *)
Definition compare_bias_and_precession (tol : num A) (row : list (Z * Z)) : outcome unit :=
  '(rb2, rp2, rbp2) <- bias_and_precession (A := A) (MkTT (cell row 0) (cell row 1));;
  _ <- compare_matrices (matrix_at row 2) rb2 tol;;
  _ <- compare_matrices (matrix_at row 11) rp2 tol;;
  compare_matrices (matrix_at row 20) rbp2 tol.

(** tests.rs:236-244 *)
Definition test_bias_and_precession : outcome unit := each (compare_bias_and_precession EPSILON) BP00_DATA.

End BiasPrecession.
