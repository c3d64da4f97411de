(** * Proofs of C110, celestial to terrestrial coordinates *)

From Coq Require Import ZArith Reals Lra Lia Bool List.
From Flocq Require Import Core BinarySingleNaN.
From Verif Require Import Outcome Arith ArithR ArithF Spec_Float Spec_Accuracy Spec_Sharp Spec_TowardZero M_Common M_Time M_Frames M_Tests M_TestTables M_TestBp T_TestsCio M_TestCio.
From Verif Require L_PTestRot.
Import ListNotations.
Open Scope R_scope.

Definition cmp {A : arith} (tol : num A) (row : list (Z * Z)) (e : num A * num A) : outcome unit :=
  compare_matrices (matrix_at row 19) (mcompose (matrix_at row 10) (mcompose (L_PTestRot.rotcs I2 (fst e) (snd e)) (matrix_at row 0))) tol.
Lemma row_cmp : forall (A : arith) (tol : num A) row, compare_from_cio tol row = cmp tol row (ncos A (cell row 9), nsin A (cell row 9)).
Proof. reflexivity. Qed.

Definition witness : list (Z * Z) := nth 52 C2TCIO_DATA [].
Lemma witness_row : forall lm tol, toward_zero lm -> compare_from_cio (A := b64A lm) tol witness = cmp (A := b64A lm) tol witness (L_PTestRot.cz (cell (A := b64A lm) witness 9)).
Proof.
  intros lm tol T. assert (K : L_PTestRot.chk (cell (A := b64A lm) witness 9) = true) by (vm_compute; reflexivity).
  rewrite row_cmp. rewrite (L_PTestRot.trunc_pair lm _ T K). reflexivity.
Qed.

(** C110.  So does the test of the matrix from celestial to terrestrial coordinates out
    of its components. *)
Lemma C110_from_cio_refuted_pf : forall lm, toward_zero lm -> test_from_cio (A := b64A lm) = Panic.
Proof.
  intros lm T. unfold test_from_cio. apply (L_PTestRot.each_bad _ _ _ 52 witness); [reflexivity|].
  etransitivity; [exact (witness_row lm _ T)|]. vm_compute. reflexivity.
Qed.

(** C110.  And by rounding only: the row that breaks it is within two EPSILON. *)
Lemma C110_from_cio_within_two_pf : forall lm, toward_zero lm ->
  compare_from_cio (A := b64A lm) EPSILON (nth 52 C2TCIO_DATA []) = Panic /\
  compare_from_cio (A := b64A lm) (add (b64A lm) EPSILON EPSILON) (nth 52 C2TCIO_DATA []) = Val tt.
Proof. intros lm T. split; (etransitivity; [exact (witness_row lm _ T)|]); vm_compute; reflexivity. Qed.
