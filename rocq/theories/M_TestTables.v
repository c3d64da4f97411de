(** * Model of the tests of crates/tofas/src/tests.rs against tables that need no libm

    What the tests print is left out; see M_Tests.v. *)

From Coq Require Import ZArith Bool List.
From Verif Require Import Outcome Arith M_Common M_Time M_Earth M_Frames M_Tests T_Tests.
Import ListNotations.
Open Scope Z_scope.
Open Scope outcome_scope.

Section Tables.
Context {A : arith}.
Local Notation num := (num A).

(** The [k]-th number of a row of a table. *)
Definition cell (row : list (Z * Z)) (k : nat) : num := let '(m, e) := nth k row (0, 0) in lit A m e.

(** tests.rs:247-253 *)
Definition test_rotation_angle : outcome unit :=
  each (fun row =>
    let era2 := rotation_angle (MkUT1 (cell row 0) (cell row 1)) in
    compare_numbers (cell row 2) era2 EPSILON) ERA00_DATA.

(** tests.rs:256-263 *)
Definition test_precession_rate : outcome unit :=
  each (fun row =>
    let '(dpsipr2, depspr2) := precession_rate (MkTT (cell row 0) (cell row 1)) in
    _ <- compare_numbers (cell row 2) dpsipr2 EPSILON;;
    compare_numbers (cell row 3) depspr2 EPSILON) PR00_DATA.

End Tables.
