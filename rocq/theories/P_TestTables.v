(** * Properties: TestTables

    Statements only; proofs are in L_PTestTables.v. *)

From Coq Require Import ZArith Bool List.
From Flocq Require Import Core BinarySingleNaN.
From Verif Require Import Outcome Arith ArithF M_Common M_Time M_Locator M_Earth M_Frames M_Tests T_Tests M_TestTables.
Import ListNotations.
Open Scope Z_scope.
From Verif Require L_PTestTables.

(** C101, the tests against the tables of test_data.rs that need no libm: the 1000 Earth
    rotation angles and the 1000 pairs of precession rates are reproduced to one EPSILON
    on any platform. *)
Theorem C101_tables : forall lm, test_rotation_angle (A := b64A lm) = Val tt /\ test_precession_rate (A := b64A lm) = Val tt.
Proof. exact L_PTestTables.C101_tables_pf. Qed.
Print Assumptions C101_tables.

(** The first row of the table of rotation angles; a value off by 1e-15 is refused. *)
Example C101_tables_example : forall lm,
  let era := rotation_angle (A := b64A lm) (MkUT1 (A := b64A lm) (Flit 2451545 0) (Flit 14164831728719926 (-12))) in
  compare_numbers (A := b64A lm) (Flit 24594336487895134 (-16)) era EPSILON = Val tt /\
  compare_numbers (A := b64A lm) (Flit 24594336487895144 (-16)) era EPSILON = Panic.
Proof. exact L_PTestTables.C101_tables_example_pf. Qed.
