(** * Properties: Tests

    Statements only; proofs are in L_PTests.v. *)

From Coq Require Import ZArith Reals Lra Lia Bool List Ascii String.
From Flocq Require Import Core BinarySingleNaN.
From Verif Require Import Outcome Arith ArithR ArithF Spec_Float M_Common M_Calendar M_DeltaAt M_Time M_Earth M_Frames M_Ellipsoid M_Display M_Tests Spec_Calendar Spec_Api Spec_Matrix Spec_Accuracy Spec_Tests.
Import ListNotations.
Open Scope R_scope.
From Verif Require L_PTests.

(** C101, random draws.  Whatever numbers in [0, 1) fastrand draws, and however many, the
    calendar and time-of-day tests pass in both build profiles on any platform; the rotation test
    passes with any libm accurate to 2^-52. *)
Theorem C101_random : forall lm p,
  (forall draws, Forall drawn2 draws -> test_calendar (A := b64A lm) p draws = Val tt) /\
  (forall draws, Forall drawn draws -> test_hms (A := b64A lm) draws = Val tt) /\
  (good_libm lm -> forall draws, Forall drawn3 draws -> test_rotation (A := b64A lm) draws = Val tt).
Proof. exact L_PTests.C101_random_pf. Qed.
Print Assumptions C101_random.

(** C101, the tests without random numbers and without reference tables pass on any platform, with any
    libm whatever and any way of rounding ties in the formatter. *)
Theorem C101_fixed : forall lm p tie,
  test_delta_at (A := b64A lm) p = Val tt /\ test_earth (A := b64A lm) = Val tt /\ test_geodetic_display tie (lm := lm) p = Val tt.
Proof. exact L_PTests.C101_fixed_pf. Qed.
Print Assumptions C101_fixed.

(** Draws at both ends of the interval.  The lowest draw of the calendar test is a day of the year
    -4800, which [new] rejects.  Outside the interval the time test fails. *)
Example C101_example : forall lm p,
  drawn (Fof (2 ^ 52 - 1) (-52)) /\
  test_hms (A := b64A lm) [Flit 0 0; Fof (2 ^ 52 - 1) (-52); Flit 75 (-2)] = Val tt /\
  test_calendar (A := b64A lm) p [(Flit 0 0, Fof (2 ^ 52 - 1) (-52)); (Fof (2 ^ 52 - 1) (-52), Flit 0 0)] = Val tt /\
  from_julian (A := b64A lm) p (Flit (-319995) (-1)) (Flit 0 0) = Val (Ok (MkDate (-4800) 4 15, Flit 0 0)) /\
  date_new (-4800) 4 15 = Val (Err BadYear) /\
  test_hms (A := b64A lm) [Flit 1 0] = Panic.
Proof. exact L_PTests.C101_example_pf. Qed.
