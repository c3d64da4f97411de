(** * What the tests of tests.rs may draw *)

From Coq Require Import Reals List.
From Flocq Require Import Core BinarySingleNaN.
From Verif Require Import ArithF.
Open Scope R_scope.

(** fastrand::f64 returns a number in [0, 1): any binary64 number there. *)
Definition drawn (u : b64) : Prop := is_finite u = true /\ 0 <= B2R u < 1.
Definition drawn2 (u : b64 * b64) : Prop := drawn (fst u) /\ drawn (snd u).
Definition drawn3 (u : b64 * b64 * b64) : Prop := drawn2 (fst u) /\ drawn (snd u).
