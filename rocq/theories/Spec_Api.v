(** * Vocabulary shared by the property statements *)

From Coq Require Import ZArith.
From Verif Require Import Outcome M_Calendar Spec_Calendar.
Open Scope Z_scope.

(** The civil date held by a [GregorianDate]. *)
Definition of_date (g : GregorianDate) : civil := (year g, month g, day g).

(** [g] is a value that [GregorianDate::new] returns. *)
Definition accepted (g : GregorianDate) : Prop :=
  date_new (year g) (month g) (day g) = Val (Ok g).
