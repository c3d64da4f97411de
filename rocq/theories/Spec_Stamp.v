(** * Dates with a time of day *)

From Coq Require Import ZArith Reals.
From Flocq Require Import Core BinarySingleNaN.
From Verif Require Import Arith ArithF Spec_Float M_Calendar Spec_Calendar Spec_Api.
Open Scope R_scope.
Open Scope Z_scope.

(** A real calendar date of the years 0 to 9999, hour and minute of at most two
    digits, seconds from +0 to 99. *)
Definition stamp_ok {lm : libm} (x : GregorianDateHMS (b64A lm)) : Prop :=
  let s : b64 := second (A := b64A lm) (hms x) in
  accepted (date x) /\ 0 <= year (date x) <= 9999 /\ 0 <= hour (hms x) <= 99 /\ 0 <= minute (hms x) <= 99 /\
  fin s = true /\ Bsign s = false /\ (0 <= B2R s <= 99)%R.

(** Earlier date, or the same date and an earlier time. *)
Definition stamp_lt {lm : libm} (x y : GregorianDateHMS (b64A lm)) : Prop :=
  civil_lt (of_date (date x)) (of_date (date y)) \/
  (date x = date y /\
   (hour (hms x) < hour (hms y) \/
    (hour (hms x) = hour (hms y) /\
     (minute (hms x) < minute (hms y) \/
      (minute (hms x) = minute (hms y) /\
       (B2R (second (A := b64A lm) (hms x) : b64) < B2R (second (A := b64A lm) (hms y) : b64))%R))))).
