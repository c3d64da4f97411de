(** * Specification of the proleptic Gregorian calendar

    Independent of the model: leap years, month lengths, the date of the next
    day, and counting days by walking from one date to another. *)

From Coq Require Import ZArith Bool.
Open Scope Z_scope.

(** A civil date (year, month, day); astronomical year numbering. *)
Definition civil : Type := Z * Z * Z.

Definition leap (y : Z) : bool :=
  (y mod 4 =? 0) && (negb (y mod 100 =? 0) || (y mod 400 =? 0)).

Definition month_length (y m : Z) : Z :=
  match m with
  | 2 => if leap y then 29 else 28
  | 4 | 6 | 9 | 11 => 30
  | _ => 31
  end.

Definition valid_civil (c : civil) : Prop :=
  let '(y, m, d) := c in 1 <= m <= 12 /\ 1 <= d <= month_length y m.

(** The day after. *)
Definition next_day (c : civil) : civil :=
  let '(y, m, d) := c in
  if d <? month_length y m then (y, m, d + 1)
  else if m <? 12 then (y, m + 1, 1)
  else (y + 1, 1, 1).

(** [n] days after [c]. *)
Definition days_after (n : nat) (c : civil) : civil := Nat.iter n next_day c.

(** [b] is [n] days after [a] ([n] may be negative). *)
Definition day_count (a b : civil) (n : Z) : Prop :=
  (0 <= n /\ days_after (Z.to_nat n) a = b) \/
  (n < 0 /\ days_after (Z.to_nat (- n)) b = a).

(** Chronological order. *)
Definition civil_lt (a b : civil) : Prop :=
  let '(y1, m1, d1) := a in
  let '(y2, m2, d2) := b in
  y1 < y2 \/ (y1 = y2 /\ (m1 < m2 \/ (m1 = m2 /\ d1 < d2))).

(** Origin of the Modified Julian Date: 1858 November 17 (JD 2400000.5). *)
Definition mjd_epoch : civil := (1858, 11, 17).
