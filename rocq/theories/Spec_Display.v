(** * Vocabulary of the display properties *)

From Coq Require Import ZArith Ascii String Bool.
Open Scope string_scope.
Open Scope Z_scope.

Definition is_digit (c : ascii) : Prop := (48 <= nat_of_ascii c <= 57)%nat.
Fixpoint all_digits (s : string) : Prop :=
  match s with EmptyString => True | String c s' => is_digit c /\ all_digits s' end.

(** The number written by a string of digits, after the digits of [acc]. *)
Fixpoint read_from (acc : Z) (s : string) : Z :=
  match s with
  | EmptyString => acc
  | String c s' => read_from (10 * acc + (Z.of_nat (nat_of_ascii c) - 48)) s'
  end.
Definition read_digits (s : string) : Z := read_from 0 s.

(** [s] is exactly [k] digits and reads [n]. *)
Definition field (k : nat) (n : Z) (s : string) : Prop :=
  String.length s = k /\ all_digits s /\ read_digits s = n.

(** Byte-wise (lexicographic) order of strings. *)
Fixpoint before (a b : string) : Prop :=
  match a, b with
  | _, EmptyString => False
  | EmptyString, String _ _ => True
  | String x a', String y b' =>
      (nat_of_ascii x < nat_of_ascii y)%nat \/ (x = y /\ before a' b')
  end.

(** An explicit sign. *)
Definition sign_string (s : string) : Prop := s = "+" \/ s = "-".
Definition sign_factor (s : string) : Z := if String.eqb s "-" then -1 else 1.

(** [s] writes the integer [n] in at least [w] characters, sign included: a minus
    sign exactly for negative n, then decimal digits, with leading zeros only where
    the width needs them. *)
Definition padded (w : nat) (n : Z) (s : string) : Prop :=
  exists u, s = (if n <? 0 then "-" else "") ++ u /\ all_digits u /\ read_digits u = Z.abs n /\
    (w <= String.length s)%nat /\ ((w < String.length s)%nat -> 10 ^ (Z.of_nat (String.length u) - 1) <= Z.abs n).
