(** * Vocabulary of the shortest decimals *)

From Coq Require Import ZArith Ascii String.
From Verif Require Import Spec_Display.
Open Scope string_scope.
Open Scope Z_scope.

(** n has at most j significant digits: it is a number of j digits and zeros. *)
Definition significant (j n : Z) : Prop := exists d k, 0 <= k /\ 0 <= d < 10 ^ j /\ n = d * 10 ^ k.

(** Digits without a superfluous zero in front; a lone zero is allowed. *)
Definition no_zero_first (i : string) : Prop := i = "0" \/ exists c t, i = String c t /\ is_digit c /\ c <> "0"%char /\ all_digits t.
(** Digits without a zero at the end, at least one. *)
Definition no_zero_last (f : string) : Prop := exists c t, f = t ++ String c "" /\ is_digit c /\ c <> "0"%char /\ all_digits t.

(** A decimal number with neither an exponent nor a superfluous digit: digits, and a
    point only where digits follow it. *)
Definition tidy (t : string) : Prop := no_zero_first t \/ exists i f, t = i ++ "." ++ f /\ no_zero_first i /\ no_zero_last f.
