(** * How infinities and NaN are printed *)

From Coq Require Import String.
From Flocq Require Import BinarySingleNaN.
From Verif Require Import ArithF.
Open Scope string_scope.

Fixpoint zeros (n : nat) : string := match n with O => "" | S k => "0" ++ zeros k end.

(** In a field of fixed width with an explicit sign: [n] zeros before NaN, a sign
    and [n - 1] zeros before inf. *)
Definition signed_special (n : nat) (x : b64) : string :=
  match x with
  | B754_nan => zeros n ++ "NaN"
  | B754_infinity s => (if s then "-" else "+") ++ zeros (n - 1) ++ "inf"
  | _ => ""
  end.

(** Filled with zeros on the left, the sign after them. *)
Definition filled_special (n : nat) (x : b64) : string :=
  match x with
  | B754_nan => zeros n ++ "NaN"
  | B754_infinity true => zeros (n - 1) ++ "-inf"
  | B754_infinity false => zeros n ++ "inf"
  | _ => ""
  end.
