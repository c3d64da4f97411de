(** * Model of [{}] on f64 (julian_tool.rs:33)

    Without a precision, core::fmt prints a float by the shortest decimal number that
    reads back as the same float, of these the one closest to it, without an exponent.
    The documentation fixes the number so far; when two shortest numbers are equally
    close, [tie] says whether the upper one is taken. *)

From Coq Require Import ZArith Ascii String List Bool.
From Flocq Require Import Core BinarySingleNaN.
From Verif Require Import ArithF M_Display.
Open Scope string_scope.
Open Scope Z_scope.

(** m * 2^e as a fraction *)
Definition numer (m : positive) (e : Z) : Z := Zpos m * 2 ^ Z.max e 0.
Definition denom (e : Z) : Z := 2 ^ Z.max (- e) 0.

(** N / D as a fraction of 10^s *)
Definition in_units (N D s : Z) : Z * Z := if 0 <=? s then (N, D * 10 ^ s) else (N * 10 ^ (- s), D).

(** The least k, from the given one on, with N / D < 10^k. *)
Fixpoint least_power (fuel : nat) (N D k : Z) : Z :=
  match fuel with
  | O => k
  | S f => let '(a, b) := in_units N D k in if a <? b then k else least_power f N D (k + 1)
  end.

(** A power of ten below 2^l and not far from it. *)
Definition guess (l : Z) : Z := l * 3 / 10 - 2.

(** Whether the literal d * 10^s is the float m * 2^e. *)
Definition reads_as (m : positive) (e : Z) (c : Z * Z) : bool :=
  match Flit (fst c) (snd c) with
  | B754_finite false m' e' _ => Pos.eqb m' m && (e' =? e)
  | _ => false
  end.

Section Show.
Variable tie : Z -> bool.

(** The closest decimal of n digits that reads back, below or above m * 2^e, which is
    less than 10^k and not less than 10^(k-1). *)
Definition with_digits (m : positive) (e k n : Z) : option (Z * Z) :=
  let s := k - n in
  let '(a, b) := in_units (numer m e) (denom e) s in
  let q := a / b in
  let lo := (q, s) in
  let hi := if q + 1 =? 10 ^ n then (1, k) else (q + 1, s) in
  match reads_as m e lo, reads_as m e hi with
  | true, true => Some (match Z.compare (2 * (a mod b)) b with Lt => lo | Gt => hi | Eq => if tie q then hi else lo end)
  | true, false => Some lo
  | false, true => Some hi
  | false, false => None
  end.

(** The first number of digits that suffices, [left] of them to be tried. *)
Fixpoint fewest (left : nat) (m : positive) (e k n : Z) : Z * Z :=
  match left with
  | O => (0, 0)
  | S l => match with_digits m e k n with Some c => c | None => fewest l m e k (n + 1) end
  end.

Definition shortest_decimal (m : positive) (e : Z) : Z * Z :=
  fewest 17 m e (least_power 8 (numer m e) (denom e) (guess (Z.log2 (Zpos m) + e))) 1.

(** d * 10^s written without an exponent *)
Definition plain (c : Z * Z) : string :=
  let '(d, s) := c in if 0 <=? s then to_dec (d * 10 ^ s) else fixed d (Z.to_nat (- s)).

Definition show_f64 (x : b64) : string :=
  sign_of false x ++
  match x with
  | B754_nan => "NaN"
  | B754_infinity _ => "inf"
  | B754_zero _ => "0"
  | B754_finite _ m e _ => plain (shortest_decimal m e)
  end.

End Show.
