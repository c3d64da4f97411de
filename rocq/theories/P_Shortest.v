(** * Properties: Shortest

    Statements only; proofs are in L_PShortest.v. *)

From Coq Require Import ZArith Ascii String Reals Lra Lia Bool List.
From Flocq Require Import Core BinarySingleNaN.
From Verif Require Import Outcome Arith ArithR ArithF Spec_Float M_Common M_Calendar M_Time M_Display M_Tools M_Args M_Shortest.
From Verif Require Import Spec_Display Spec_Tools Spec_Args Spec_Shortest.
Import ListNotations.
Open Scope string_scope.
Open Scope Z_scope.
From Verif Require L_PShortest.

(** Every float is printed as a text that reads as the same float, infinities, NaN and
    the sign of zero included. *)
Theorem C107_reads_back : forall tie x, reads_f64 (show_f64 tie x) x.
Proof. exact L_PShortest.C107_reads_back_pf. Qed.
Print Assumptions C107_reads_back.

(** Two floats printed alike are the same. *)
Theorem C107_injective : forall tie x y, show_f64 tie x = show_f64 tie y -> x = y.
Proof. exact L_PShortest.C107_injective_pf. Qed.
Print Assumptions C107_injective.

(** A finite float other than zero is printed with a minus sign exactly when it is
    negative, no exponent and no superfluous zero, with at most 17 significant digits.
    No text that reads as the float has fewer significant digits, and none with as few
    is closer to it. *)
Theorem C107_shortest : forall tie (x : b64), fin x = true -> B2R x <> 0%R -> exists t n e j,
  show_f64 tie x = (if Bsign x then "-" else "") ++ t /\ tidy t /\ writes_decimal (show_f64 tie x) (Bsign x) n e /\
  1 <= j <= 17 /\ significant j n /\
  (forall t' neg n' e' i, 0 <= i -> writes_decimal t' neg n' e' -> nearest_to neg n' e' x -> significant i n' -> j <= i) /\
  (forall t' neg n' e', writes_decimal t' neg n' e' -> nearest_to neg n' e' x -> significant j n' ->
     (Rabs (IZR n * ten_to e - Rabs (B2R x)) <= Rabs (IZR n' * ten_to e' - Rabs (B2R x)))%R).
Proof. exact L_PShortest.C107_shortest_pf. Qed.
Print Assumptions C107_shortest.

(** The fraction of day printed by julian_tool determines the fraction computed by
    from_julian to the last bit. *)
Theorem C107_tool : forall tie tie' lm p (jd : b64) jd2 a b c r e, tool_julian tie (show_f64 tie') (lm := lm) p (Some jd) jd2 false = Val (a :: b :: c :: r, e) ->
  exists g f t, from_julian (A := b64A lm) p jd (opt jd2 (Flit 0 0)) = Val (Ok (g, f)) /\ c = "Fraction of day: " ++ t /\ reads_f64 t f /\ forall f', reads_f64 t f' -> f' = f.
Proof. exact L_PShortest.C107_tool_pf. Qed.
Print Assumptions C107_tool.

(** The sum of the literals 0.1 and 0.2 takes 17 digits, the literal 1e23 is printed
    with one significant digit though the float is not 10^23. *)
Example C107_example : forall tie,
  show_f64 tie (Fadd (Flit 1 (-1)) (Flit 2 (-1))) = "0.30000000000000004" /\ show_f64 tie (Flit 1 23) = "100000000000000000000000" /\
  show_f64 tie (Flit (-25) (-2)) = "-0.25" /\ show_f64 tie (Flit 9007199254740993 0) = "9007199254740992" /\
  show_f64 tie (Flit 1 (-7)) = "0.0000001" /\ show_f64 tie (Fdiv (Flit 2 0) (Flit 3 0)) = "0.6666666666666666".
Proof. exact L_PShortest.C107_example_pf. Qed.
