(** * Properties: Special

    Statements only; proofs are in L_PSpecial.v. *)

From Coq Require Import ZArith Ascii String Reals Bool.
From Flocq Require Import Core BinarySingleNaN.
From Verif Require Import Outcome Arith ArithF Spec_Float M_Common M_Calendar M_Ellipsoid M_Display Spec_Special.
Open Scope string_scope.
Open Scope Z_scope.
From Verif Require L_PSpecial.

(** C62 for coordinates that are not finite: each such coordinate prints as the word NaN or
    inf, filled with zeros to the width of its field (10, 11 and 9 characters), the sign first;
    the other coordinates print as if it were 0. *)
Theorem C62_not_finite : forall tie lm (la lo he x z : b64), fin x = false -> fin z = true -> B2R z = 0%R ->
  (exists r, display_360 tie (MkG360 (A := b64A lm) lo x he) = signed_special 7 x ++ "," ++ r /\
     exists u, display_360 tie (MkG360 (A := b64A lm) lo z he) = u ++ "," ++ r /\ (u = "+00.000000" \/ u = "-00.000000")) /\
  (exists r r', display_360 tie (MkG360 (A := b64A lm) x la he) = r ++ "," ++ signed_special 8 x ++ "," ++ r' /\
     exists u, display_360 tie (MkG360 (A := b64A lm) z la he) = r ++ "," ++ u ++ "," ++ r' /\ (u = "+000.000000" \/ u = "-000.000000")) /\
  (exists r, display_360 tie (MkG360 (A := b64A lm) lo la x) = r ++ "," ++ signed_special 6 x /\
     exists u, display_360 tie (MkG360 (A := b64A lm) lo la z) = r ++ "," ++ u /\ (u = "+00000.00" \/ u = "-00000.00")).
Proof. exact L_PSpecial.C62_not_finite_pf. Qed.
Print Assumptions C62_not_finite.

(** C55 for seconds that are not finite: the word NaN, inf or -inf, filled with zeros to nine
    characters, the sign after the zeros. *)
Theorem C55_not_finite : forall tie lm h m (x : b64), fin x = false ->
  exists r, display_hms tie (MkHMS (A := b64A lm) h m x) = r ++ ":" ++ filled_special 6 x /\
  forall z : b64, z = B754_zero false -> display_hms tie (MkHMS (A := b64A lm) h m z) = r ++ ":" ++ "00.000000".
Proof. exact L_PSpecial.C55_not_finite_pf. Qed.
Print Assumptions C55_not_finite.

(** Latitude minus infinity, longitude NaN, height 10 m. *)
Example C62_not_finite_example : forall lm,
  display_360 (fun _ => true) (MkG360 (A := b64A lm) B754_nan (B754_infinity true) (Flit 10 0)) = "-000000inf,00000000NaN,+00010.00" /\
  display_hms (fun _ => true) (MkHMS (A := b64A lm) 1 2 (B754_infinity true)) = "01:02:00000-inf".
Proof. exact L_PSpecial.C62_not_finite_example_pf. Qed.
