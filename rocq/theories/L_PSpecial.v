(** * Printing infinities and NaN: lemmas for the properties *)

From Coq Require Import ZArith Ascii String Reals Bool.
From Flocq Require Import Core BinarySingleNaN.
From Verif Require Import Outcome Arith ArithF Spec_Float M_Common M_Calendar M_Ellipsoid M_Display Spec_Special.
From Verif Require Import L_Display.
Open Scope string_scope.
Open Scope Z_scope.

(** C62 for coordinates that are not finite: each such coordinate prints as the word NaN or
    inf, filled with zeros to the width of its field (10, 11 and 9 characters), the sign first;
    the other coordinates print as if it were 0. *)
Lemma C62_not_finite_pf : forall tie lm (la lo he x z : b64), fin x = false -> fin z = true -> B2R z = 0%R ->
  (exists r, display_360 tie (MkG360 (A := b64A lm) lo x he) = signed_special 7 x ++ "," ++ r /\
     exists u, display_360 tie (MkG360 (A := b64A lm) lo z he) = u ++ "," ++ r /\ (u = "+00.000000" \/ u = "-00.000000")) /\
  (exists r r', display_360 tie (MkG360 (A := b64A lm) x la he) = r ++ "," ++ signed_special 8 x ++ "," ++ r' /\
     exists u, display_360 tie (MkG360 (A := b64A lm) z la he) = r ++ "," ++ u ++ "," ++ r' /\ (u = "+000.000000" \/ u = "-000.000000")) /\
  (exists r, display_360 tie (MkG360 (A := b64A lm) lo la x) = r ++ "," ++ signed_special 6 x /\
     exists u, display_360 tie (MkG360 (A := b64A lm) lo la z) = r ++ "," ++ u /\ (u = "+00000.00" \/ u = "-00000.00")).
Proof.
  intros tie lm la lo he x z Fx Fz Z.
  assert (ZZ : exists s, z = B754_zero s).
  { destruct z as [s| | |s m e H]; try discriminate Fz; [exists s; reflexivity|]. exfalso. cbn in Z. apply Float_prop.eq_0_F2R in Z. destruct s; discriminate Z. }
  destruct ZZ as [s ->].
  assert (SX : forall w p, (4 <= w)%nat -> fmt_float_sign0 tie w p x = signed_special (w - 3) x).
  { assert (FZ : forall n, fill "0" n = zeros n) by (induction n as [|n IH]; [reflexivity|cbn; rewrite IH; reflexivity]).
    intros w p Hw. unfold fmt_float_sign0, lpad, signed_special. destruct x as [| s'| |]; try discriminate Fx.
    - destruct s'; cbn [sign_of body_of String.length append]; rewrite FZ; do 2 f_equal; f_equal; Lia.lia.
    - cbn [sign_of body_of String.length append]. rewrite FZ. do 2 f_equal. Lia.lia. }
  unfold display_360. cbn [lat lon height360]. repeat split.
  - rewrite (SX 10%nat 6%nat) by Lia.lia. eexists. split; [reflexivity|]. exists (fmt_float_sign0 tie 10 6 (B754_zero s)). split; [reflexivity|]. destruct s; [right|left]; vm_compute; reflexivity.
  - rewrite (SX 11%nat 6%nat) by Lia.lia. do 2 eexists. split; [reflexivity|]. exists (fmt_float_sign0 tie 11 6 (B754_zero s)). split; [reflexivity|]. destruct s; [right|left]; vm_compute; reflexivity.
  - rewrite (SX 9%nat 2%nat) by Lia.lia. exists (fmt_float_sign0 tie 10 6 la ++ "," ++ fmt_float_sign0 tie 11 6 lo). rewrite !app_assoc. split; [reflexivity|].
    exists (fmt_float_sign0 tie 9 2 (B754_zero s)). rewrite !app_assoc. split; [reflexivity|]. destruct s; [right|left]; vm_compute; reflexivity.
Qed.

(** C55 for seconds that are not finite: the word NaN, inf or -inf, filled with zeros to nine
    characters, the sign after the zeros. *)
Lemma C55_not_finite_pf : forall tie lm h m (x : b64), fin x = false ->
  exists r, display_hms tie (MkHMS (A := b64A lm) h m x) = r ++ ":" ++ filled_special 6 x /\
  forall z : b64, z = B754_zero false -> display_hms tie (MkHMS (A := b64A lm) h m z) = r ++ ":" ++ "00.000000".
Proof.
  intros tie lm h m x Fx. exists (fmt_int 2 h ++ ":" ++ fmt_int 2 m). unfold display_hms. cbn [hour minute second]. rewrite !app_assoc. split.
  - do 4 f_equal. destruct x as [|s| |]; try discriminate Fx; [destruct s|]; vm_compute; reflexivity.
  - intros z ->. do 4 f_equal.
Qed.

(** Latitude minus infinity, longitude NaN, height 10 m. *)
Example C62_not_finite_example_pf : forall lm,
  display_360 (fun _ => true) (MkG360 (A := b64A lm) B754_nan (B754_infinity true) (Flit 10 0)) = "-000000inf,00000000NaN,+00010.00" /\
  display_hms (fun _ => true) (MkHMS (A := b64A lm) 1 2 (B754_infinity true)) = "01:02:00000-inf".
Proof. intros lm. split; vm_compute; reflexivity. Qed.
