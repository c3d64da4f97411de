(** * Lemmas on the numbers printed by the tools *)

From Coq Require Import ZArith Ascii String Reals Lra Lia Bool List.
From Flocq Require Import Core BinarySingleNaN.
From Verif Require Import Outcome Arith ArithF Spec_Float M_Common M_Calendar M_Ellipsoid M_Display.
From Verif Require Import Spec_Calendar Spec_Api Spec_Display Spec_Tools.
From Verif Require Import L_ArithF L_Flit L_HMS L_Display L_PDisplay.
Open Scope string_scope.
Open Scope Z_scope.

Lemma blank_fill : forall k, all_blank (fill " " k).
Proof. induction k; cbn; auto. Qed.

Lemma nonempty_len : forall s, (1 <= String.length s)%nat -> s <> "".
Proof. intros s H E. subst s. cbn in H. lia. Qed.

Lemma decimal_fixed : forall p n k, 0 <= n -> decimal p n (fill "0" k ++ fixed n p).
Proof.
  intros p n k Hn. destruct p as [|p].
  - cbn [decimal fixed]. destruct (to_dec_ok n Hn) as (D & R & _). split; [|split].
    + apply nonempty_len. rewrite app_length. pose proof (to_dec_nonempty n Hn). lia.
    + apply all_digits_app. split; [apply fill0_digits|exact D].
    + unfold read_digits. rewrite read_from_app. pose proof (fill0_read k) as F. unfold read_digits in F. rewrite F. exact R.
  - set (P := 10 ^ Z.of_nat (S p)). assert (HP : 0 < P) by (apply Z.pow_pos_nonneg; lia).
    assert (Q : 0 <= n / P) by (apply Z.div_pos; lia). destruct (to_dec_ok (n / P) Q) as (D & R & _).
    exists (fill "0" k ++ to_dec (n / P)), (lpad "0" (S p) (to_dec (n mod P))). fold P.
    split; [unfold fixed; fold P; rewrite app_assoc; reflexivity|].
    split; [apply nonempty_len; rewrite app_length; pose proof (to_dec_nonempty (n / P) Q); lia|].
    split; [apply all_digits_app; split; [apply fill0_digits|exact D]|].
    split; [apply lpad_field; [lia|apply Z.mod_pos_bound; exact HP]|].
    unfold read_digits. rewrite read_from_app. pose proof (fill0_read k) as F. unfold read_digits in F. rewrite F. exact R.
Qed.

Lemma sign_cases : forall plus (x : b64), fin x = true -> sign_of plus x = "" \/ sign_of plus x = "+" \/ sign_of plus x = "-".
Proof. intros plus x F. destruct x as [s|s| |s m e H]; try discriminate F; destruct s, plus; cbn; tauto. Qed.

Lemma sign_value : forall plus (x : b64), fin x = true -> B2R x = (IZR (sign_factor (sign_of plus x)) * Rabs (B2R x))%R.
Proof.
  intros plus x Fx. destruct x as [s|s| |s m e H]; try discriminate Fx.
  - cbn [B2R]. rewrite Rabs_R0. ring.
  - cbn [B2R]. rewrite <- F2R_Zabs. rewrite abs_cond_Zopp. destruct s; cbn [sign_of].
    + change (sign_factor "-") with (-1). cbn [cond_Zopp]. change (- Z.pos m) with (Z.opp (Z.pos m)). rewrite F2R_Zopp. change (Z.abs (Z.pos m)) with (Z.pos m). lra.
    + assert (sign_factor (if plus then "+" else "") = 1) as -> by (destruct plus; reflexivity). cbn [cond_Zopp]. change (Z.abs (Z.pos m)) with (Z.pos m). lra.
Qed.

Lemma shows_gen : forall tie plus p k0 kb (x : b64) v e, fin x = true -> (Rabs (B2R x - v) <= e)%R ->
  shows p (fill " " kb ++ sign_of plus x ++ fill "0" k0 ++ body_of tie x p) v e.
Proof.
  intros tie plus p k0 kb x v e F H. destruct (float_body tie x p F) as (n & Hn & En & Bn).
  exists (fill " " kb), (sign_of plus x), (fill "0" k0 ++ body_of tie x p), n.
  split; [reflexivity|]. split; [apply blank_fill|]. split; [apply sign_cases, F|]. split; [exact Hn|].
  split; [rewrite En; apply decimal_fixed, Hn|].
  assert (PE : IZR (10 ^ Z.of_nat p) = (10 ^ p)%R) by (rewrite <- (pow_IZR 10 p); reflexivity). rewrite PE in Bn.
  assert (PP : (0 < 10 ^ p)%R) by (apply pow_lt; lra). set (P := (10 ^ p)%R) in *. clearbody P.
  set (sf := IZR (sign_factor (sign_of plus x))) in *. pose proof (sign_value plus x F) as SV. fold sf in SV.
  assert (S1 : (Rabs sf = 1)%R).
  { unfold sf. destruct (sign_cases plus x F) as [-> | [-> | ->]].
    - change (sign_factor "") with 1. apply Rabs_R1.
    - change (sign_factor "+") with 1. apply Rabs_R1.
    - change (sign_factor "-") with (-1). rewrite Rabs_left by lra. lra. }
  replace (sf * IZR n / P - v)%R with (sf * ((IZR n - Rabs (B2R x) * P) * / P) + (B2R x - v))%R by (rewrite SV at 2; field; lra).
  eapply Rle_trans; [apply Rabs_triang|]. apply Rplus_le_compat; [|exact H].
  rewrite Rabs_mult, S1, Rmult_1_l, Rabs_mult. rewrite (Rabs_pos_eq (/ P)) by (apply Rlt_le, Rinv_0_lt_compat; lra).
  apply Rmult_le_compat_r; [apply Rlt_le, Rinv_0_lt_compat; lra|exact Bn].
Qed.

Lemma shows_float : forall tie plus w p (x : b64) v e, fin x = true -> (Rabs (B2R x - v) <= e)%R -> shows p (fmt_float tie plus w p x) v e.
Proof. intros tie plus w p x v e F H. exact (shows_gen tie plus p 0 _ x v e F H). Qed.

Lemma shows_sign0 : forall tie w p (x : b64) v e, fin x = true -> (Rabs (B2R x - v) <= e)%R -> shows p (fmt_float_sign0 tie w p x) v e.
Proof. intros tie w p x v e F H. exact (shows_gen tie true p _ 0 x v e F H). Qed.

Lemma shows_hms : forall tie lm h m (s : b64), 0 <= h < 100 -> 0 <= m < 100 -> fin s = true -> Bsign s = false -> (0 <= B2R s < 60)%R ->
  shows_clock (display_hms tie (MkHMS (A := b64A lm) h m s)) h m (B2R s) 0.
Proof.
  intros tie lm h m s Hh Hm Fs SG Bs. destruct (float_body tie s 6 Fs) as (n & Hn & En & Bn).
  change (10 ^ Z.of_nat 6) with 1000000 in *. rewrite (Rabs_pos_eq (B2R s)) in Bn by lra.
  assert (NU : n <= 60000000).
  { assert (K : (IZR n < 60000001)%R) by (apply Rabs_le_inv in Bn; lra). apply lt_IZR in K. lia. }
  destruct (fixed_field 2 6 n 9 ltac:(lia) ltac:(lia)) as (ss & us & E1 & F1 & F2);
    [change (10 ^ Z.of_nat 6) with 1000000; change (10 ^ Z.of_nat 2) with 100; lia|reflexivity|].
  change (10 ^ Z.of_nat 6) with 1000000 in *.
  assert (D : fmt_float_fill0 tie 9 6 s = ss ++ "." ++ us).
  { unfold fmt_float_fill0. rewrite En. rewrite <- E1.
    replace (sign_of false s) with ""; [reflexivity|]. destruct s; try discriminate Fs; cbn [Bsign] in SG; rewrite SG; reflexivity. }
  exists (fmt_int 2 h), (fmt_int 2 m), ss, us, (n / 1000000), (n mod 1000000).
  split; [unfold display_hms; cbn [hour minute second]; rewrite D; reflexivity|].
  split; [apply fmt_int_field; [lia|change (10 ^ Z.of_nat 2) with 100; lia]|].
  split; [apply fmt_int_field; [lia|change (10 ^ Z.of_nat 2) with 100; lia]|].
  split; [exact F1|]. split; [exact F2|].
  pose proof (split_value n 1000000 (B2R s) ltac:(lia) Bn) as SV. lra.
Qed.
