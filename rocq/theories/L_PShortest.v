(** * Proofs of the properties of the printed fraction of day *)

From Coq Require Import ZArith Ascii String Reals Lra Lia Bool List.
From Flocq Require Import Core BinarySingleNaN.
From Verif Require Import Outcome Arith ArithR ArithF Spec_Float M_Common M_Calendar M_Time M_Display M_Tools M_Args M_Shortest.
From Verif Require Import Spec_Display Spec_Tools Spec_Args Spec_Shortest.
From Verif Require Import L_ArithF L_Display L_Shows L_Args L_PArgs L_PJulianMain L_Shortest.
Import ListNotations.
Open Scope string_scope.
Open Scope Z_scope.

Lemma digit0 : forall c, is_digit c -> Z.of_nat (nat_of_ascii c) - 48 <> 0 -> c <> "0"%char.
Proof. intros c _ H ->. apply H. reflexivity. Qed.

Lemma first_of : forall i n, all_digits i -> read_digits i = n -> i <> "" -> 0 < n -> (String.length i <> 1%nat -> 10 ^ Z.of_nat (String.length i - 1) <= n) -> no_zero_first i.
Proof.
  intros i n D R NE P L. right. destruct i as [|c t]; [congruence|]. destruct D as [Dc Dt]. exists c, t. split; [reflexivity|]. split; [exact Dc|]. split; [|exact Dt].
  intros ->. unfold read_digits in R. cbn [read_from] in R. change (10 * 0 + (Z.of_nat (nat_of_ascii "0") - 48)) with 0 in R.
  pose proof (read_from_bound t 0 Dt) as Bd. rewrite R in Bd. cbn [String.length] in L. destruct t as [|d t]; [cbn in R; lia|].
  specialize (L ltac:(discriminate)). replace (S (String.length (String d t)) - 1)%nat with (String.length (String d t)) in L by lia. lia.
Qed.
Lemma to_dec_first : forall n, 0 <= n -> no_zero_first (to_dec n).
Proof.
  intros n N. destruct (Z.eq_dec n 0) as [->|NZ]; [left; reflexivity|]. destruct (to_dec_ok n N) as (D & R & L). pose proof (to_dec_nonempty n N) as NE.
  apply (first_of _ n D R); [destruct (to_dec n); [cbn in NE; lia|discriminate]|lia|]. intros NL.
  destruct (Z_le_gt_dec (10 ^ Z.of_nat (String.length (to_dec n) - 1)) n) as [|G]; [assumption|exfalso].
  assert (K : (String.length (to_dec n) <= String.length (to_dec n) - 1)%nat) by (apply L; lia). lia.
Qed.

Lemma last_split : forall f, f <> "" -> exists t c, f = t ++ String c "".
Proof.
  induction f as [|c f IH]; intros H; [congruence|]. destruct f as [|d f]; [exists "", c; reflexivity|].
  destruct (IH ltac:(discriminate)) as (t & e & E). exists (String c t), e. rewrite E. reflexivity.
Qed.
Lemma last_of : forall f, all_digits f -> f <> "" -> read_digits f mod 10 <> 0 -> no_zero_last f.
Proof.
  intros f D NE M. destruct (last_split f NE) as (t & c & ->). apply L_Display.all_digits_app in D. destruct D as [Dt [Dc _]]. exists c, t.
  split; [reflexivity|]. split; [exact Dc|]. split; [|exact Dt]. intros ->. apply M. unfold read_digits. rewrite L_Display.read_from_app. cbn [read_from].
  change (Z.of_nat (nat_of_ascii "0") - 48) with 0. rewrite Z.add_0_r, Z.mul_comm. apply Z.mod_mul. lia.
Qed.

Lemma plain_ok : forall sg d s, (sg = "" \/ sg = "+" \/ sg = "-") -> 0 < d -> writes_decimal (sg ++ plain (d, s)) (String.eqb sg "-") (d * 10 ^ Z.max s 0) (Z.min s 0).
Proof.
  intros sg d s SG P. unfold plain. destruct (Z.leb_spec 0 s) as [C|C].
  - rewrite Z.max_l, Z.min_r by lia. assert (N : 0 <= d * 10 ^ s) by (apply Z.mul_nonneg_nonneg; [lia|apply Z.pow_nonneg; lia]).
    destruct (to_dec_ok _ N) as (D & R & _). pose proof (to_dec_nonempty _ N) as NE.
    exists sg, (to_dec (d * 10 ^ s)), "", "", "", 0. cbn [append]. rewrite !sapp_nil. split; [reflexivity|]. split; [exact SG|]. split; [reflexivity|]. split; [exact D|]. split; [exact I|].
    split; [left; split; reflexivity|]. split; [destruct (to_dec (d * 10 ^ s)); [cbn in NE; lia|discriminate]|]. split; [symmetry; exact R|]. split; [left; split; reflexivity|reflexivity].
  - rewrite Z.max_r, Z.min_l by lia. change (10 ^ 0) with 1. rewrite Z.mul_1_r.
    destruct (Z.to_nat (- s)) as [|k] eqn:E; [lia|]. replace s with (- Z.of_nat (S k)) by lia.
    exact (decimal_text sg _ d k SG ltac:(lia) (decimal_fixed (S k) d 0 ltac:(lia))).
Qed.

Lemma plain_tidy : forall d s, 0 < d -> d mod 10 <> 0 -> tidy (plain (d, s)).
Proof.
  intros d s P M. unfold plain. destruct (Z.leb_spec 0 s) as [C|C].
  - left. apply to_dec_first. apply Z.mul_nonneg_nonneg; [lia|apply Z.pow_nonneg; lia].
  - right. destruct (Z.to_nat (- s)) as [|k] eqn:E; [lia|]. unfold fixed. exists (to_dec (d / 10 ^ Z.of_nat (S k))), (lpad "0" (S k) (to_dec (d mod 10 ^ Z.of_nat (S k)))).
    assert (TP : 0 < 10 ^ Z.of_nat (S k)) by (apply Z.pow_pos_nonneg; lia). split; [reflexivity|]. split; [apply to_dec_first, Z.div_pos; lia|].
    pose proof (Z.mod_pos_bound d _ TP) as MB. destruct (lpad_field (S k) (d mod 10 ^ Z.of_nat (S k)) ltac:(lia) MB) as (FL & FD & FR).
    apply last_of; [exact FD|intros Z; rewrite Z in FL; discriminate FL|]. rewrite FR. rewrite Nat2Z.inj_succ, Z.pow_succ_r by lia.
    rewrite <- Znumtheory.Zmod_div_mod; [exact M|lia|rewrite <- Z.pow_succ_r, <- Nat2Z.inj_succ by lia; exact TP|exists (10 ^ Z.of_nat k); ring].
Qed.

Lemma max_min : forall s, Z.max s 0 + Z.min s 0 = s. Proof. intros s. lia. Qed.
Lemma scale_near : forall neg d s x, nearest_to neg (d * 10 ^ Z.max s 0) (Z.min s 0) x <-> nearest_to neg d s x.
Proof.
  intros neg d s x. unfold nearest_to. cbv zeta. replace ((if neg then -1 else 1) * IZR (d * 10 ^ Z.max s 0) * ten_to (Z.min s 0))%R with ((if neg then -1 else 1) * IZR d * ten_to s)%R; [reflexivity|].
  rewrite mult_IZR, <- ten_to_nonneg by lia. unfold ten_to. rewrite <- (max_min s) at 1. rewrite bpow_plus. ring.
Qed.

Lemma show_parts : forall tie s m e B, show_f64 tie (B754_finite s m e B) = (if s then "-" else "") ++ plain (shortest_decimal tie m e).
Proof. intros tie s m e B. destruct s; reflexivity. Qed.

Lemma nearest_flip : forall neg n e x, nearest_to (negb neg) n e x -> nearest_to neg n e (Bopp x).
Proof.
  intros [|] n e x H; [exact (nearest_opp n e x H)|]. unfold nearest_to in *. cbv zeta in *. cbn [negb] in H.
  replace (-1 * IZR n * ten_to e)%R with (- (1 * IZR n * ten_to e))%R in H by ring. rewrite round_NE_opp, Rabs_Ropp in H. destruct H as [S H]. split.
  - clear H. destruct x as [z|z| |z m e' B]; cbn [Bopp Bsign] in *; [rewrite S|rewrite S|discriminate S|rewrite S]; reflexivity.
  - destruct H as [(L & F & V)|(L & ->)]; [left|right; auto]. split; [exact L|]. split; [rewrite is_finite_Bopp; exact F|]. rewrite B2R_Bopp, V. ring.
Qed.

(** Every float is printed as a text that reads as the same float, infinities, NaN and
    the sign of zero included. *)
Lemma C107_reads_back_pf : forall tie x, reads_f64 (show_f64 tie x) x.
Proof.
  intros tie x. destruct x as [s|s| |s m e B].
  - left. exists s, 0, 0. split.
    + destruct s; [exists "-"|exists ""]; exists "0", "", "", "", 0; (split; [reflexivity|]; split; [tauto|]; split; [reflexivity|]; split; [split; [unfold is_digit; cbn; lia|exact I]|]; split; [exact I|];
        split; [left; split; reflexivity|]; split; [discriminate|]; split; [reflexivity|]; split; [left; split; reflexivity|reflexivity]).
    + unfold nearest_to. cbv zeta. rewrite Rmult_0_r, Rmult_0_l, round_0 by apply valid_rnd_N. rewrite Rabs_R0. split; [reflexivity|]. left. split; [apply bpow_gt_0|split; reflexivity].
  - right. left. exists (if s then "-" else ""), "inf". split; [destruct s; reflexivity|]. split; [destruct s; tauto|]. split; [left; cbn; tauto|]. destruct s; reflexivity.
  - right. right. exists "", "NaN". split; [reflexivity|]. split; [tauto|]. split; [cbn; repeat split; lia|reflexivity].
  - left. destruct (shortest_ok m e B tie) as (j & J & (D1 & D2) & M & NR & _). destruct (shortest_decimal tie m e) as [d k] eqn:E. cbn [fst snd] in *.
    assert (DP : 0 < d) by (assert (0 < 10 ^ (j - 1)) by (apply Z.pow_pos_nonneg; lia); lia).
    exists s, (d * 10 ^ Z.max k 0), (Z.min k 0). rewrite show_parts, E. destruct s.
    + split; [exact (plain_ok "-" d k ltac:(tauto) DP)|]. apply scale_near. exact (nearest_opp _ _ _ NR).
    + split; [exact (plain_ok "" d k ltac:(tauto) DP)|]. apply scale_near. exact NR.
Qed.

(** Two floats printed alike are the same. *)
Lemma C107_injective_pf : forall tie x y, show_f64 tie x = show_f64 tie y -> x = y.
Proof.
  intros tie x y H. pose proof (parse_f64_ok _ _ (C107_reads_back_pf tie x)) as X. pose proof (parse_f64_ok _ _ (C107_reads_back_pf tie y)) as Y.
  rewrite H, Y in X. injection X as X. symmetry. exact X.
Qed.

(** A finite float other than zero is printed with a minus sign exactly when it is
    negative, no exponent and no superfluous zero, with at most 17 significant digits.
    No text that reads as the float has fewer significant digits, and none with as few
    is closer to it. *)
Lemma C107_shortest_pf : forall tie (x : b64), fin x = true -> B2R x <> 0%R -> exists t n e j,
  show_f64 tie x = (if Bsign x then "-" else "") ++ t /\ tidy t /\ writes_decimal (show_f64 tie x) (Bsign x) n e /\
  1 <= j <= 17 /\ significant j n /\
  (forall t' neg n' e' i, 0 <= i -> writes_decimal t' neg n' e' -> nearest_to neg n' e' x -> significant i n' -> j <= i) /\
  (forall t' neg n' e', writes_decimal t' neg n' e' -> nearest_to neg n' e' x -> significant j n' ->
     (Rabs (IZR n * ten_to e - Rabs (B2R x)) <= Rabs (IZR n' * ten_to e' - Rabs (B2R x)))%R).
Proof.
  intros tie x F NZ. destruct x as [s|s| |s m e B]; try discriminate F; [cbn in NZ; lra|]. clear F NZ.
  destruct (shortest_ok m e B tie) as (j & J & (D1 & D2) & M & NR & MIN & CLO). destruct (shortest_decimal tie m e) as [d k] eqn:E. cbn [fst snd] in *.
  assert (TP : 0 < 10 ^ (j - 1)) by (apply Z.pow_pos_nonneg; lia). assert (DP : 0 < d) by lia.
  assert (AV : Rabs (B2R (B754_finite s m e B : b64)) = B2R (B754_finite false m e B : b64)).
  { destruct s; [|apply Rabs_pos_eq, Rlt_le, v_pos]. change (B754_finite true m e B : b64) with (Bopp (B754_finite false m e B : b64)). rewrite B2R_Bopp, Rabs_Ropp. apply Rabs_pos_eq, Rlt_le, v_pos. }
  assert (POS : forall neg n' e', nearest_to neg n' e' (B754_finite s m e B) -> nearest_to false n' e' (B754_finite false m e B)).
  { intros neg n' e' H. assert (neg = s) by (destruct H as [H _]; cbn in H; congruence). subst neg. destruct s; [|exact H]. exact (nearest_flip false n' e' _ H). }
  assert (STRIP : forall i n' e', significant i n' -> nearest_to false n' e' (B754_finite false m e B) ->
            exists d' e'', 0 <= d' < 10 ^ i /\ nearest_to false d' e'' (B754_finite false m e B) /\ (IZR n' * ten_to e' = IZR d' * ten_to e'')%R).
  { intros i n' e' (d' & k' & K0 & DB & ->) H. exists d', (k' + e'). split; [exact DB|].
    assert (EQ : (IZR (d' * 10 ^ k') * ten_to e' = IZR d' * ten_to (k' + e'))%R) by (rewrite mult_IZR, <- ten_to_nonneg by exact K0; unfold ten_to; rewrite bpow_plus; ring).
    split; [|exact EQ]. unfold nearest_to in *. cbv zeta in *. rewrite Rmult_1_l in *. rewrite EQ in H. exact H. }
  exists (plain (d, k)), (d * 10 ^ Z.max k 0), (Z.min k 0), j. split; [rewrite show_parts, E; destruct s; reflexivity|]. split; [apply plain_tidy; assumption|].
  split; [rewrite show_parts, E; destruct s; [exact (plain_ok "-" d k ltac:(tauto) DP)|exact (plain_ok "" d k ltac:(tauto) DP)]|].
  split; [lia|]. split; [exists d, (Z.max k 0); split; [lia|split; [lia|reflexivity]]|]. split.
  - intros t' neg n' e' i I0 _ H SG. destruct (STRIP i n' e' SG (POS _ _ _ H)) as (d' & e'' & DB & H' & _). pose proof (MIN d' e'' ltac:(lia) H') as L.
    destruct (Z_le_gt_dec j i) as [|G]; [assumption|exfalso]. assert (10 ^ i <= 10 ^ (j - 1)) by (apply Z.pow_le_mono_r; lia). lia.
  - intros t' neg n' e' _ H SG. destruct (STRIP j n' e' SG (POS _ _ _ H)) as (d' & e'' & DB & H' & EQ). rewrite EQ, AV.
    replace (IZR (d * 10 ^ Z.max k 0) * ten_to (Z.min k 0))%R with (IZR d * ten_to k)%R; [exact (CLO d' e'' DB H')|].
    rewrite mult_IZR, <- ten_to_nonneg by lia. unfold ten_to. rewrite <- (max_min k) at 1. rewrite bpow_plus. ring.
Qed.

(** The fraction of day printed by julian_tool determines the fraction computed by
    from_julian to the last bit. *)
Lemma C107_tool_pf : forall tie tie' lm p (jd : b64) jd2 a b c r e, tool_julian tie (show_f64 tie') (lm := lm) p (Some jd) jd2 false = Val (a :: b :: c :: r, e) ->
  exists g f t, from_julian (A := b64A lm) p jd (opt jd2 (Flit 0 0)) = Val (Ok (g, f)) /\ c = "Fraction of day: " ++ t /\ reads_f64 t f /\ forall f', reads_f64 t f' -> f' = f.
Proof.
  intros tie tie' lm p jd jd2 a b c r e. unfold tool_julian. change (lit (b64A lm) 0 0) with (Flit 0 0).
  destruct (from_julian (A := b64A lm) p jd (opt jd2 (Flit 0 0))) as [[[g f]|err]|]; cbn [bind]; [| |discriminate].
  - intros H. exists g, f, (show_f64 tie' f). split; [reflexivity|]. split.
    + destruct (hms_from_fraction (A := b64A lm) f) as [h|err]; apply (f_equal (fun o => match o with Val (_ :: _ :: x :: _, _) => x | _ => "" end)) in H; cbv beta iota in H; symmetry; exact H.
    + split; [apply C107_reads_back_pf|]. intros f' R. pose proof (parse_f64_ok _ _ R) as X. rewrite (parse_f64_ok _ _ (C107_reads_back_pf tie' f)) in X. injection X as X. symmetry. exact X.
  - intros H. apply (f_equal (fun o => match o with Val (l, _) => length l | Panic => O end)) in H. discriminate H.
Qed.

(** The sum of the literals 0.1 and 0.2 takes 17 digits, the literal 1e23 is printed
    with one significant digit though the float is not 10^23. *)
Example C107_example_pf : forall tie,
  show_f64 tie (Fadd (Flit 1 (-1)) (Flit 2 (-1))) = "0.30000000000000004" /\ show_f64 tie (Flit 1 23) = "100000000000000000000000" /\
  show_f64 tie (Flit (-25) (-2)) = "-0.25" /\ show_f64 tie (Flit 9007199254740993 0) = "9007199254740992" /\
  show_f64 tie (Flit 1 (-7)) = "0.0000001" /\ show_f64 tie (Fdiv (Flit 2 0) (Flit 3 0)) = "0.6666666666666666".
Proof. intros tie. split; [vm_compute; reflexivity|]. split; [vm_compute; reflexivity|]. split; [vm_compute; reflexivity|]. split; [vm_compute; reflexivity|]. split; vm_compute; reflexivity. Qed.
