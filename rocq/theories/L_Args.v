(** * Lemmas on numbers in text and command lines *)

From Coq Require Import ZArith Ascii String Reals Lra Lia Bool List Permutation.
From Flocq Require Import Core BinarySingleNaN.
From Verif Require Import Outcome Arith ArithR ArithF Spec_Float Spec_Display Spec_Tools Spec_Args M_Tools M_Args.
From Verif Require Import L_ArithF L_FromJulianF L_Flit.
Import ListNotations.
Open Scope string_scope.
Open Scope Z_scope.

(** ** Digits *)

Lemma sapp_assoc : forall a b c : string, ((a ++ b) ++ c = a ++ b ++ c)%string.
Proof. induction a as [|x a IH]; intros b c; [reflexivity|]. cbn. rewrite IH. reflexivity. Qed.
Lemma sapp_nil : forall a : string, (a ++ "" = a)%string.
Proof. induction a as [|x a IH]; [reflexivity|]. cbn. rewrite IH. reflexivity. Qed.

Lemma digit_is : forall c, is_digit c -> digit_of c = Some (Z.of_nat (nat_of_ascii c) - 48).
Proof.
  intros c [H1 H2]. unfold digit_of. cbv zeta. rewrite (proj2 (Z.leb_le 48 _)), (proj2 (Z.leb_le _ 57)) by lia. reflexivity.
Qed.
Lemma digit_some : forall c d, digit_of c = Some d -> is_digit c /\ d = Z.of_nat (nat_of_ascii c) - 48.
Proof.
  intros c d. unfold digit_of. cbv zeta. destruct (48 <=? Z.of_nat (nat_of_ascii c)) eqn:E1; [|discriminate]. destruct (Z.of_nat (nat_of_ascii c) <=? 57) eqn:E2; [|discriminate].
  intros H. injection H as <-. apply Z.leb_le in E1, E2. split; [split; lia|reflexivity].
Qed.
Lemma digit_none : forall c, ~ is_digit c -> digit_of c = None.
Proof. intros c N. destruct (digit_of c) eqn:E; [|reflexivity]. exfalso. apply N. apply (digit_some c z E). Qed.
Lemma digit_dec : forall c, is_digit c \/ ~ is_digit c.
Proof. intros c. unfold is_digit. lia. Qed.

Lemma span_app : forall d acc k s, all_digits d -> span acc k (d ++ s) = span (read_from acc d) (String.length d + k) s.
Proof.
  induction d as [|c d IH]; intros acc k s H; [reflexivity|]. destruct H as [H1 H2]. cbn [append span read_from String.length].
  rewrite (digit_is c H1). rewrite (IH _ _ _ H2). f_equal. lia.
Qed.
Definition no_digit_first (s : string) : Prop := match s with EmptyString => True | String c _ => ~ is_digit c end.
Lemma span_stop : forall acc k s, no_digit_first s -> span acc k s = (acc, k, s).
Proof. intros acc k [|c s] H; [reflexivity|]. cbn [span]. rewrite (digit_none c H). reflexivity. Qed.

(** What [span] returns. *)
Lemma span_inv : forall s acc k n k' r, span acc k s = (n, k', r) ->
  exists d, s = (d ++ r)%string /\ all_digits d /\ n = read_from acc d /\ k' = (String.length d + k)%nat /\ no_digit_first r.
Proof.
  induction s as [|c s IH]; intros acc k n k' r H.
  - cbn in H. injection H as <- <- <-. exists "". repeat split.
  - cbn [span] in H. destruct (digit_of c) as [z|] eqn:E.
    + destruct (digit_some c z E) as [D ->]. destruct (IH _ _ _ _ _ H) as (d & -> & H1 & H2 & H3 & H4).
      exists (String c d). split; [reflexivity|]. split; [split; assumption|]. split; [exact H2|]. split; [cbn [String.length]; lia|exact H4].
    + injection H as <- <- <-. exists "". split; [reflexivity|]. split; [exact I|]. split; [reflexivity|]. split; [reflexivity|].
      cbn. intros D. rewrite (digit_is c D) in E. discriminate.
Qed.

Lemma len_pos : forall s, s <> "" -> exists k, String.length s = S k.
Proof. intros [|c s] H; [congruence|]. exists (String.length s). reflexivity. Qed.
Lemma digits1_ok : forall d, d <> "" -> all_digits d -> digits1 d = Some (read_digits d).
Proof.
  intros d N H. unfold digits1. pose proof (span_app d 0 0 "" H) as E. rewrite sapp_nil in E. rewrite E. cbn [span].
  destruct (len_pos d N) as [k ->]. reflexivity.
Qed.
Lemma digits1_inv : forall s n, digits1 s = Some n -> s <> "" /\ all_digits s /\ n = read_digits s.
Proof.
  intros s n. unfold digits1. destruct (span 0 0 s) as [[m k] r] eqn:E. destruct k as [|k]; [discriminate|]. destruct r; [|discriminate].
  intros H. injection H as <-. destruct (span_inv _ _ _ _ _ _ E) as (d & E1 & H1 & H2 & H3 & _). rewrite sapp_nil in E1. subst d.
  split; [|split; assumption]. intros ->. cbn in H3. discriminate H3.
Qed.

Lemma digit_not_sign : forall c, is_digit c -> Ascii.eqb c plus = false /\ Ascii.eqb c minus = false /\ Ascii.eqb c "."%char = false /\ c <> "i"%char /\ c <> "n"%char.
Proof.
  intros c H. assert (K : forall d, ~ is_digit d -> c <> d) by (intros d N ->; exact (N H)).
  assert (N1 : ~ is_digit plus /\ ~ is_digit minus /\ ~ is_digit "." /\ ~ is_digit "i" /\ ~ is_digit "n") by (unfold is_digit; cbn; lia).
  destruct N1 as (N1 & N2 & N3 & N4 & N5).
  split; [apply Ascii.eqb_neq, K, N1|]. split; [apply Ascii.eqb_neq, K, N2|]. split; [apply Ascii.eqb_neq, K, N3|]. split; apply K; assumption.
Qed.

(** ** Whole numbers *)

Lemma read_nonneg_from : forall d acc, all_digits d -> 0 <= acc -> 0 <= read_from acc d.
Proof. induction d as [|c d IH]; intros acc H A; [exact A|]. destruct H as [[H1 _] H2]. cbn [read_from]. apply IH; [exact H2|lia]. Qed.
Lemma read_nonneg : forall d, all_digits d -> 0 <= read_digits d.
Proof. intros d H. apply read_nonneg_from; [exact H|lia]. Qed.

Lemma parse_i32_ok : forall s n, reads_i32 s n -> parse_i32 s = Some n.
Proof.
  intros s n [(sg & d & -> & SG & N & D & ->) B]. unfold parse_i32. 
  assert (K : forall v, - 2 ^ 31 <= v < 2 ^ 31 -> (if (-2147483648 <=? v) && (v <=? 2147483647) then Some v else None) = Some v).
  { intros v V. rewrite (proj2 (Z.leb_le _ _)), (proj2 (Z.leb_le _ _)) by lia. reflexivity. }
  destruct SG as [->|[->| ->]].
  - destruct d as [|c d]; [congruence|]. pose proof (proj1 D) as C. destruct (digit_not_sign c C) as (C1 & C2 & _). cbn [append]. rewrite C1, C2.
    rewrite (digits1_ok _ N D). change (sign_factor "") with 1 in B |- *. rewrite Z.mul_1_l in *. apply K, B.
  - cbn [append]. change (Ascii.eqb "+" plus) with true. cbn match. rewrite (digits1_ok _ N D). change (sign_factor "+") with 1 in B |- *. rewrite Z.mul_1_l in *. apply K, B.
  - cbn [append]. change (Ascii.eqb "-" plus) with false. change (Ascii.eqb "-" minus) with true. cbn match. rewrite (digits1_ok _ N D). change (sign_factor "-") with (-1) in B |- *.
    cbn [option_map]. replace (- read_digits d) with (-1 * read_digits d) by ring. apply K, B.
Qed.
Lemma parse_i32_inv : forall s n, parse_i32 s = Some n -> reads_i32 s n.
Proof.
  intros s n. unfold parse_i32. cbv zeta. intros H.
  assert (K : exists v, (match s with String c s' => if Ascii.eqb c plus then digits1 s' else if Ascii.eqb c minus then option_map Z.opp (digits1 s') else digits1 s | EmptyString => None end) = Some v /\ v = n /\ -2147483648 <= v <= 2147483647).
  { match type of H with match ?m with _ => _ end = _ => destruct m as [v|]; [|discriminate H] end. exists v. split; [reflexivity|].
    destruct ((-2147483648 <=? v) && (v <=? 2147483647)) eqn:E; [|discriminate H]. apply andb_prop in E. destruct E as [E1 E2]. apply Z.leb_le in E1, E2. injection H as ->. lia. }
  destruct K as (v & E & -> & B). split; [|lia]. destruct s as [|c s]; [discriminate E|].
  destruct (Ascii.eqb c plus) eqn:C1; [apply Ascii.eqb_eq in C1; subst c|destruct (Ascii.eqb c minus) eqn:C2; [apply Ascii.eqb_eq in C2; subst c|]].
  - destruct (digits1_inv _ _ E) as (N & D & ->). exists "+", s. change (sign_factor "+") with 1. rewrite Z.mul_1_l. split; [reflexivity|]. split; [auto|]. split; [exact N|]. split; [exact D|]. reflexivity.
  - destruct (digits1 s) as [m|] eqn:F; [|discriminate E]. injection E as <-. destruct (digits1_inv _ _ F) as (N & D & ->). exists "-", s. change (sign_factor "-") with (-1).
    split; [reflexivity|]. split; [auto|]. split; [exact N|]. split; [exact D|]. ring.
  - destruct (digits1_inv _ _ E) as (N & D & ->). exists "", (String c s). change (sign_factor "") with 1. rewrite Z.mul_1_l. split; [reflexivity|]. split; [auto|]. split; [exact N|]. split; [exact D|]. reflexivity.
Qed.

Lemma parse_u8_ok : forall s n, reads_u8 s n -> parse_u8 s = Some n.
Proof.
  intros s n [(sg & d & -> & SG & N & D & ->) B]. unfold parse_u8.
  assert (K : forall v, v < 2 ^ 8 -> (if v <=? 255 then Some v else None) = Some v).
  { intros v V. rewrite (proj2 (Z.leb_le _ _)) by lia. reflexivity. }
  destruct SG as [->| ->].
  - destruct d as [|c d]; [congruence|]. pose proof (proj1 D) as C. destruct (digit_not_sign c C) as (C1 & C2 & _). cbn [append]. rewrite C1.
    rewrite (digits1_ok _ N D). apply K, B.
  - cbn [append]. change (Ascii.eqb "+" plus) with true. cbn match. rewrite (digits1_ok _ N D). apply K, B.
Qed.
Lemma parse_u8_inv : forall s n, parse_u8 s = Some n -> reads_u8 s n.
Proof.
  intros s n. unfold parse_u8. cbv zeta. intros H.
  assert (K : exists v, (match s with String c s' => if Ascii.eqb c plus then digits1 s' else digits1 s | EmptyString => None end) = Some v /\ v = n /\ v <= 255).
  { match type of H with match ?m with _ => _ end = _ => destruct m as [v|]; [|discriminate H] end. exists v. split; [reflexivity|].
    destruct (v <=? 255) eqn:E; [|discriminate H]. apply Z.leb_le in E. injection H as ->. lia. }
  destruct K as (v & E & -> & B). split; [|lia]. destruct s as [|c s]; [discriminate E|].
  destruct (Ascii.eqb c plus) eqn:C1; [apply Ascii.eqb_eq in C1; subst c|].
  - destruct (digits1_inv _ _ E) as (N & D & ->). exists "+", s. repeat split; auto.
  - destruct (digits1_inv _ _ E) as (N & D & ->). exists "", (String c s). split; [reflexivity|]. auto.
Qed.

(** ** Floats *)

Lemma ten_to_neg : forall p, ten_to (Zneg p) = (/ IZR (Z.pow_pos 10 p))%R.
Proof. reflexivity. Qed.
Lemma ten_to_nonneg : forall e, 0 <= e -> ten_to e = IZR (10 ^ e).
Proof. intros [|p|p] H; try reflexivity. lia. Qed.

(** A literal is the nearest binary64 number, or an infinity. *)
Lemma Flit_nearest : forall n e, 0 <= n -> nearest_to false n e (Flit n e).
Proof.
  intros n e N. unfold nearest_to. cbv zeta. rewrite Rmult_1_l. 
  destruct (Z_lt_le_dec e 0) as [E|E].
  - destruct e as [|p|p]; try lia. rewrite ten_to_neg. cbn [Flit].
    assert (Q : Zpos (Pos.pow 10 p) = Z.pow_pos 10 p) by (rewrite Pos2Z.inj_pow; reflexivity). rewrite <- Q. set (d := Pos.pow 10 p). clearbody d. clear p Q E.
    destruct n as [|m|m]; [| |lia].
    + cbn [Fquot Bsign]. split; [reflexivity|]. left. rewrite Rmult_0_l, round_0 by apply valid_rnd_N. rewrite Rabs_R0. split; [apply bpow_gt_0|]. split; reflexivity.
    + cbn [Fquot]. pose proof (proj2 (Bdiv_correct_aux 53 1024 _ _ mode_NE false m 0 false d 0)) as C. cbv zeta in C.
      rewrite !F2R_0e in C. change (cond_Zopp false (Zpos d)) with (Zpos d) in C. change (cond_Zopp false (Zpos m)) with (Zpos m) in C.
      change (round_mode mode_NE) with ZnearestE in C. change (SpecFloat.fexp 53 1024) with fx in C. change (IZR (Zpos m) / IZR (Zpos d))%R with (IZR (Zpos m) * / IZR (Zpos d))%R in C.
      rewrite Bsign_SF2B, B2R_SF2B, is_finite_SF2B.
      destruct (Rlt_bool_spec (Rabs (rnd (IZR (Zpos m) * / IZR (Zpos d)))) (bpow radix2 1024)) as [L|L].
      * destruct C as (C1 & C2 & C3). split; [exact C3|]. left. split; [exact L|]. split; [exact C2|exact C1].
      * assert (S : SF2B _ (proj1 (Bdiv_correct_aux 53 1024 _ _ mode_NE false m 0 false d 0)) = B754_infinity false) by (apply B2SF_inj; rewrite B2SF_SF2B; exact C).
        split; [rewrite C; reflexivity|]. right. split; [exact L|exact S].
  - rewrite ten_to_nonneg by exact E. replace (Flit n e) with (FofZ (n * 10 ^ e)) by (destruct e; [reflexivity|reflexivity|lia]). rewrite <- mult_IZR. 
    assert (M : 0 <= n * 10 ^ e) by (apply Z.mul_nonneg_nonneg; [exact N|apply Z.pow_nonneg; lia]). set (m := n * 10 ^ e) in *. clearbody m. clear n e N E.
    unfold FofZ, Fof. pose proof (binary_normalize_correct 53 1024 _ _ mode_NE m 0 false) as C. cbv zeta in C. rewrite F2R_0e in C.
    change (round_mode mode_NE) with ZnearestE in C. change (SpecFloat.fexp 53 1024) with fx in C.
    destruct (Rlt_bool_spec (Rabs (rnd (IZR m))) (bpow radix2 1024)) as [L|L].
    + destruct C as (C1 & C2 & C3). split; [|left; auto]. rewrite C3. destruct (Rcompare_spec (IZR m) 0) as [K|K|K]; try reflexivity. apply lt_IZR in K. lia.
    + assert (F : binary_normalize 53 1024 _ _ mode_NE m 0 false = B754_infinity false).
      { apply B2SF_inj. rewrite C. rewrite Rlt_bool_false by (apply IZR_le; lia). reflexivity. }
      rewrite F. split; [reflexivity|]. right. auto.
Qed.

Lemma nearest_opp : forall n e x, nearest_to false n e x -> nearest_to true n e (Bopp x).
Proof.
  intros n e x. unfold nearest_to. cbv zeta. replace (-1 * IZR n * ten_to e)%R with (- (1 * IZR n * ten_to e))%R by ring. rewrite round_NE_opp, Rabs_Ropp.
  set (v := rnd (1 * IZR n * ten_to e)). clearbody v. intros [S [(L & F & B)|(L & ->)]].
  - split; [rewrite Bsign_Bopp by (destruct x; [reflexivity|discriminate F|discriminate F|reflexivity]); rewrite S; reflexivity|]. left.
    split; [exact L|]. split; [rewrite is_finite_Bopp; exact F|rewrite B2R_Bopp, B; reflexivity].
  - split; [reflexivity|]. right. split; [exact L|reflexivity].
Qed.
Lemma nearest_unique : forall neg n e x y, nearest_to neg n e x -> nearest_to neg n e y -> x = y.
Proof.
  intros neg n e x y. unfold nearest_to. cbv zeta. set (v := rnd _). clearbody v. intros [S1 H1] [S2 H2].
  destruct H1 as [(L1 & F1 & B1)|(L1 & E1)]; destruct H2 as [(L2 & F2 & B2)|(L2 & E2)]; try lra.
  - apply B2R_Bsign_inj; congruence.
  - congruence.
Qed.

Lemma read_from_app : forall a b acc, read_from acc (a ++ b) = read_from (read_from acc a) b.
Proof. induction a as [|c a IH]; intros b acc; [reflexivity|]. cbn [append read_from]. apply IH. Qed.
Lemma all_digits_app : forall a b, all_digits a -> all_digits b -> all_digits (a ++ b).
Proof. induction a as [|c a IH]; intros b A B; [exact B|]. destruct A as [A1 A2]. split; [exact A1|apply IH; assumption]. Qed.
Lemma length_app : forall a b : string, String.length (a ++ b) = (String.length a + String.length b)%nat.
Proof. induction a as [|c a IH]; intros b; [reflexivity|]. cbn [append String.length]. rewrite IH. reflexivity. Qed.

Lemma parse_int_digits : forall y k, writes_int y k ->
  match y with String d t => if Ascii.eqb d plus then digits1 t else if Ascii.eqb d minus then option_map Z.opp (digits1 t) else digits1 y | EmptyString => None end = Some k.
Proof.
  intros y k (sg & d & -> & SG & N & D & ->). destruct SG as [->|[->| ->]].
  - destruct d as [|c d]; [congruence|]. pose proof (proj1 D) as C. destruct (digit_not_sign c C) as (C1 & C2 & _). cbn [append]. rewrite C1, C2.
    rewrite (digits1_ok _ N D). change (sign_factor "") with 1. rewrite Z.mul_1_l. reflexivity.
  - cbn [append]. change (Ascii.eqb "+" plus) with true. cbn match. rewrite (digits1_ok _ N D). change (sign_factor "+") with 1. rewrite Z.mul_1_l. reflexivity.
  - cbn [append]. change (Ascii.eqb "-" plus) with false. change (Ascii.eqb "-" minus) with true. cbn match. rewrite (digits1_ok _ N D). change (sign_factor "-") with (-1).
    cbn [option_map]. reflexivity.
Qed.
Lemma int_digits_inv : forall y k,
  match y with String d t => if Ascii.eqb d plus then digits1 t else if Ascii.eqb d minus then option_map Z.opp (digits1 t) else digits1 y | EmptyString => None end = Some k -> writes_int y k.
Proof.
  intros [|c s] k E; [discriminate E|].
  destruct (Ascii.eqb c plus) eqn:C1; [apply Ascii.eqb_eq in C1; subst c|destruct (Ascii.eqb c minus) eqn:C2; [apply Ascii.eqb_eq in C2; subst c|]].
  - destruct (digits1_inv _ _ E) as (N & D & ->). exists "+", s. change (sign_factor "+") with 1. rewrite Z.mul_1_l. split; [reflexivity|]. split; [auto|]. split; [exact N|]. split; [exact D|]. reflexivity.
  - destruct (digits1 s) as [m|] eqn:F; [|discriminate E]. injection E as <-. destruct (digits1_inv _ _ F) as (N & D & ->). exists "-", s. change (sign_factor "-") with (-1).
    split; [reflexivity|]. split; [auto|]. split; [exact N|]. split; [exact D|]. ring.
  - destruct (digits1_inv _ _ E) as (N & D & ->). exists "", (String c s). change (sign_factor "") with 1. rewrite Z.mul_1_l. split; [reflexivity|]. split; [auto|]. split; [exact N|]. split; [exact D|]. reflexivity.
Qed.

Definition writes_exponent (x : string) (k : Z) : Prop := x = "" /\ k = 0 \/ exists c y, x = c ++ y /\ (c = "e" \/ c = "E") /\ writes_int y k.
Lemma parse_exponent_ok : forall x k, writes_exponent x k -> parse_exponent x = Some k.
Proof.
  intros x k [[-> ->]|(c & y & -> & C & W)]; [reflexivity|]. pose proof (parse_int_digits y k W) as E. destruct C as [-> | ->]; cbn [append parse_exponent]; exact E.
Qed.
Lemma parse_exponent_inv : forall x k, parse_exponent x = Some k -> writes_exponent x k.
Proof.
  intros [|c y] k; cbn [parse_exponent]; intros H; [left; split; congruence|right].
  destruct (Ascii.eqb c "e") eqn:C1; [apply Ascii.eqb_eq in C1; subst c; cbn [orb] in H; exists "e", y; split; [reflexivity|]; split; [auto|]; apply int_digits_inv, H|].
  destruct (Ascii.eqb c "E") eqn:C2; [apply Ascii.eqb_eq in C2; subst c; cbn [orb] in H; exists "E", y; split; [reflexivity|]; split; [auto|]; apply int_digits_inv, H|].
  discriminate H.
Qed.

(** The part of a decimal after its sign. *)
Definition writes_unsigned (u : string) (n e : Z) : Prop :=
  exists i pt f x k, u = i ++ pt ++ f ++ x /\ all_digits i /\ all_digits f /\ (pt = "" /\ f = "" \/ pt = ".") /\ i ++ f <> "" /\ n = read_digits (i ++ f) /\
    writes_exponent x k /\ e = k - Z.of_nat (String.length f).

Definition lead (c : ascii) : Prop := is_digit c \/ c = "."%char.
Lemma lower_lead : forall c, lead c -> lower c = c /\ c <> "i"%char /\ c <> "n"%char /\ Ascii.eqb c plus = false /\ Ascii.eqb c minus = false.
Proof.
  intros c [D|D]; [|subst c; vm_compute; repeat split; discriminate].
  destruct (digit_not_sign c D) as (A1 & A2 & _ & A3 & A4). split; [|auto]. unfold lower. cbv zeta. destruct D as [D1 D2].
  rewrite (proj2 (Nat.leb_gt 65 _)) by lia. reflexivity.
Qed.
Lemma unsigned_lead : forall u n e, writes_unsigned u n e -> exists c t, u = String c t /\ lead c.
Proof.
  intros u n e (i & pt & f & x & k & -> & I & F & P & N & _). destruct i as [|c i].
  - destruct P as [[-> ->]| ->]; [cbn in N; congruence|]. cbn [append]. exists "."%char, (f ++ x). split; [reflexivity|right; reflexivity].
  - exists c, (i ++ pt ++ f ++ x). split; [reflexivity|left; exact (proj1 I)].
Qed.
Lemma no_word : forall u n e w c s, writes_unsigned u n e -> w = String c s -> c = "i"%char \/ c = "n"%char -> String.eqb (lower_case u) w = false.
Proof.
  intros u n e w c s W -> C. destruct (unsigned_lead _ _ _ W) as (d & t & -> & L). destruct (lower_lead d L) as (E & N1 & N2 & _). cbn [lower_case]. rewrite E.
  apply String.eqb_neq. intros K. injection K as K _. subst d. destruct C; congruence.
Qed.
Lemma exponent_no_digit : forall x k, writes_exponent x k -> no_digit_first x /\ (forall c r, x = String c r -> Ascii.eqb c "." = false).
Proof.
  intros x k [[-> _]|(c & y & -> & [-> | ->] & _)]; [split; [exact I|intros c r H; discriminate H]| |].
  - split; [cbn; unfold is_digit; cbn; lia|]. intros c r H. cbn [append] in H. injection H as <- _. reflexivity.
  - split; [cbn; unfold is_digit; cbn; lia|]. intros c r H. cbn [append] in H. injection H as <- _. reflexivity.
Qed.

Lemma parse_unsigned_ok : forall u n e, writes_unsigned u n e -> parse_unsigned u = Some (Flit n e).
Proof.
  intros u n e W. unfold parse_unsigned. cbv zeta.
  rewrite (no_word u n e "inf" _ _ W eq_refl (or_introl eq_refl)), (no_word u n e "infinity" _ _ W eq_refl (or_introl eq_refl)), (no_word u n e "nan" _ _ W eq_refl (or_intror eq_refl)). cbn [orb].
  destruct W as (i & pt & f & x & k & -> & I & F & P & N & -> & X & ->). rewrite (span_app i 0 0 (pt ++ f ++ x) I). rewrite Nat.add_0_r. fold (read_digits i).
  destruct (exponent_no_digit x k X) as [X1 X2].
  destruct P as [[-> ->]| ->].
  - cbn [append]. rewrite (span_stop _ _ x X1). rewrite sapp_nil in *.
    assert (M : (match x with String c r' => if Ascii.eqb c "." then span (read_digits i) (String.length i) r' else (read_digits i, String.length i, x) | EmptyString => (read_digits i, String.length i, x) end) = (read_digits i, String.length i, x)).
    { destruct x as [|c r]; [reflexivity|]. rewrite (X2 c r eq_refl). reflexivity. }
    rewrite M. destruct (len_pos i N) as [j J]. rewrite J, (parse_exponent_ok x k X). rewrite Nat.sub_diag. reflexivity.
  - cbn [append]. rewrite (span_stop _ _ (String "." (f ++ x))) by (cbn; unfold is_digit; cbn; lia). cbn match. change (Ascii.eqb "." ".") with true. cbn match.
    rewrite (span_app f _ _ x F), (span_stop _ _ x X1). pose proof (len_pos _ N) as [j J]. rewrite length_app in J.
    rewrite (Nat.add_comm (String.length f)), J, (parse_exponent_ok x k X). f_equal. unfold read_digits. rewrite read_from_app. f_equal. lia.
Qed.

Lemma lower_letters : forall s t, lower_case s = t -> same_letters s t.
Proof.
  induction s as [|c s IH]; intros t <-; [exact I|]. cbn [lower_case same_letters]. split; [|apply IH; reflexivity].
  unfold lower. cbv zeta. destruct ((65 <=? nat_of_ascii c)%nat && (nat_of_ascii c <=? 90)%nat) eqn:E; [right|left; reflexivity].
  apply andb_prop in E. destruct E as [E1 E2]. apply Nat.leb_le in E1, E2. rewrite nat_ascii_embedding by lia. reflexivity.
Qed.
Fixpoint small_letters (s : string) : Prop := match s with EmptyString => True | String c s' => (97 <= nat_of_ascii c <= 122)%nat /\ small_letters s' end.
Lemma letters_lower : forall s t, small_letters t -> same_letters s t -> lower_case s = t.
Proof.
  induction s as [|c s IH]; intros [|d t] L H; try contradiction; [reflexivity|]. destruct L as [L1 L2]. destruct H as [H1 H2]. cbn [lower_case]. rewrite (IH t L2 H2). f_equal.
  unfold lower. cbv zeta. destruct H1 as [H1|H1].
  - rewrite (proj2 (Nat.leb_gt _ 90)) by lia. rewrite andb_false_r. rewrite <- (ascii_nat_embedding c), <- (ascii_nat_embedding d), H1. reflexivity.
  - rewrite (proj2 (Nat.leb_le 65 _)), (proj2 (Nat.leb_le _ 90)) by lia. cbn [andb]. rewrite H1. apply ascii_nat_embedding.
Qed.

Lemma parse_unsigned_inv : forall u x, parse_unsigned u = Some x ->
  (exists n e, writes_unsigned u n e /\ x = Flit n e) \/ ((same_letters u "inf" \/ same_letters u "infinity") /\ x = B754_infinity false) \/ (same_letters u "nan" /\ x = B754_nan).
Proof.
  intros u x. unfold parse_unsigned. cbv zeta. 
  destruct (String.eqb (lower_case u) "inf") eqn:W1; [apply String.eqb_eq in W1; cbn [orb]; intros H; injection H as <-; right; left; split; [left; apply lower_letters, W1|reflexivity]|].
  destruct (String.eqb (lower_case u) "infinity") eqn:W2; [apply String.eqb_eq in W2; cbn [orb]; intros H; injection H as <-; right; left; split; [right; apply lower_letters, W2|reflexivity]|].
  cbn [orb]. destruct (String.eqb (lower_case u) "nan") eqn:W3; [apply String.eqb_eq in W3; intros H; injection H as <-; right; right; split; [apply lower_letters, W3|reflexivity]|].
  intros H. left. destruct (span 0 0 u) as [[n k] r] eqn:S1. destruct (span_inv _ _ _ _ _ _ S1) as (i & -> & I & -> & K & R). rewrite Nat.add_0_r in K. subst k. clear S1 W1 W2 W3. 
  assert (P : (exists r', r = String "." r') \/ (match r with String c r' => if Ascii.eqb c "." then span (read_from 0 i) (String.length i) r' else (read_from 0 i, String.length i, r) | EmptyString => (read_from 0 i, String.length i, r) end) = (read_from 0 i, String.length i, r)).
  { destruct r as [|c r]; [right; reflexivity|]. destruct (Ascii.eqb c ".") eqn:C; [apply Ascii.eqb_eq in C; subst c; left; exists r; reflexivity|right; reflexivity]. }
  destruct P as [[r' ->]|P].
  - change (Ascii.eqb "." ".") with true in H. cbn match in H. destruct (span (read_from 0 i) (String.length i) r') as [[n k] q] eqn:S2.
    destruct (span_inv _ _ _ _ _ _ S2) as (f & -> & F & -> & -> & Q). destruct (String.length f + String.length i)%nat as [|j] eqn:J; [discriminate H|].
    destruct (parse_exponent q) as [k|] eqn:X; [|discriminate H]. injection H as <-. exists (read_digits (i ++ f)), (k - Z.of_nat (String.length f)). split.
    + exists i, ".", f, q, k. split; [reflexivity|]. split; [exact I|]. split; [exact F|]. split; [right; reflexivity|].
      split; [intros E; apply (f_equal String.length) in E; rewrite length_app in E; cbn in E; lia|]. split; [reflexivity|]. split; [apply parse_exponent_inv, X|reflexivity].
    + unfold read_digits. rewrite read_from_app. f_equal. destruct (String.length i); lia.
  - rewrite P in H. destruct (String.length i) as [|j] eqn:J; [discriminate H|]. destruct (parse_exponent r) as [k|] eqn:X; [|discriminate H]. injection H as <-.
    exists (read_digits i), k. split.
    + exists i, "", "", r, k. rewrite sapp_nil. split; [reflexivity|]. split; [exact I|]. split; [exact Logic.I|]. split; [left; split; reflexivity|].
      split; [intros ->; discriminate J|]. split; [reflexivity|]. split; [apply parse_exponent_inv, X|]. cbn. lia.
    + unfold read_digits. f_equal. rewrite Nat.sub_diag. cbn. lia.
Qed.

Lemma unsigned_nonneg : forall u n e, writes_unsigned u n e -> 0 <= n.
Proof. intros u n e (i & pt & f & x & k & _ & I & F & _ & _ & -> & _). apply read_nonneg, all_digits_app; assumption. Qed.

Lemma decimal_unsigned : forall s neg n e, writes_decimal s neg n e ->
  exists sg u, s = sg ++ u /\ (sg = "" \/ sg = "+" \/ sg = "-") /\ neg = String.eqb sg "-" /\ writes_unsigned u n e.
Proof.
  intros s neg n e (sg & i & pt & f & x & k & -> & SG & -> & I & F & P & N & -> & X & ->). exists sg, (i ++ pt ++ f ++ x). split; [reflexivity|]. split; [exact SG|]. split; [reflexivity|].
  exists i, pt, f, x, k. split; [reflexivity|]. split; [exact I|]. split; [exact F|]. split; [exact P|]. split; [exact N|]. split; [reflexivity|]. split; [exact X|reflexivity].
Qed.
Lemma unsigned_decimal : forall sg u n e, (sg = "" \/ sg = "+" \/ sg = "-") -> writes_unsigned u n e -> writes_decimal (sg ++ u) (String.eqb sg "-") n e.
Proof.
  intros sg u n e SG (i & pt & f & x & k & -> & I & F & P & N & -> & X & ->). exists sg, i, pt, f, x, k.
  split; [reflexivity|]. split; [exact SG|]. split; [reflexivity|]. split; [exact I|]. split; [exact F|]. split; [exact P|]. split; [exact N|]. split; [reflexivity|]. split; [exact X|reflexivity].
Qed.

(** Reading a text and [f64::from_str] are the same. *)
Lemma parse_signed : forall sg u o, (sg = "" \/ sg = "+" \/ sg = "-") -> parse_unsigned u = Some o -> (exists c t, u = String c t /\ Ascii.eqb c plus = false /\ Ascii.eqb c minus = false) ->
  parse_f64 (sg ++ u) = Some (if String.eqb sg "-" then Bopp o else o).
Proof.
  intros sg u o [->|[->| ->]] P (c & t & U & C1 & C2).
  - cbn [append]. subst u. unfold parse_f64. rewrite C1, C2. exact P.
  - cbn [append]. unfold parse_f64. change (Ascii.eqb "+" plus) with true. cbn match. exact P.
  - cbn [append]. unfold parse_f64. change (Ascii.eqb "-" plus) with false. change (Ascii.eqb "-" minus) with true. cbn match. rewrite P. reflexivity.
Qed.
Lemma parse_f64_ok : forall s x, reads_f64 s x -> parse_f64 s = Some x.
Proof.
  intros s x [(neg & n & e & W & NR)|[(sg & t & -> & SG & L & ->)|(sg & t & -> & SG & L & ->)]].
  - destruct (decimal_unsigned _ _ _ _ W) as (sg & u & -> & SG & -> & U). rewrite (parse_signed sg u _ SG (parse_unsigned_ok _ _ _ U)).
    + f_equal. apply (nearest_unique (String.eqb sg "-") n e); [|exact NR]. pose proof (Flit_nearest n e (unsigned_nonneg _ _ _ U)) as K.
      destruct (String.eqb sg "-"); [apply nearest_opp, K|exact K].
    + destruct (unsigned_lead _ _ _ U) as (c & q & -> & LE). destruct (lower_lead c LE) as (_ & _ & _ & A & B). eauto.
  - assert (LO : lower_case t = "inf" \/ lower_case t = "infinity") by (destruct L as [L|L]; [left|right]; apply letters_lower; try exact L; cbn; lia).
    rewrite (parse_signed sg t (B754_infinity false) SG).
    + destruct SG as [->|[->| ->]]; reflexivity.
    + unfold parse_unsigned. cbv zeta. destruct LO as [-> | ->]; reflexivity.
    + destruct t as [|c t]; [destruct L as [L|L]; contradiction|]. exists c, t. split; [reflexivity|]. 
      assert (N : c <> plus /\ c <> minus) by (split; intros ->; destruct L as [[L _]|[L _]]; cbn in L; lia). split; apply Ascii.eqb_neq; apply N.
  - assert (LO : lower_case t = "nan") by (apply letters_lower; try exact L; cbn; lia).
    rewrite (parse_signed sg t B754_nan SG).
    + destruct SG as [->|[->| ->]]; reflexivity.
    + unfold parse_unsigned. cbv zeta. rewrite LO. reflexivity.
    + destruct t as [|c t]; [contradiction|]. exists c, t. split; [reflexivity|]. 
      assert (N : c <> plus /\ c <> minus) by (split; intros ->; destruct L as [L _]; cbn in L; lia). split; apply Ascii.eqb_neq; apply N.
Qed.
Lemma reads_unsigned : forall sg u x, (sg = "" \/ sg = "+" \/ sg = "-") -> parse_unsigned u = Some x -> reads_f64 (sg ++ u) (if String.eqb sg "-" then Bopp x else x).
Proof.
  intros sg u x SG P. destruct (parse_unsigned_inv u x P) as [(n & e & W & ->)|[(L & ->)|(L & ->)]].
  - left. exists (String.eqb sg "-"), n, e. split; [apply unsigned_decimal; assumption|]. pose proof (Flit_nearest n e (unsigned_nonneg _ _ _ W)) as K.
    destruct (String.eqb sg "-"); [apply nearest_opp, K|exact K].
  - right. left. exists sg, u. split; [reflexivity|]. split; [exact SG|]. split; [exact L|]. destruct SG as [->|[->| ->]]; reflexivity.
  - right. right. exists sg, u. split; [reflexivity|]. split; [exact SG|]. split; [exact L|]. destruct SG as [->|[->| ->]]; reflexivity.
Qed.
Lemma parse_f64_inv : forall s x, parse_f64 s = Some x -> reads_f64 s x.
Proof.
  intros [|c s] x H; [discriminate H|]. unfold parse_f64 in H.
  destruct (Ascii.eqb c plus) eqn:C1; [apply Ascii.eqb_eq in C1; subst c; exact (reads_unsigned "+" s x ltac:(auto) H)|].
  destruct (Ascii.eqb c minus) eqn:C2; [apply Ascii.eqb_eq in C2; subst c|].
  - destruct (parse_unsigned s) as [y|] eqn:P; [|discriminate H]. cbn [option_map] in H. injection H as <-. exact (reads_unsigned "-" s y ltac:(auto) P).
  - exact (reads_unsigned "" (String c s) x ltac:(auto) H).
Qed.
