(** * Lemmas on the formatting of numbers *)

From Coq Require Import ZArith Ascii String List Bool Lia.
From Verif Require Import M_Display Spec_Display.
Open Scope string_scope.
Open Scope Z_scope.

Lemma app_nil : forall s : string, s ++ "" = s.
Proof. induction s as [|c s IH]; cbn; [reflexivity|rewrite IH; reflexivity]. Qed.
Lemma app_assoc : forall a b c : string, (a ++ b) ++ c = a ++ b ++ c.
Proof. induction a as [|x a IH]; intros b c; cbn; [reflexivity|rewrite IH; reflexivity]. Qed.
Lemma app_length : forall a b : string, String.length (a ++ b) = (String.length a + String.length b)%nat.
Proof. induction a as [|x a IH]; intros b; cbn; [reflexivity|rewrite IH; reflexivity]. Qed.
Lemma app_cons : forall c (a b : string), String c a ++ b = String c (a ++ b).
Proof. reflexivity. Qed.

Lemma all_digits_app : forall a b, all_digits (a ++ b) <-> all_digits a /\ all_digits b.
Proof. induction a as [|x a IH]; intros b; cbn [append all_digits]; [tauto|]. rewrite IH. tauto. Qed.

Lemma read_from_app : forall a b acc, read_from acc (a ++ b) = read_from (read_from acc a) b.
Proof. induction a as [|x a IH]; intros b acc; cbn [append read_from]; [reflexivity|apply IH]. Qed.

Lemma digit_nat : forall d, 0 <= d < 10 -> nat_of_ascii (digit d) = (48 + Z.to_nat d)%nat.
Proof. intros d H. unfold digit. apply nat_ascii_embedding. lia. Qed.

Lemma digit_is : forall d, 0 <= d < 10 -> is_digit (digit d).
Proof. intros d H. unfold is_digit. rewrite digit_nat by exact H. lia. Qed.

Lemma digit_read : forall d acc, 0 <= d < 10 -> read_from acc (String (digit d) "") = 10 * acc + d.
Proof. intros d acc H. cbn [read_from]. rewrite digit_nat by exact H. lia. Qed.

Lemma dec_fuel_ok : forall f n, 0 <= n < 2 ^ Z.of_nat f -> f <> O ->
  all_digits (dec_fuel f n) /\ read_digits (dec_fuel f n) = n /\
  (forall k, (1 <= k)%nat -> ((String.length (dec_fuel f n) <= k)%nat <-> n < 10 ^ Z.of_nat k)).
Proof.
  induction f as [|f IH]; intros n H Hf; [lia|]. cbn [dec_fuel]. destruct (Z.ltb_spec n 10) as [L|L].
  - split; [|split].
    + cbn [all_digits]. split; [apply digit_is; lia|exact I].
    + unfold read_digits. rewrite digit_read by lia. lia.
    + intros k Hk. cbn [String.length]. split; intros _; [|exact Hk].
      apply Z.lt_le_trans with (10 ^ 1); [lia|]. apply Z.pow_le_mono_r; lia.
  - assert (F : f <> O). { intros ->. cbn in H. lia. }
    assert (D : 0 <= n / 10 < 2 ^ Z.of_nat f).
    { split; [apply Z.div_pos; lia|]. apply Z.div_lt_upper_bound; [lia|].
      rewrite Nat2Z.inj_succ, Z.pow_succ_r in H by lia. lia. }
    destruct (IH (n / 10) D F) as (H1 & H2 & H3). pose proof (Z.mod_pos_bound n 10 ltac:(lia)) as M.
    pose proof (Z.div_mod n 10 ltac:(lia)) as DM.
    split; [|split].
    + apply all_digits_app. split; [exact H1|]. split; [apply digit_is; lia|exact I].
    + unfold read_digits in *. rewrite read_from_app, H2, digit_read by lia. lia.
    + intros k Hk. rewrite app_length. cbn [String.length].
      assert (P : (2 <= String.length (dec_fuel f (n / 10)) + 1)%nat).
      { destruct f as [|f']; [lia|]. cbn [dec_fuel]. destruct (n / 10 <? 10); [cbn; lia|rewrite app_length; cbn [String.length]; lia]. }
      destruct k as [|[|k]]; [lia| |].
      * change (10 ^ Z.of_nat 1) with 10. lia.
      * specialize (H3 (S k) ltac:(lia)). rewrite (Nat2Z.inj_succ (S k)), Z.pow_succ_r by lia.
        set (P10 := 10 ^ Z.of_nat (S k)) in *.
        split; intros K.
        -- assert (n / 10 < P10) by (apply H3; lia). lia.
        -- assert (n / 10 < P10) by (apply Z.div_lt_upper_bound; lia). apply H3 in H0. lia.
Qed.

Lemma to_dec_ok : forall n, 0 <= n ->
  all_digits (to_dec n) /\ read_digits (to_dec n) = n /\
  (forall k, (1 <= k)%nat -> ((String.length (to_dec n) <= k)%nat <-> n < 10 ^ Z.of_nat k)).
Proof.
  intros n H. unfold to_dec. apply dec_fuel_ok; [|lia]. split; [exact H|].
  rewrite Nat2Z.inj_succ, Z2Nat.id by apply Z.log2_nonneg.
  destruct (Z.eq_dec n 0) as [->|N]; [cbn; lia|]. apply Z.log2_spec. lia.
Qed.

Lemma to_dec_nonempty : forall n, 0 <= n -> (1 <= String.length (to_dec n))%nat.
Proof.
  intros n H. unfold to_dec. cbn [dec_fuel]. destruct (n <? 10); [cbn; lia|]. rewrite app_length. cbn [String.length]. lia.
Qed.

Lemma fill_length : forall c n, String.length (fill c n) = n.
Proof. induction n as [|n IH]; cbn; [reflexivity|rewrite IH; reflexivity]. Qed.
Lemma fill0_read : forall n, read_digits (fill "0" n) = 0.
Proof. unfold read_digits. induction n as [|n IH]; cbn [fill read_from]; [reflexivity|]. exact IH. Qed.
Lemma fill0_digits : forall n, all_digits (fill "0" n).
Proof. induction n as [|n IH]; cbn [fill all_digits]; [exact I|]. split; [unfold is_digit; cbn; lia|exact IH]. Qed.

Lemma lpad_length : forall c w s, String.length (lpad c w s) = Nat.max w (String.length s).
Proof. intros c w s. unfold lpad. rewrite app_length, fill_length. lia. Qed.
Lemma lpad0_read : forall w s, read_digits (lpad "0" w s) = read_digits s.
Proof.
  intros w s. unfold lpad, read_digits. rewrite read_from_app. f_equal. apply fill0_read.
Qed.
Lemma lpad0_digits : forall w s, all_digits s -> all_digits (lpad "0" w s).
Proof. intros w s H. unfold lpad. apply all_digits_app. split; [apply fill0_digits|exact H]. Qed.

Lemma lpad_field : forall k n, (1 <= k)%nat -> 0 <= n < 10 ^ Z.of_nat k -> field k n (lpad "0" k (to_dec n)).
Proof.
  intros k n Hk Hn. destruct (to_dec_ok n ltac:(lia)) as (H1 & H2 & H3).
  split; [rewrite lpad_length; apply H3 in Hk; lia|]. split; [apply lpad0_digits, H1|]. rewrite lpad0_read. exact H2.
Qed.

(** ** Order of fields *)

Lemma read_from_bound : forall s acc, all_digits s ->
  acc * 10 ^ Z.of_nat (String.length s) <= read_from acc s < (acc + 1) * 10 ^ Z.of_nat (String.length s).
Proof.
  induction s as [|c s IH]; intros acc H; cbn [String.length read_from].
  - change (10 ^ Z.of_nat 0) with 1. lia.
  - destruct H as [Hc Hs]. unfold is_digit in Hc. specialize (IH (10 * acc + (Z.of_nat (nat_of_ascii c) - 48)) Hs).
    rewrite Nat2Z.inj_succ, Z.pow_succ_r by lia. 
    assert (P : 0 < 10 ^ Z.of_nat (String.length s)) by (apply Z.pow_pos_nonneg; lia).
    set (Q := 10 ^ Z.of_nat (String.length s)) in *. nia.
Qed.

Lemma nat_of_ascii_inj : forall a b, nat_of_ascii a = nat_of_ascii b -> a = b.
Proof. intros a b H. rewrite <- (ascii_nat_embedding a), <- (ascii_nat_embedding b), H. reflexivity. Qed.

Lemma field_order : forall a b acc u v, String.length a = String.length b -> all_digits a -> all_digits b ->
  (before (a ++ u) (b ++ v) <-> read_from acc a < read_from acc b \/ (a = b /\ before u v)).
Proof.
  induction a as [|x a IH]; intros [|y b] acc u v L Ha Hb; try discriminate L; cbn [append before read_from].
  - split; [intros H; right; split; [reflexivity|exact H]|intros [H|[_ H]]; [lia|exact H]].
  - cbn [String.length] in L. injection L as L. destruct Ha as [Hx Ha], Hb as [Hy Hb].
    unfold is_digit in Hx, Hy.
    set (ax := 10 * acc + (Z.of_nat (nat_of_ascii x) - 48)). set (ay := 10 * acc + (Z.of_nat (nat_of_ascii y) - 48)).
    pose proof (read_from_bound a ax Ha) as Ba. pose proof (read_from_bound b ay Hb) as Bb. rewrite <- L in Bb.
    assert (P : 0 < 10 ^ Z.of_nat (String.length a)) by (apply Z.pow_pos_nonneg; lia).
    destruct (Nat.lt_trichotomy (nat_of_ascii x) (nat_of_ascii y)) as [K|[K|K]].
    + split; [intros _; left|intros _; left; exact K].
      assert (ax + 1 <= ay) by (unfold ax, ay; lia). nia.
    + pose proof (nat_of_ascii_inj x y K) as E. subst y. fold ax in ay. subst ay.
      specialize (IH b ax u v L Ha Hb). split.
      * intros [H|[_ H]]; [lia|]. apply IH in H. destruct H as [H|[H1 H2]]; [left; exact H|right; split; [congruence|exact H2]].
      * intros H. right. split; [reflexivity|]. apply IH. destruct H as [H|[H1 H2]]; [left; exact H|right; split; [congruence|exact H2]].
    + split.
      * intros [H|[H _]]; [lia|subst; lia].
      * intros [H|[H _]]; [|injection H as -> _; lia].
        assert (ay + 1 <= ax) by (unfold ax, ay; lia). nia.
Qed.

Lemma read_inj : forall a b acc, String.length a = String.length b -> all_digits a -> all_digits b ->
  read_from acc a = read_from acc b -> a = b.
Proof.
  induction a as [|x a IH]; intros [|y b] acc L Ha Hb E; try discriminate L; [reflexivity|].
  cbn [String.length read_from] in *. injection L as L. destruct Ha as [Hx Ha], Hb as [Hy Hb]. unfold is_digit in *.
  set (ax := 10 * acc + (Z.of_nat (nat_of_ascii x) - 48)) in *. set (ay := 10 * acc + (Z.of_nat (nat_of_ascii y) - 48)) in *.
  pose proof (read_from_bound a ax Ha) as Ba. pose proof (read_from_bound b ay Hb) as Bb. rewrite <- L in Bb.
  assert (P : 0 < 10 ^ Z.of_nat (String.length a)) by (apply Z.pow_pos_nonneg; lia).
  assert (ax = ay) by nia.
  assert (K : nat_of_ascii x = nat_of_ascii y) by (unfold ax, ay in *; lia).
  apply nat_of_ascii_inj in K. subst y. f_equal. apply (IH b ax L Ha Hb). rewrite E. unfold ax, ay. reflexivity.
Qed.

(** ** Reading an integer back *)

Definition is_digitb (c : ascii) : bool := (48 <=? nat_of_ascii c)%nat && (nat_of_ascii c <=? 57)%nat.
Lemma is_digitb_ok : forall c, is_digitb c = true <-> is_digit c.
Proof. intros c. unfold is_digitb, is_digit. rewrite andb_true_iff, !Nat.leb_le. tauto. Qed.

Fixpoint span_digits (acc : Z) (s : string) : Z * string :=
  match s with
  | EmptyString => (acc, "")
  | String c s' => if is_digitb c then span_digits (10 * acc + (Z.of_nat (nat_of_ascii c) - 48)) s' else (acc, s)
  end.
Definition stops (s : string) : Prop := match s with EmptyString => True | String c _ => ~ is_digit c end.

Lemma span_app : forall a acc r, all_digits a -> stops r -> span_digits acc (a ++ r) = (read_from acc a, r).
Proof.
  induction a as [|x a IH]; intros acc r Ha Hr; cbn [append read_from].
  - destruct r as [|c r]; [reflexivity|]. cbn [span_digits]. cbn [stops] in Hr.
    destruct (is_digitb c) eqn:E; [|reflexivity]. apply is_digitb_ok in E. contradiction.
  - destruct Ha as [Hx Ha]. cbn [span_digits]. rewrite (proj2 (is_digitb_ok x) Hx). apply IH; assumption.
Qed.

Definition scan_int (s : string) : Z * string :=
  match s with
  | String c s' => if Ascii.eqb c "-" then (let '(n, r) := span_digits 0 s' in (- n, r)) else span_digits 0 s
  | EmptyString => (0, "")
  end.

Lemma scan_int_fmt : forall w x r, (1 <= w)%nat -> stops r -> scan_int (fmt_int w x ++ r) = (x, r).
Proof.
  intros w x r Hw Hr. unfold fmt_int. destruct (Z.ltb_spec x 0) as [L|L].
  - cbn [append scan_int]. rewrite Ascii.eqb_refl. destruct (to_dec_ok (- x) ltac:(lia)) as (H1 & H2 & _).
    rewrite span_app; [|apply lpad0_digits; exact H1|exact Hr].
    change (read_from 0 (lpad "0" (w - 1) (to_dec (- x)))) with (read_digits (lpad "0" (w - 1) (to_dec (- x)))).
    rewrite lpad0_read, H2. f_equal. lia.
  - destruct (to_dec_ok x L) as (H1 & H2 & _).
    assert (HD : all_digits (lpad "0" w (to_dec x))) by (apply lpad0_digits, H1).
    assert (HL : (1 <= String.length (lpad "0" w (to_dec x)))%nat) by (rewrite lpad_length; lia).
    assert (HR : read_from 0 (lpad "0" w (to_dec x)) = x).
    { change (read_from 0 (lpad "0" w (to_dec x))) with (read_digits (lpad "0" w (to_dec x))). rewrite lpad0_read. exact H2. }
    destruct (lpad "0" w (to_dec x)) as [|c s] eqn:E; [cbn in HL; lia|].
    cbn [append scan_int]. destruct (Ascii.eqb_spec c "-") as [->|N].
    + destruct HD as [HD _]. unfold is_digit in HD. cbn in HD. lia.
    + rewrite <- app_cons. rewrite span_app by assumption. rewrite HR. reflexivity.
Qed.

Lemma fmt_int_field : forall k x, (1 <= k)%nat -> 0 <= x < 10 ^ Z.of_nat k -> field k x (fmt_int k x).
Proof. intros k x Hk Hx. unfold fmt_int. destruct (Z.ltb_spec x 0); [lia|]. apply lpad_field; assumption. Qed.
