(** * Proofs of the display properties C54, C55, C62 *)

From Coq Require Import ZArith Ascii String Reals Lra Lia Bool.
From Flocq Require Import Core BinarySingleNaN.
From Verif Require Import Outcome Arith ArithF Spec_Float M_Common M_Calendar M_Ellipsoid M_Display.
From Verif Require Import Spec_Calendar Spec_Api Spec_Display Spec_Stamp.
From Verif Require Import L_ArithF L_Flit L_HMS L_Display L_PTimeOfDay L_PCalendar L_PDeltaAt.
Open Scope string_scope.
Open Scope R_scope.
Open Scope Z_scope.

(** C54.  Distinct dates print differently, for all integer years, months and days. *)
Lemma C54_injective_pf : forall g g', display_date g = display_date g' -> g = g'.
Proof.
  intros [y m d] [y' m' d'] H. unfold display_date in H. cbn [year month day] in H.
  assert (S : forall r, stops ("-" ++ r)) by (intros r; cbn; unfold is_digit; cbn; lia).
  assert (E : scan_int (fmt_int 4 y ++ "-" ++ fmt_int 2 m ++ "-" ++ fmt_int 2 d) =
              scan_int (fmt_int 4 y' ++ "-" ++ fmt_int 2 m' ++ "-" ++ fmt_int 2 d')) by (rewrite H; reflexivity).
  rewrite !scan_int_fmt in E by (lia || apply S). apply pair_equal_spec in E. destruct E as [-> E].
  cbn [append] in E. injection E as E.
  assert (E2 : scan_int (fmt_int 2 m ++ "-" ++ fmt_int 2 d) = scan_int (fmt_int 2 m' ++ "-" ++ fmt_int 2 d')) by (cbn [append]; rewrite E; reflexivity).
  rewrite !scan_int_fmt in E2 by (lia || apply S). apply pair_equal_spec in E2. destruct E2 as [-> E2].
  cbn [append] in E2. injection E2 as E2.
  assert (E3 : scan_int (fmt_int 2 d ++ "") = scan_int (fmt_int 2 d' ++ "")) by (rewrite E2; reflexivity).
  rewrite !scan_int_fmt in E3 by (lia || exact I). apply pair_equal_spec in E3. destruct E3 as [-> _]. reflexivity.
Qed.

(** C54.  For accepted dates with years 0 to 9999 the string is YYYY-MM-DD, 10 characters. *)
Lemma C54_form_pf : forall g, accepted g -> 0 <= year g <= 9999 ->
  String.length (display_date g) = 10%nat /\
  exists ys ms ds, display_date g = ys ++ "-" ++ ms ++ "-" ++ ds /\
    field 4 (year g) ys /\ field 2 (month g) ms /\ field 2 (day g) ds.
Proof.
  intros g Hg Hy. destruct (accepted_month g Hg) as (M & D & _).
  assert (F1 : field 4 (year g) (fmt_int 4 (year g))) by (apply fmt_int_field; [lia|change (10 ^ Z.of_nat 4) with 10000; lia]).
  assert (F2 : field 2 (month g) (fmt_int 2 (month g))) by (apply fmt_int_field; [lia|change (10 ^ Z.of_nat 2) with 100; lia]).
  assert (F3 : field 2 (day g) (fmt_int 2 (day g))) by (apply fmt_int_field; [lia|change (10 ^ Z.of_nat 2) with 100; lia]).
  split.
  - unfold display_date. rewrite !app_length. rewrite (proj1 F1), (proj1 F2), (proj1 F3). reflexivity.
  - exists (fmt_int 4 (year g)), (fmt_int 2 (month g)), (fmt_int 2 (day g)). split; [reflexivity|]. split; [exact F1|]. split; assumption.
Qed.

Lemma fmt_int_padded : forall w x, (2 <= w)%nat -> padded w x (fmt_int w x).
Proof.
  intros w x Hw. unfold padded, fmt_int. destruct (x <? 0) eqn:E; [apply Z.ltb_lt in E|apply Z.ltb_ge in E].
  - destruct (to_dec_ok (- x) ltac:(lia)) as (H1 & H2 & H3). exists (lpad "0" (w - 1) (to_dec (- x))). split; [reflexivity|].
    split; [apply lpad0_digits, H1|]. split; [rewrite lpad0_read; lia|]. rewrite app_length, lpad_length. cbn [String.length]. split; [lia|]. intros L.
    assert (G : (Nat.max (w - 1) (String.length (to_dec (- x))) = String.length (to_dec (- x)))%nat) by lia. rewrite G.
    specialize (H3 (String.length (to_dec (- x)) - 1)%nat ltac:(lia)). replace (Z.of_nat (String.length (to_dec (- x))) - 1) with (Z.of_nat (String.length (to_dec (- x)) - 1)) by lia.
    apply Z.nlt_ge. intros K. rewrite Z.abs_neq in K by lia. apply H3 in K. lia.
  - destruct (to_dec_ok x ltac:(lia)) as (H1 & H2 & H3). exists (lpad "0" w (to_dec x)). split; [reflexivity|].
    split; [apply lpad0_digits, H1|]. split; [rewrite lpad0_read; lia|]. rewrite lpad_length. split; [lia|]. intros L.
    assert (G : (Nat.max w (String.length (to_dec x)) = String.length (to_dec x))%nat) by lia. rewrite G.
    specialize (H3 (String.length (to_dec x) - 1)%nat ltac:(lia)). replace (Z.of_nat (String.length (to_dec x)) - 1) with (Z.of_nat (String.length (to_dec x) - 1)) by lia.
    apply Z.nlt_ge. intros K. rewrite Z.abs_eq in K by lia. apply H3 in K. lia.
Qed.

(** C54.  Every date, negative and long years included, prints as the year in at
    least 4 characters, the month and the day in at least 2, joined by hyphens. *)
Lemma C54_padding_pf : forall g, exists ys ms ds, display_date g = ys ++ "-" ++ ms ++ "-" ++ ds /\
  padded 4 (year g) ys /\ padded 2 (month g) ms /\ padded 2 (day g) ds.
Proof.
  intros g. exists (fmt_int 4 (year g)), (fmt_int 2 (month g)), (fmt_int 2 (day g)). split; [reflexivity|].
  split; [|split]; apply fmt_int_padded; lia.
Qed.

(** C54.  For those dates byte order is chronological order. *)
Lemma C54_order_pf : forall g g', accepted g -> accepted g' -> 0 <= year g <= 9999 -> 0 <= year g' <= 9999 ->
  (before (display_date g) (display_date g') <-> civil_lt (of_date g) (of_date g')).
Proof.
  intros g g' Hg Hg' Hy Hy'. unfold display_date.
  destruct (accepted_month g Hg) as (M & D & _). destruct (accepted_month g' Hg') as (M' & D' & _).
  assert (F4 : forall x, 0 <= x <= 9999 -> field 4 x (fmt_int 4 x)) by (intros x Hx; apply fmt_int_field; [lia|change (10 ^ Z.of_nat 4) with 10000; lia]).
  assert (F2 : forall x, 0 <= x <= 99 -> field 2 x (fmt_int 2 x)) by (intros x Hx; apply fmt_int_field; [lia|change (10 ^ Z.of_nat 2) with 100; lia]).
  assert (G : forall k x x' u v, (forall y, 0 <= y <= 10 ^ Z.of_nat k - 1 -> field k y (fmt_int k y)) ->
    0 <= x <= 10 ^ Z.of_nat k - 1 -> 0 <= x' <= 10 ^ Z.of_nat k - 1 ->
    (before (fmt_int k x ++ u) (fmt_int k x' ++ v) <-> x < x' \/ (x = x' /\ before u v))).
  { intros k x x' u v F Hx Hx'. destruct (F x Hx) as (L1 & L2 & L3). destruct (F x' Hx') as (L1' & L2' & L3').
    rewrite (field_order _ _ 0 u v) by (congruence || assumption).
    unfold read_digits in L3, L3'. rewrite L3, L3'. split.
    - intros [H|[H1 H2]]; [left; exact H|right]. split; [|exact H2]. rewrite <- L3, <- L3', H1. reflexivity.
    - intros [H|[-> H2]]; [left; exact H|right; split; [reflexivity|exact H2]]. }
  rewrite (G 4%nat) by (assumption || exact F4). 
  assert (DB : forall a b, before ("-" ++ a) ("-" ++ b) <-> before a b).
  { intros a b. cbn [append before]. split; [intros [H|[_ H]]; [lia|exact H]|intros H; right; split; [reflexivity|exact H]]. }
  rewrite DB. rewrite (G 2%nat) by (exact F2 || (change (10 ^ Z.of_nat 2) with 100; lia)). rewrite DB.
  rewrite <- (app_nil (fmt_int 2 (day g))), <- (app_nil (fmt_int 2 (day g'))).
  rewrite (G 2%nat) by (exact F2 || (change (10 ^ Z.of_nat 2) with 100; lia)).
  assert (N : ~ before "" "") by (intros []). unfold civil_lt, of_date. tauto.
Qed.

(** Byte order is not chronological order for negative years, and years beyond
    9999 sort before 1000. *)
Example C54_example_pf : display_date (MkDate 2007 4 5) = "2007-04-05" /\ display_date (MkDate (-5) 4 5) = "-005-04-05" /\
  before (display_date (MkDate 999 12 31)) (display_date (MkDate 2007 4 5)) /\
  before (display_date (MkDate (-100) 1 1)) (display_date (MkDate (-200) 1 1)) /\
  before (display_date (MkDate 10000 1 1)) (display_date (MkDate 2007 4 5)).
Proof.
  split; [reflexivity|]. split; [reflexivity|].
  change (display_date (MkDate 999 12 31)) with "0999-12-31". change (display_date (MkDate 2007 4 5)) with "2007-04-05".
  change (display_date (MkDate (-100) 1 1)) with "-100-01-01". change (display_date (MkDate (-200) 1 1)) with "-200-01-01".
  change (display_date (MkDate 10000 1 1)) with "10000-01-01".
  split; [left; cbn; lia|]. split; [right; split; [reflexivity|left; cbn; lia]|left; cbn; lia].
Qed.

(** ** Floats *)

Lemma round_div_ok : forall tie n d, 0 < d -> 0 <= n ->
  0 <= round_div tie n d /\ Z.abs (2 * (round_div tie n d * d - n)) <= d.
Proof.
  intros tie n d Hd Hn. unfold round_div. pose proof (Z.mod_pos_bound n d Hd). pose proof (Z.div_mod n d ltac:(lia)).
  pose proof (Z.div_pos n d Hn Hd).
  destruct (Z.compare_spec (2 * (n mod d)) d); [destruct (tie (n / d))| |]; nia.
Qed.

Lemma float_body : forall tie (x : b64) p, fin x = true -> exists n, 0 <= n /\ body_of tie x p = fixed n p /\
  (Rabs (IZR n - Rabs (B2R x) * IZR (10 ^ Z.of_nat p)) <= / 2)%R.
Proof.
  intros tie x p Fx. destruct x as [s|s| |s m e H]; try discriminate Fx.
  - exists 0. split; [lia|]. split; [reflexivity|]. cbn [B2R]. rewrite Rabs_R0, Rmult_0_l, Rminus_0_r, Rabs_R0. lra.
  - set (P := 10 ^ Z.of_nat p). assert (HP : 0 < P) by (apply Z.pow_pos_nonneg; lia).
    assert (AB : Rabs (B2R (B754_finite s m e H)) = (IZR (Zpos m) * bpow radix2 e)%R).
    { cbn [B2R]. rewrite <- F2R_Zabs. unfold F2R. cbn [Fnum Fexp]. rewrite abs_cond_Zopp. reflexivity. }
    rewrite AB. cbn [body_of]. unfold scaled. fold P. destruct (Z.leb_spec 0 e) as [L|L].
    + exists (Zpos m * P * 2 ^ e). split; [pose proof (Z.pow_nonneg 2 e ltac:(lia)); nia|]. split; [reflexivity|].
      replace (bpow radix2 e) with (IZR (2 ^ e)) by (rewrite <- IZR_Zpower by exact L; reflexivity).
      rewrite <- !mult_IZR. replace (Z.pos m * P * 2 ^ e) with (Z.pos m * 2 ^ e * P) by ring.
      rewrite Rminus_diag_eq by reflexivity. rewrite Rabs_R0. lra.
    + assert (HD : 0 < 2 ^ (- e)) by (apply Z.pow_pos_nonneg; lia).
      destruct (round_div_ok tie (Zpos m * P) (2 ^ (- e)) HD ltac:(nia)) as [R1 R2].
      exists (round_div tie (Z.pos m * P) (2 ^ (- e))). split; [exact R1|]. split; [reflexivity|].
      set (q := round_div tie (Z.pos m * P) (2 ^ (- e))) in *. set (D := 2 ^ (- e)) in *.
      assert (BE : bpow radix2 e = (/ IZR D)%R).
      { replace e with (- (- e)) by lia. rewrite bpow_opp. f_equal. unfold D. rewrite <- IZR_Zpower by lia. reflexivity. }
      rewrite BE. 
      assert (HDR : (0 < IZR D)%R) by (apply IZR_lt; exact HD).
      replace (IZR q - IZR (Z.pos m) * / IZR D * IZR P)%R with ((IZR (2 * (q * D - Z.pos m * P))) * / (2 * IZR D))%R.
      2:{ rewrite mult_IZR, minus_IZR, !mult_IZR. field. lra. }
      rewrite Rabs_mult, <- abs_IZR. rewrite (Rabs_pos_eq (/ (2 * IZR D))) by (apply Rlt_le, Rinv_0_lt_compat; lra).
      apply Rmult_le_reg_r with (2 * IZR D)%R; [lra|]. rewrite Rmult_assoc, Rinv_l by lra.
      apply IZR_le in R2. lra.
Qed.

Lemma lpad_app : forall c k l a b, String.length b = l -> lpad c (k + l) (a ++ b) = lpad c k a ++ b.
Proof.
  intros c k l a b H. unfold lpad. rewrite app_length, H, app_assoc. do 2 f_equal. lia.
Qed.

(** The fixed-point body, zero padded to k digits, a point and p digits. *)
Lemma fixed_field : forall k p n w, (1 <= k)%nat -> (1 <= p)%nat -> 0 <= n < 10 ^ Z.of_nat k * 10 ^ Z.of_nat p ->
  w = (k + (1 + p))%nat ->
  exists i f, lpad "0" w (fixed n p) = i ++ "." ++ f /\
    field k (n / 10 ^ Z.of_nat p) i /\ field p (n mod 10 ^ Z.of_nat p) f.
Proof.
  intros k p n w Hk Hp Hn ->.
  assert (PP : 0 < 10 ^ Z.of_nat p) by (apply Z.pow_pos_nonneg; lia).
  set (P := 10 ^ Z.of_nat p) in *.
  assert (F2 : field p (n mod P) (lpad "0" p (to_dec (n mod P)))).
  { apply lpad_field; [exact Hp|]. fold P. apply Z.mod_pos_bound, PP. }
  assert (F1 : field k (n / P) (lpad "0" k (to_dec (n / P)))).
  { apply lpad_field; [exact Hk|]. split; [apply Z.div_pos; lia|]. apply Z.div_lt_upper_bound; lia. }
  exists (lpad "0" k (to_dec (n / P))), (lpad "0" p (to_dec (n mod P))). split; [|split; assumption].
  assert (E : fixed n p = to_dec (n / P) ++ "." ++ lpad "0" p (to_dec (n mod P))) by (destruct p; [lia|reflexivity]).
  rewrite E. apply lpad_app. rewrite app_length. rewrite (proj1 F2). reflexivity.
Qed.

Lemma split_value : forall n P (y : R), 0 < P -> (Rabs (IZR n - y * IZR P) <= / 2)%R ->
  (Rabs (IZR (n / P) + IZR (n mod P) / IZR P - y) <= / 2 / IZR P)%R.
Proof.
  intros n P y HP H. assert (HPR : (0 < IZR P)%R) by (apply IZR_lt; exact HP).
  replace (IZR (n / P) + IZR (n mod P) / IZR P - y)%R with ((IZR n - y * IZR P) * / IZR P)%R.
  - rewrite Rabs_mult. rewrite (Rabs_pos_eq (/ IZR P)) by (apply Rlt_le, Rinv_0_lt_compat; lra).
    apply Rmult_le_compat_r; [apply Rlt_le, Rinv_0_lt_compat; lra|exact H].
  - rewrite (Z.div_mod n P) at 1 by lia. rewrite plus_IZR, mult_IZR. field. lra.
Qed.

(** C55 is false: the last instant before midnight prints as 23:59:60.000000. *)
Lemma C55_seconds_below_60_refuted_pf : forall tie lm,
  exists f x, fin f = true /\ (0 <= B2R f <= 1)%R /\
  hms_from_fraction (A := b64A lm) f = Ok x /\ display_hms tie x = "23:59:60.000000".
Proof.
  intros tie lm. set (f := Fof 9007199254740991 (-53)). exists f.
  assert (SF : B2SF f = SpecFloat.S754_finite false 9007199254740991 (-53)) by (vm_compute; reflexivity).
  assert (K : match hms_from_fraction (A := b64A lm) f with
              | Ok (MkHMS h m s) => Some ((h, m), B2SF s) | Err _ => None end
              = Some ((23, 59)%Z, B2SF (Fof 8444249301317632 (-47)))).
  { vm_compute. reflexivity. }
  destruct (hms_from_fraction (A := b64A lm) f) as [[h m s]|]; [|discriminate].
  apply some_pair in K. destruct K as [K1 K2]. apply B2SF_inj in K2. inversion K1. subst h m s.
  eexists. split; [rewrite fin_SF, SF; reflexivity|]. split; [|split; [reflexivity|]].
  - rewrite B2R_SF, SF. cbn [SF2R cond_Zopp]. unfold F2R. cbn [Fnum Fexp]. change (bpow radix2 (-53)) with (/ 9007199254740992)%R. lra.
  - unfold display_hms. cbn [hour minute second]. vm_compute. reflexivity.
Qed.

(** C55, the true part: for every binary64 fraction in [0,1] the displayed time
    is 15 characters HH:MM:SS.ffffff with HH <= 24, MM < 60, SS <= 60; the
    printed seconds are within half a microsecond of the seconds field; SS = 60
    occurs only as 60.000000, for seconds of 59.9999995 or more. *)
Lemma C55_form_partial_pf : forall tie lm f, fin f = true -> (0 <= B2R f <= 1)%R ->
  exists x hs ms ss us si su, hms_from_fraction (A := b64A lm) f = Ok x /\
    display_hms tie x = hs ++ ":" ++ ms ++ ":" ++ ss ++ "." ++ us /\
    String.length (display_hms tie x) = 15%nat /\
    field 2 (hour x) hs /\ 0 <= hour x <= 24 /\ field 2 (minute x) ms /\ 0 <= minute x < 60 /\
    field 2 si ss /\ 0 <= si <= 60 /\ field 6 su us /\
    (Rabs (IZR si + IZR su / 1000000 - B2R (second (A := b64A lm) x)) <= / 2000000)%R /\
    (si = 60 -> su = 0 /\ (59.9999995 <= B2R (second (A := b64A lm) x))%R).
Proof.
  intros tie lm f Ff Bf.
  destruct (C15_hms_fields_pf lm f Ff Bf) as (h & m & s & E & Hh & Hm & Fs & Bs & _).
  assert (SG : Bsign s = false).
  { destruct (hms_from_fraction_F_full lm f Ff Bf) as (s0 & sec & _ & _ & _ & E' & _ & _ & S).
    rewrite E in E'. 
    assert (K : forall h m s h' m' s', @Ok (HMS (b64A lm)) CalendarError (MkHMS (A := b64A lm) h m s) = Ok (MkHMS (A := b64A lm) h' m' s') -> s = s').
    { clear. intros h m s h' m' s' H. injection H. auto. }
    apply K in E'. rewrite E'. exact S. }
  destruct (float_body tie s 6 Fs) as (n & Hn & En & Bn).
  change (10 ^ Z.of_nat 6) with 1000000 in *.
  rewrite (Rabs_pos_eq (B2R s)) in Bn by lra.
  assert (NU : n <= 60000000).
  { assert (K : (IZR n < 60000001)%R) by (apply Rabs_le_inv in Bn; lra). apply lt_IZR in K. lia. }
  destruct (fixed_field 2 6 n 9 ltac:(lia) ltac:(lia)) as (ss & us & E1 & F1 & F2);
    [change (10 ^ Z.of_nat 6) with 1000000; change (10 ^ Z.of_nat 2) with 100; lia|reflexivity|].
  change (10 ^ Z.of_nat 6) with 1000000 in *.
  assert (D : fmt_float_fill0 tie 9 6 s = ss ++ "." ++ us).
  { unfold fmt_float_fill0. rewrite En. rewrite <- E1.
    replace (sign_of false s) with ""; [reflexivity|]. destruct s; try discriminate Fs; cbn [Bsign] in SG; rewrite SG; reflexivity. }
  assert (G1 : field 2 h (fmt_int 2 h)) by (apply fmt_int_field; [lia|change (10 ^ Z.of_nat 2) with 100; lia]).
  assert (G2 : field 2 m (fmt_int 2 m)) by (apply fmt_int_field; [lia|change (10 ^ Z.of_nat 2) with 100; lia]).
  exists (MkHMS (A := b64A lm) h m s), (fmt_int 2 h), (fmt_int 2 m), ss, us, (n / 1000000), (n mod 1000000).
  split; [exact E|]. unfold display_hms. cbn [hour minute second]. rewrite D.
  split; [reflexivity|]. split.
  { rewrite !app_length, (proj1 G1), (proj1 G2), (proj1 F1), (proj1 F2). reflexivity. }
  split; [exact G1|]. split; [exact Hh|]. split; [exact G2|]. split; [exact Hm|]. split; [exact F1|].
  pose proof (Z.div_mod n 1000000 ltac:(lia)) as DM. pose proof (Z.mod_pos_bound n 1000000 ltac:(lia)) as MB.
  split; [lia|]. split; [exact F2|].
  pose proof (split_value n 1000000 (B2R s) ltac:(lia) Bn) as SV. split; [lra|].
  intros K. assert (n mod 1000000 = 0) by lia. split; [assumption|].
  assert (n = 60000000) by lia. subst n. apply Rabs_le_inv in Bn. lra.
Qed.

Lemma before_irrefl : forall s, ~ before s s.
Proof. induction s as [|c s IH]; cbn [before]; [intros []|intros [H|[_ H]]; [lia|exact (IH H)]]. Qed.
Lemma seconds_string : forall tie (s : b64), fin s = true -> Bsign s = false -> (0 <= B2R s <= 99)%R ->
  exists n ss us, fmt_float_fill0 tie 9 6 s = ss ++ "." ++ us /\ field 2 (n / 1000000) ss /\ field 6 (n mod 1000000) us /\ 0 <= n <= 99000000 /\
    (Rabs (IZR n - B2R s * 1000000) <= / 2)%R.
Proof.
  intros tie s Fs SG Bs. destruct (float_body tie s 6 Fs) as (n & Hn & En & Bn). change (10 ^ Z.of_nat 6) with 1000000 in *.
  rewrite (Rabs_pos_eq (B2R s)) in Bn by lra.
  assert (NU : n <= 99000000) by (assert (K : (IZR n < 99000001)%R) by (apply Rabs_le_inv in Bn; lra); apply lt_IZR in K; lia).
  destruct (fixed_field 2 6 n 9 ltac:(lia) ltac:(lia)) as (ss & us & E1 & F1 & F2);
    [change (10 ^ Z.of_nat 6) with 1000000; change (10 ^ Z.of_nat 2) with 100; lia|reflexivity|].
  exists n, ss, us. split; [|split; [exact F1|split; [exact F2|split; [lia|exact Bn]]]].
  unfold fmt_float_fill0. rewrite En, <- E1.
  replace (sign_of false s) with ""; [reflexivity|]. destruct s; try discriminate Fs; cbn [Bsign] in SG; rewrite SG; reflexivity.
Qed.

(** C55.  A date and time with year 0 to 9999, hour and minute below 100 and seconds
    from 0 to 99 prints as 26 characters YYYY-MM-DD HH:MM:SS.ffffff; the seconds shown
    are within half a microsecond. *)
Lemma C55_stamp_pf : forall tie lm (x : GregorianDateHMS (b64A lm)), stamp_ok x ->
  exists ys mos ds hs ms ss us si su,
    display_datehms tie x = ys ++ "-" ++ mos ++ "-" ++ ds ++ " " ++ hs ++ ":" ++ ms ++ ":" ++ ss ++ "." ++ us /\
    String.length (display_datehms tie x) = 26%nat /\
    field 4 (year (date x)) ys /\ field 2 (month (date x)) mos /\ field 2 (day (date x)) ds /\
    field 2 (hour (hms x)) hs /\ field 2 (minute (hms x)) ms /\ field 2 si ss /\ field 6 su us /\
    (Rabs (IZR si + IZR su / 1000000 - B2R (second (A := b64A lm) (hms x))) <= / 2000000)%R.
Proof.
  intros tie lm [g [h m s]] (Hg & Hy & Hh & Hm & Fs & SG & Bs). cbn [date hms hour minute second] in *.
  destruct (accepted_month g Hg) as (M & D & _).
  destruct (seconds_string tie s Fs SG Bs) as (n & ss & us & E & F1 & F2 & N & Bn).
  assert (G4 : field 4 (year g) (fmt_int 4 (year g))) by (apply fmt_int_field; [lia|change (10 ^ Z.of_nat 4) with 10000; lia]).
  assert (G2 : forall z, 0 <= z <= 99 -> field 2 z (fmt_int 2 z)) by (intros z Hz; apply fmt_int_field; [lia|change (10 ^ Z.of_nat 2) with 100; lia]).
  exists (fmt_int 4 (year g)), (fmt_int 2 (month g)), (fmt_int 2 (day g)), (fmt_int 2 h), (fmt_int 2 m), ss, us, (n / 1000000), (n mod 1000000).
  unfold display_datehms, display_date, display_hms. cbn [date hms hour minute second]. rewrite E.
  split; [rewrite !app_assoc; reflexivity|]. split.
  { rewrite !app_length, (proj1 G4), (proj1 (G2 (month g) ltac:(lia))), (proj1 (G2 (day g) ltac:(lia))), (proj1 (G2 h ltac:(lia))), (proj1 (G2 m ltac:(lia))), (proj1 F1), (proj1 F2). reflexivity. }
  split; [exact G4|]. split; [apply G2; lia|]. split; [apply G2; lia|]. split; [apply G2; lia|]. split; [apply G2; lia|]. split; [exact F1|]. split; [exact F2|].
  pose proof (split_value n 1000000 (B2R s) ltac:(lia) Bn) as SV. lra.
Qed.

(** C55.  Sorting such strings by bytes never puts a later time first. *)
Lemma C55_stamp_order_pf : forall tie lm (x x' : GregorianDateHMS (b64A lm)), stamp_ok x -> stamp_ok x' ->
  before (display_datehms tie x) (display_datehms tie x') -> stamp_lt x x'.
Proof.
  intros tie lm [g [h m s]] [g' [h' m' s']] (Hg & Hy & Hh & Hm & Fs & SG & Bs) (Hg' & Hy' & Hh' & Hm' & Fs' & SG' & Bs') H.
  unfold stamp_lt. cbn [date hms hour minute second] in *.
  destruct (accepted_month g Hg) as (M & D & _). destruct (accepted_month g' Hg') as (M' & D' & _).
  assert (F4 : forall z, 0 <= z <= 9999 -> field 4 z (fmt_int 4 z)) by (intros z Hz; apply fmt_int_field; [lia|change (10 ^ Z.of_nat 4) with 10000; lia]).
  assert (F2 : forall z, 0 <= z <= 99 -> field 2 z (fmt_int 2 z)) by (intros z Hz; apply fmt_int_field; [lia|change (10 ^ Z.of_nat 2) with 100; lia]).
  assert (G : forall k z z' a b u v, field k z a -> field k z' b -> before (a ++ u) (b ++ v) -> z < z' \/ (z = z' /\ before u v)).
  { intros k z z' a b u v (L1 & L2 & L3) (L1' & L2' & L3') K.
    rewrite (field_order _ _ 0 u v) in K by (congruence || assumption). unfold read_digits in L3, L3'. rewrite L3, L3' in K.
    destruct K as [K|[K1 K2]]; [left; exact K|right]. split; [|exact K2]. rewrite <- L3, <- L3', K1. reflexivity. }
  assert (DB : forall c a b, before (String c a) (String c b) -> before a b) by (intros c a b K; cbn [before] in K; destruct K as [K|[_ K]]; [lia|exact K]).
  unfold display_datehms, display_date, display_hms in H. cbn [date hms hour minute second] in H. rewrite !app_assoc in H.
  apply (G 4%nat (year g) (year g')) in H; [|apply F4; lia|apply F4; lia]. unfold civil_lt, of_date. destruct H as [H|[EY H]]; [tauto|].
  cbn [append] in H. apply DB in H. apply (G 2%nat (month g) (month g')) in H; [|apply F2; lia|apply F2; lia]. destruct H as [H|[EM H]]; [tauto|].
  cbn [append] in H. apply DB in H. apply (G 2%nat (day g) (day g')) in H; [|apply F2; lia|apply F2; lia]. destruct H as [H|[ED H]]; [tauto|].
  right. split; [destruct g as [y1 m1 d1], g' as [y2 m2 d2]; change (y1 = y2) in EY; change (m1 = m2) in EM; change (d1 = d2) in ED; congruence|].
  cbn [append] in H. apply DB in H. apply (G 2%nat h h') in H; [|apply F2; lia|apply F2; lia]. destruct H as [H|[EH H]]; [left; exact H|].
  right. split; [exact EH|]. cbn [append] in H. apply DB in H. apply (G 2%nat m m') in H; [|apply F2; lia|apply F2; lia]. destruct H as [H|[EN H]]; [left; exact H|].
  right. split; [exact EN|]. cbn [append] in H. apply DB in H.
  destruct (Rlt_le_dec (B2R s) (B2R s')) as [L|L]; [exact L|exfalso].
  destruct (seconds_string tie s Fs SG Bs) as (n & ss & us & E & Fa & Fb & N & Bn). destruct (seconds_string tie s' Fs' SG' Bs') as (n' & ss' & us' & E' & Fa' & Fb' & N' & Bn').
  assert (NL : n < n').
  { rewrite E, E' in H. pose proof (Z.div_mod n 1000000 ltac:(lia)) as DM. pose proof (Z.div_mod n' 1000000 ltac:(lia)) as DM'.
    pose proof (Z.mod_pos_bound n 1000000 ltac:(lia)). pose proof (Z.mod_pos_bound n' 1000000 ltac:(lia)).
    apply (G 2%nat _ _ _ _ _ _ Fa Fa') in H. destruct H as [H|[E1 H]]; [lia|]. cbn [append] in H. apply DB in H.
    rewrite <- (app_nil us), <- (app_nil us') in H. apply (G 6%nat _ _ _ _ _ _ Fb Fb') in H. destruct H as [H|[_ []]]. lia. }
  assert (NR : (IZR n + 1 <= IZR n')%R) by (rewrite <- plus_IZR; apply IZR_le; lia).
  apply Rabs_le_inv in Bn. apply Rabs_le_inv in Bn'.
  assert (V : B2R s = B2R s') by lra. apply B2R_Bsign_inj in V; [|exact Fs|exact Fs'|congruence].
  rewrite V in H. exact (before_irrefl _ H).
Qed.

(** Noon, and an instant whose microseconds are an exact tie (1/128 s). *)
Example C55_example_pf : forall lm,
  display_hms (lm := lm) (fun _ => true) (MkHMS (A := b64A lm) 12 0 (Flit 0 0)) = "12:00:00.000000" /\
  display_hms (lm := lm) (fun _ => true) (MkHMS (A := b64A lm) 1 2 (Fof 1 (-7))) = "01:02:00.007813" /\
  display_hms (lm := lm) Z.odd (MkHMS (A := b64A lm) 1 2 (Fof 1 (-7))) = "01:02:00.007812" /\
  display_datehms (lm := lm) Z.odd (MkDateHMS (A := b64A lm) (MkDate 2007 4 5) (MkHMS (A := b64A lm) 1 2 (Flit 35 (-1))))
    = "2007-04-05 01:02:03.500000".
Proof. intros lm. repeat split; vm_compute; reflexivity. Qed.

(** One coordinate: sign, k digits, point, p digits. *)
Lemma coord_field : forall tie (x : b64) k p w K, (1 <= k)%nat -> (1 <= p)%nat -> w = (1 + (k + (1 + p)))%nat ->
  fin x = true -> 0 <= K < 10 ^ Z.of_nat k -> (Rabs (B2R x) <= IZR K)%R ->
  exists s i f ni nf, fmt_float_sign0 tie w p x = s ++ i ++ "." ++ f /\ sign_string s /\
    field k ni i /\ field p nf f /\
    (Rabs (IZR (sign_factor s) * (IZR ni + IZR nf / IZR (10 ^ Z.of_nat p)) - B2R x) <= / 2 / IZR (10 ^ Z.of_nat p))%R.
Proof.
  intros tie x k p w K Hk Hp Hw Fx HK BK.
  destruct (float_body tie x p Fx) as (n & Hn & En & Bn).
  assert (PP : 0 < 10 ^ Z.of_nat p) by (apply Z.pow_pos_nonneg; lia).
  set (P := 10 ^ Z.of_nat p) in *.
  assert (PR : (0 < IZR P)%R) by (apply IZR_lt; exact PP).
  assert (NU : n <= K * P).
  { assert (Q : (IZR n < IZR (K * P + 1))%R).
    { rewrite plus_IZR, mult_IZR. apply Rabs_le_inv in Bn.
      assert ((Rabs (B2R x) * IZR P <= IZR K * IZR P)%R) by (apply Rmult_le_compat_r; lra). lra. }
    apply lt_IZR in Q. lia. }
  destruct (fixed_field k p n (k + (1 + p)) Hk Hp) as (i & f & E1 & F1 & F2); [fold P; nia|reflexivity|]. fold P in F1, F2.
  exists (sign_of true x), i, f, (n / P), (n mod P).
  assert (SS : sign_string (sign_of true x)).
  { destruct x as [s|s| |s m e H]; try discriminate Fx; destruct s; cbn; unfold sign_string; tauto. }
  split; [|split; [exact SS|split; [exact F1|split; [exact F2|]]]].
  - unfold fmt_float_sign0. rewrite En. f_equal. rewrite <- E1. f_equal. destruct SS as [-> | ->]; cbn [String.length]; lia.
  - pose proof (split_value n P (Rabs (B2R x)) PP Bn) as SV.
    assert (SX : B2R x = (IZR (sign_factor (sign_of true x)) * Rabs (B2R x))%R).
    { destruct x as [s|s| |s m e H]; try discriminate Fx.
      - cbn [B2R]. rewrite Rabs_R0. ring.
      - cbn [B2R]. rewrite <- F2R_Zabs. rewrite abs_cond_Zopp. destruct s; cbn [sign_of].
        + change (sign_factor "-") with (-1). cbn [cond_Zopp]. change (- Z.pos m) with (Z.opp (Z.pos m)). rewrite F2R_Zopp. change (Z.abs (Z.pos m)) with (Z.pos m). lra.
        + change (sign_factor "+") with 1. cbn [cond_Zopp]. change (Z.abs (Z.pos m)) with (Z.pos m). lra. }
    rewrite SX at 1. rewrite <- Rmult_minus_distr_l, Rabs_mult.
    assert (Rabs (IZR (sign_factor (sign_of true x))) = 1%R) as ->.
    { destruct SS as [-> | ->].
      - change (sign_factor "+") with 1. apply Rabs_R1.
      - change (sign_factor "-") with (-1). rewrite Rabs_left by lra. lra. }
    rewrite Rmult_1_l. exact SV.
Qed.

(** C62.  A position with |lat| <= 90, |lon| <= 180 and |height| <= 99999 prints
    as 32 characters: signed latitude dd.dddddd, longitude ddd.dddddd and
    height ddddd.dd, each the value rounded to the digits shown. *)
Lemma C62_position_display_pf : forall tie lm (la lo he : b64), fin la = true -> fin lo = true -> fin he = true ->
  (Rabs (B2R la) <= 90)%R -> (Rabs (B2R lo) <= 180)%R -> (Rabs (B2R he) <= 99999)%R ->
  exists s1 i1 f1 s2 i2 f2 s3 i3 f3 n1 m1 n2 m2 n3 m3,
    display_360 tie (MkG360 (A := b64A lm) lo la he) =
      (s1 ++ i1 ++ "." ++ f1) ++ "," ++ (s2 ++ i2 ++ "." ++ f2) ++ "," ++ (s3 ++ i3 ++ "." ++ f3) /\
    String.length (display_360 tie (MkG360 (A := b64A lm) lo la he)) = 32%nat /\
    sign_string s1 /\ sign_string s2 /\ sign_string s3 /\
    field 2 n1 i1 /\ field 6 m1 f1 /\ field 3 n2 i2 /\ field 6 m2 f2 /\ field 5 n3 i3 /\ field 2 m3 f3 /\
    (Rabs (IZR (sign_factor s1) * (IZR n1 + IZR m1 / 1000000) - B2R la) <= / 2000000)%R /\
    (Rabs (IZR (sign_factor s2) * (IZR n2 + IZR m2 / 1000000) - B2R lo) <= / 2000000)%R /\
    (Rabs (IZR (sign_factor s3) * (IZR n3 + IZR m3 / 100) - B2R he) <= / 200)%R.
Proof.
  intros tie lm la lo he F1 F2 F3 B1 B2 B3.
  destruct (coord_field tie la 2 6 10 90 ltac:(lia) ltac:(lia) eq_refl F1) as (s1 & i1 & f1 & n1 & m1 & E1 & S1 & I1 & J1 & V1); [cbn; lia|exact B1|].
  destruct (coord_field tie lo 3 6 11 180 ltac:(lia) ltac:(lia) eq_refl F2) as (s2 & i2 & f2 & n2 & m2 & E2 & S2 & I2 & J2 & V2); [cbn; lia|exact B2|].
  destruct (coord_field tie he 5 2 9 99999 ltac:(lia) ltac:(lia) eq_refl F3) as (s3 & i3 & f3 & n3 & m3 & E3 & S3 & I3 & J3 & V3); [cbn; lia|exact B3|].
  exists s1, i1, f1, s2, i2, f2, s3, i3, f3, n1, m1, n2, m2, n3, m3.
  unfold display_360. cbn [lat lon height360]. rewrite E1, E2, E3.
  split; [reflexivity|]. split.
  { rewrite !app_length, (proj1 I1), (proj1 J1), (proj1 I2), (proj1 J2), (proj1 I3), (proj1 J3).
    assert (SL : forall s, sign_string s -> String.length s = 1%nat) by (intros s [-> | ->]; reflexivity).
    rewrite (SL s1 S1), (SL s2 S2), (SL s3 S3). reflexivity. }
  repeat (split; [assumption|]).
  change (10 ^ Z.of_nat 6) with 1000000 in *. change (10 ^ Z.of_nat 2) with 100 in *.
  split; [|split]; lra.
Qed.

(** The comment in the source: +23.456789,-111.111111,+12345.67 *)
Example C62_example_pf : forall lm,
  display_360 Z.odd (MkG360 (A := b64A lm) (Flit (-111111111) (-6)) (Flit 23456789 (-6)) (Flit 1234567 (-2)))
    = "+23.456789,-111.111111,+12345.67" /\
  display_360 Z.odd (MkG360 (A := b64A lm) (Flit 0 0) (Flit 90 0) (Flit (-1) (-3)))
    = "+90.000000,+000.000000,-00000.00".
Proof. intros lm. split; vm_compute; reflexivity. Qed.
