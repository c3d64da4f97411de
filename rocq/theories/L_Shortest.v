(** * Lemmas on the shortest decimal of a float *)

From Coq Require Import ZArith Ascii String Reals Lra Lia Bool List.
From Flocq Require Import Core BinarySingleNaN.
From Verif Require Import ArithF Spec_Float Spec_Args M_Display M_Shortest.
From Verif Require Import L_ArithF L_Args.
Import ListNotations.
Open Scope R_scope.

Definition T (z : Z) : R := ten_to z.
Lemma T_pos : forall z, 0 < T z. Proof. intros z. apply bpow_gt_0. Qed.
Lemma T_plus : forall a b, T (a + b) = T a * T b. Proof. intros a b. apply bpow_plus. Qed.
Lemma T_le : forall a b, (a <= b)%Z -> T a <= T b. Proof. intros a b H. apply bpow_le. exact H. Qed.
Lemma T_IZR : forall z, (0 <= z)%Z -> T z = IZR (10 ^ z). Proof. exact ten_to_nonneg. Qed.
Lemma T_neg : forall z, (0 <= z)%Z -> T (- z) = / IZR (10 ^ z).
Proof. intros z H. unfold T, ten_to. rewrite bpow_opp. f_equal. exact (T_IZR z H). Qed.
Lemma T_0 : T 0 = 1. Proof. reflexivity. Qed.

Lemma ten_pos : forall z, (0 <= z)%Z -> (0 < 10 ^ z)%Z. Proof. intros z H. apply Z.pow_pos_nonneg; lia. Qed.

(** ** Powers of two and ten *)
Definition pow_leb (g l : Z) : bool := (10 ^ Z.max g 0 * 2 ^ Z.max (- l) 0 <=? 2 ^ Z.max l 0 * 10 ^ Z.max (- g) 0)%Z.
Definition pow_geb (g l : Z) : bool := (2 ^ Z.max l 0 * 10 ^ Z.max (- g) 0 <=? 10 ^ Z.max g 0 * 2 ^ Z.max (- l) 0)%Z.
Lemma T_split : forall z, T z = IZR (10 ^ Z.max z 0) / IZR (10 ^ Z.max (- z) 0).
Proof.
  intros z. destruct (Z_le_gt_dec 0 z) as [H|H].
  - rewrite Z.max_l, Z.max_r by lia. rewrite (T_IZR z H). change (10 ^ 0)%Z with 1%Z. field.
  - rewrite Z.max_r, Z.max_l by lia. replace z with (- (- z))%Z at 1 by lia. rewrite T_neg by lia. change (10 ^ 0)%Z with 1%Z. unfold Rdiv. ring.
Qed.
Lemma two_split : forall z, bpow radix2 z = IZR (2 ^ Z.max z 0) / IZR (2 ^ Z.max (- z) 0).
Proof.
  intros z. destruct (Z_le_gt_dec 0 z) as [H|H].
  - rewrite Z.max_l, Z.max_r by lia. change (2 ^ 0)%Z with 1%Z. rewrite <- (IZR_Zpower radix2 z H). change (radix_val radix2) with 2%Z. field.
  - rewrite Z.max_r, Z.max_l by lia. replace z with (- (- z))%Z at 1 by lia. rewrite bpow_opp, <- (IZR_Zpower radix2 (- z)) by lia. change (radix_val radix2) with 2%Z. change (2 ^ 0)%Z with 1%Z. unfold Rdiv. ring.
Qed.
Lemma frac_le : forall a b c d, 0 < b -> 0 < d -> a * d <= c * b -> a / b <= c / d.
Proof.
  intros a b c d B D H. apply (Rmult_le_reg_r (b * d)); [apply Rmult_lt_0_compat; assumption|].
  replace (a / b * (b * d)) with (a * d) by (field; lra). replace (c / d * (b * d)) with (c * b) by (field; lra). exact H.
Qed.
Lemma pw : forall (b z : Z), (0 < b)%Z -> (0 <= z)%Z -> 0 < IZR (b ^ z).
Proof. intros b z B H. apply IZR_lt, Z.pow_pos_nonneg; assumption. Qed.
Lemma pow_leb_ok : forall g l, pow_leb g l = true -> T g <= bpow radix2 l.
Proof.
  intros g l H. apply Z.leb_le, IZR_le in H. rewrite !mult_IZR in H. rewrite T_split, two_split. apply frac_le; [apply pw; lia|apply pw; lia|exact H].
Qed.
Lemma pow_geb_ok : forall g l, pow_geb g l = true -> bpow radix2 l <= T g.
Proof.
  intros g l H. apply Z.leb_le, IZR_le in H. rewrite !mult_IZR in H. rewrite T_split, two_split. apply frac_le; [apply pw; lia|apply pw; lia|exact H].
Qed.
Lemma kilo : forall n : nat, (n <= 108)%nat -> 1000 ^ n <= 1024 ^ n <= 16 * 1000 ^ n.
Proof.
  intros n H. split; [apply pow_incr; lra|]. replace (1024 ^ n) with ((128 / 125) ^ n * 1000 ^ n) by (rewrite <- Rpow_mult_distr; f_equal; lra).
  apply Rmult_le_compat_r; [apply pow_le; lra|]. apply Rle_trans with ((128 / 125) ^ 108); [apply Rle_pow; [lra|exact H]|].
  unfold Rdiv. rewrite Rpow_mult_distr, pow_inv. apply (Rmult_le_reg_r (125 ^ 108)); [apply pow_lt; lra|]. rewrite Rmult_assoc, Rinv_l, Rmult_1_r by (apply pow_nonzero; lra).
  rewrite !pow_IZR, <- mult_IZR. apply IZR_le. apply Z.leb_le. vm_compute. reflexivity.
Qed.
Lemma two_kilo : forall n : nat, bpow radix2 (10 * Z.of_nat n) = 1024 ^ n.
Proof. induction n as [|n IH]; [reflexivity|]. rewrite Nat2Z.inj_succ. replace (10 * Z.succ (Z.of_nat n))%Z with (10 + 10 * Z.of_nat n)%Z by lia. rewrite bpow_plus, IH. reflexivity. Qed.
Lemma ten_kilo : forall n : nat, T (3 * Z.of_nat n) = 1000 ^ n.
Proof. induction n as [|n IH]; [reflexivity|]. rewrite Nat2Z.inj_succ. replace (3 * Z.succ (Z.of_nat n))%Z with (3 + 3 * Z.of_nat n)%Z by lia. rewrite T_plus, IH. reflexivity. Qed.
Lemma guesses : forall a, (-108 <= a <= 102)%Z -> T (3 * a) <= bpow radix2 (10 * a + 4) /\ bpow radix2 (10 * a) <= T (3 * a + 2).
Proof.
  intros a H. rewrite T_plus, bpow_plus. change (T 2) with 100. change (bpow radix2 4) with 16. destruct (Z_le_gt_dec 0 a) as [C|C].
  - replace a with (Z.of_nat (Z.to_nat a)) by lia. rewrite two_kilo, ten_kilo. pose proof (kilo (Z.to_nat a) ltac:(lia)) as K. assert (0 < 1000 ^ Z.to_nat a) by (apply pow_lt; lra). lra.
  - replace a with (- Z.of_nat (Z.to_nat (- a)))%Z by lia. rewrite !Z.mul_opp_r. unfold T at 1 2, ten_to. rewrite !bpow_opp. rewrite two_kilo. change (bpow _ (3 * Z.of_nat (Z.to_nat (- a)))) with (T (3 * Z.of_nat (Z.to_nat (- a)))). rewrite ten_kilo.
    pose proof (kilo (Z.to_nat (- a)) ltac:(lia)) as K. assert (P : 0 < 1000 ^ Z.to_nat (- a)) by (apply pow_lt; lra). set (u := 1000 ^ _) in *. set (w := 1024 ^ _) in *. clearbody u w.
    split.
    + apply (Rmult_le_reg_r (u * w)); [nra|]. replace (/ u * (u * w)) with w by (field; lra). replace (/ w * 16 * (u * w)) with (16 * u) by (field; lra). lra.
    + apply (Rmult_le_reg_r (u * w)); [nra|]. replace (/ w * (u * w)) with u by (field; lra). replace (/ u * 100 * (u * w)) with (100 * w) by (field; lra). lra.
Qed.
Lemma guess_bounds : forall l, (-1074 <= l <= 1023)%Z -> T (guess l) <= bpow radix2 l /\ bpow radix2 (l + 1) <= T (guess l + 8).
Proof.
  intros l H. pose proof (Z.div_mod l 10 ltac:(lia)) as DM. pose proof (Z.mod_pos_bound l 10 ltac:(lia)) as MB. set (a := (l / 10)%Z) in *. set (b := (l mod 10)%Z) in *.
  assert (AB : (-108 <= a <= 102)%Z) by lia.
  destruct (guesses a AB) as [A B].
  assert (GE : guess l = (3 * a + (b * 3 / 10 - 2))%Z).
  { unfold guess. rewrite DM. replace ((10 * a + b) * 3)%Z with (b * 3 + (3 * a) * 10)%Z by ring. rewrite Z.div_add by lia. lia. }
  rewrite GE. clearbody a b. subst l. clear GE H AB. split.
  - rewrite T_plus. replace (10 * a + b)%Z with ((10 * a + 4) + (b - 4))%Z by ring. rewrite (bpow_plus radix2 (10 * a + 4)). apply Rmult_le_compat; try (apply Rlt_le, T_pos); [exact A|].
    apply pow_leb_ok. assert (b = 0 \/ b = 1 \/ b = 2 \/ b = 3 \/ b = 4 \/ b = 5 \/ b = 6 \/ b = 7 \/ b = 8 \/ b = 9)%Z as K by lia.
    decompose [or] K; subst b; reflexivity.
  - replace (10 * a + b + 1)%Z with (10 * a + (b + 1))%Z by ring. rewrite bpow_plus. replace (3 * a + (b * 3 / 10 - 2) + 8)%Z with ((3 * a + 2) + (b * 3 / 10 + 4))%Z by ring. rewrite T_plus.
    apply Rmult_le_compat; try (apply bpow_ge_0); [exact B|].
    apply pow_geb_ok. assert (b = 0 \/ b = 1 \/ b = 2 \/ b = 3 \/ b = 4 \/ b = 5 \/ b = 6 \/ b = 7 \/ b = 8 \/ b = 9)%Z as K by lia.
    decompose [or] K; subst b; reflexivity.
Qed.

(** ** Fractions *)
Lemma in_units_ok : forall N D s a b, (0 < D)%Z -> in_units N D s = (a, b) -> (0 < b)%Z /\ IZR N / IZR D = IZR a / IZR b * T s.
Proof.
  intros N D s a b HD. unfold in_units. destruct (Z.leb_spec 0 s) as [H|H]; intros E; injection E as <- <-.
  - split; [apply Z.mul_pos_pos; [exact HD|apply ten_pos; exact H]|]. rewrite mult_IZR, (T_IZR s H). assert (0 < IZR D) by (apply IZR_lt; exact HD).
    assert (0 < IZR (10 ^ s)) by (apply pw; lia). field; lra.
  - split; [exact HD|]. rewrite mult_IZR. replace s with (- (- s))%Z at 2 by lia. rewrite T_neg by lia. assert (0 < IZR D) by (apply IZR_lt; exact HD).
    assert (0 < IZR (10 ^ (- s))) by (apply pw; lia). field; lra.
Qed.

Lemma frac_lt : forall a b c, (0 < b)%Z -> 0 < c -> ((a < b)%Z <-> IZR a / IZR b * c < c).
Proof.
  intros a b c B C. assert (P : 0 < IZR b) by (apply IZR_lt; exact B). split; intros H.
  - apply IZR_lt in H. apply (Rmult_lt_reg_r (/ c)); [apply Rinv_0_lt_compat; exact C|]. replace (IZR a / IZR b * c * / c) with (IZR a / IZR b) by (field; lra).
    rewrite Rinv_r by lra. apply (Rmult_lt_reg_r (IZR b)); [exact P|]. replace (IZR a / IZR b * IZR b) with (IZR a) by (field; lra). lra.
  - apply lt_IZR. apply (Rmult_lt_compat_r (/ c)) in H; [|apply Rinv_0_lt_compat; exact C]. replace (IZR a / IZR b * c * / c) with (IZR a / IZR b) in H by (field; lra).
    rewrite Rinv_r in H by lra. apply (Rmult_lt_compat_r (IZR b)) in H; [|exact P]. replace (IZR a / IZR b * IZR b) with (IZR a) in H by (field; lra). lra.
Qed.

Lemma least_ok : forall N D, (0 < D)%Z -> forall fuel k, T (k - 1) <= IZR N / IZR D -> IZR N / IZR D < T (k + Z.of_nat fuel) ->
  T (least_power fuel N D k - 1) <= IZR N / IZR D < T (least_power fuel N D k).
Proof.
  intros N D HD. induction fuel as [|f IH]; intros k L U.
  - cbn [least_power]. rewrite Z.add_0_r in U. split; assumption.
  - cbn [least_power]. destruct (in_units N D k) as [a b] eqn:E. destruct (in_units_ok _ _ _ _ _ HD E) as [B V].
    destruct (Z.ltb_spec a b) as [C|C].
    + split; [exact L|]. rewrite V. apply (frac_lt a b (T k) B (T_pos k)). exact C.
    + apply IH; [|replace (k + 1 + Z.of_nat f)%Z with (k + Z.of_nat (S f))%Z by lia; exact U].
      replace (k + 1 - 1)%Z with k by lia. apply Rnot_lt_le. rewrite V. intros H. apply (frac_lt a b (T k) B (T_pos k)) in H. lia.
Qed.

(** ** Spacing of the binary64 numbers *)
Lemma ulp_big : forall v, 0 < v -> v < bpow radix2 53 * ulp radix2 fx v.
Proof.
  intros v H. rewrite ulp_neq_0 by lra. rewrite <- bpow_plus. eapply Rlt_le_trans; [|apply bpow_le].
  - pose proof (bpow_mag_gt radix2 v) as G. rewrite Rabs_pos_eq in G by lra. exact G.
  - unfold cexp, FLT_exp. lia.
Qed.
Lemma spacing : forall v f, format v -> format f -> 0 < v -> f <> v -> v <= bpow radix2 53 * Rabs (f - v).
Proof.
  intros v f Fv Ff V N. destruct (Rle_or_lt f v) as [L|L].
  - assert (L' : f < v) by lra. clear N. rewrite Rabs_left1 by lra.
    pose proof (pred_ge_gt radix2 fx f v Ff Fv L') as P. set (p := pred radix2 fx v) in *. assert (Fp : format p) by (apply generic_format_pred; [exact fx_valid|exact Fv]).
    assert (SP : succ radix2 fx p = v) by (apply succ_pred; [exact fx_valid|exact Fv]).
    assert (P0 : 0 <= p) by (apply pred_ge_0; [exact fx_valid|exact V|exact Fv]).
    rewrite succ_eq_pos in SP by exact P0. destruct (Req_dec p 0) as [Z|NZ].
    + assert (v <= - (f - v)) by lra. assert (1 <= bpow radix2 53) by (apply (bpow_le radix2 0 53); lia). nra.
    + assert (PP : 0 < p) by lra. pose proof (id_p_ulp_le_bpow radix2 fx p (mag radix2 p) PP Fp) as B.
      assert (M : p < bpow radix2 (mag radix2 p)) by (pose proof (bpow_mag_gt radix2 p) as G; rewrite Rabs_pos_eq in G by lra; exact G).
      specialize (B M). rewrite SP in B. assert (U : bpow radix2 (mag radix2 p) <= bpow radix2 53 * ulp radix2 fx p).
      { rewrite ulp_neq_0 by exact NZ. rewrite <- bpow_plus. apply bpow_le. unfold cexp, FLT_exp. lia. }
      assert (ulp radix2 fx p <= - (f - v)) by lra. assert (0 < bpow radix2 53) by apply bpow_gt_0. nra.
  - rewrite Rabs_pos_eq by lra. pose proof (succ_le_lt radix2 fx v f Fv Ff L) as P. rewrite succ_eq_pos in P by lra.
    pose proof (ulp_big v V) as U. assert (0 < bpow radix2 53) by apply bpow_gt_0. nra.
Qed.

Lemma rnd_close : forall v d, format v -> 0 < v -> Rabs (d - v) < v * bpow radix2 (-54) -> rnd d = v.
Proof.
  intros v d Fv V H. destruct (Req_dec (rnd d) v) as [E|N]; [exact E|exfalso].
  pose proof (round_N_pt radix2 fx (fun n => negb (Z.even n)) d) as [Ff NP]. fold ZnearestE in *.
  specialize (NP v Fv). pose proof (spacing v _ Fv Ff V N) as S. 
  pose proof (Rabs_triang (rnd d - d) (d - v)) as Tr. replace (rnd d - d + (d - v)) with (rnd d - v) in Tr by ring.
  rewrite (Rabs_minus_sym v d) in NP.
  assert (E : bpow radix2 53 * (v * bpow radix2 (-54)) = v / 2).
  { change (-54)%Z with (-53 + -1)%Z. rewrite bpow_plus. change (bpow radix2 (-53)) with (/ bpow radix2 53). assert (0 < bpow radix2 53) by apply bpow_gt_0.
    change (bpow radix2 (-1)) with (/ 2). field. lra. }
  assert (0 < bpow radix2 53) by apply bpow_gt_0. set (A := Rabs (d - v)) in *. set (C := Rabs (rnd d - v)) in *. set (G := Rabs (rnd d - d)) in *. clearbody A C G. nra.
Qed.

(** ** The search *)
Section Search.
Variables (m : positive) (e : Z) (B : SpecFloat.bounded 53%Z 1024%Z m e = true).
Notation x := (B754_finite false m e B : b64).
Notation v := (B2R x).
Notation N := (numer m e).
Notation D := (denom e).

Lemma D_pos : (0 < D)%Z. Proof. apply Z.pow_pos_nonneg; lia. Qed.
Lemma v_eq : v = IZR (Zpos m) * bpow radix2 e. Proof. reflexivity. Qed.
Lemma v_frac : v = IZR N / IZR D.
Proof. rewrite v_eq, two_split. unfold numer, denom. rewrite mult_IZR. unfold Rdiv. ring. Qed.
Lemma v_pos : 0 < v. Proof. rewrite v_eq. apply Rmult_lt_0_compat; [apply IZR_lt; lia|apply bpow_gt_0]. Qed.
Lemma v_format : format v. Proof. apply format_B2R. Qed.

Definition K : Z := least_power 8 N D (guess (Z.log2 (Zpos m) + e)).

Lemma l_range : (-1074 <= Z.log2 (Zpos m) + e <= 1023)%Z /\ bpow radix2 (Z.log2 (Zpos m) + e) <= v < bpow radix2 (Z.log2 (Zpos m) + e + 1).
Proof.
  assert (L : (2 ^ Z.log2 (Zpos m) <= Zpos m < 2 ^ (Z.log2 (Zpos m) + 1))%Z) by (pose proof (Z.log2_spec (Zpos m) ltac:(lia)) as S; rewrite Z.add_1_r; exact S).
  pose proof (Z.log2_nonneg (Zpos m)) as L0. set (l := Z.log2 (Zpos m)) in *. clearbody l.
  assert (E : (-1074 <= e)%Z).
  { pose proof B as B'. apply andb_prop in B'. destruct B' as [C _]. unfold SpecFloat.canonical_mantissa in C. apply Zeq_bool_eq in C. unfold SpecFloat.fexp, SpecFloat.emin in C. lia. }
  assert (V : bpow radix2 (l + e) <= v < bpow radix2 (l + e + 1)).
  { rewrite v_eq. destruct L as [L1 L2]. apply IZR_le in L1. apply IZR_lt in L2. assert (0 < bpow radix2 e) by apply bpow_gt_0.
    replace (l + e + 1)%Z with (l + 1 + e)%Z by ring. rewrite (bpow_plus radix2 l e), (bpow_plus radix2 (l + 1) e). rewrite <- (IZR_Zpower radix2 l), <- (IZR_Zpower radix2 (l + 1)) by lia.
    change (radix_val radix2) with 2%Z. split; [apply Rmult_le_compat_r; lra|apply Rmult_lt_compat_r; lra]. }
  split; [|exact V]. split; [lia|]. pose proof (abs_B2R_lt_emax 53 1024 x) as X. rewrite Rabs_pos_eq in X by (pose proof v_pos; lra).
  assert (bpow radix2 (l + e) < bpow radix2 1024) as Y by lra. apply lt_bpow in Y. lia.
Qed.

Lemma K_ok : T (K - 1) <= v < T K.
Proof.
  destruct l_range as [R V]. destruct (guess_bounds _ R) as [G1 G2]. unfold K. rewrite v_frac in *. apply least_ok; [exact D_pos| |].
  - eapply Rle_trans; [apply T_le with (b := guess (Z.log2 (Zpos m) + e)); lia|]. lra.
  - change (Z.of_nat 8) with 8%Z. lra.
Qed.

Definition val (c : Z * Z) : R := IZR (fst c) * T (snd c).

Lemma reads_near : forall d s, (0 <= d)%Z -> (reads_as m e (d, s) = true <-> nearest_to false d s x).
Proof.
  intros d s P. pose proof (Flit_nearest d s P) as F. unfold reads_as. cbn [fst snd]. split; intros H.
  - replace x with (Flit d s); [exact F|]. destruct (Flit d s) as [z|z| |z m' e' B']; try discriminate H. destruct z; [discriminate H|].
    apply andb_prop in H. destruct H as [H1 H2]. apply Pos.eqb_eq in H1. apply Z.eqb_eq in H2. apply B2SF_inj. cbn [B2SF]. congruence.
  - rewrite (nearest_unique _ _ _ _ _ F H). rewrite Pos.eqb_refl, Z.eqb_refl. reflexivity.
Qed.
Lemma near_rnd : forall d s, nearest_to false d s x <-> rnd (val (d, s)) = v.
Proof.
  intros d s. unfold nearest_to, val. cbv zeta. cbn [fst snd]. rewrite Rmult_1_l. change (ten_to s) with (T s). set (w := rnd _). clearbody w. split.
  - intros [_ [(_ & _ & E)|(_ & E)]]; [symmetry; exact E|discriminate E].
  - intros ->. split; [reflexivity|]. left. split; [apply abs_B2R_lt_emax|]. split; reflexivity.
Qed.
Lemma reads_rnd : forall d s, (0 <= d)%Z -> (reads_as m e (d, s) = true <-> rnd (val (d, s)) = v).
Proof. intros d s P. rewrite (reads_near d s P). apply near_rnd. Qed.

(** The two neighbours with n digits. *)
Definition Q (n : Z) : Z := let '(a, b) := in_units N D (K - n) in (a / b)%Z.
Definition lo (n : Z) : R := IZR (Q n) * T (K - n).
Definition hi (n : Z) : R := IZR (Q n + 1) * T (K - n).

Lemma Q_ok : forall n, lo n <= v < hi n.
Proof.
  intros n. unfold lo, hi, Q. destruct (in_units N D (K - n)) as [a b] eqn:E. destruct (in_units_ok _ _ _ _ _ D_pos E) as [Bb V]. rewrite <- v_frac in V.
  rewrite V. assert (P : 0 < IZR b) by (apply IZR_lt; exact Bb). pose proof (T_pos (K - n)) as TP.
  pose proof (Z.div_mod a b ltac:(lia)) as DM. pose proof (Z.mod_pos_bound a b Bb) as MB. apply (f_equal IZR) in DM. rewrite plus_IZR, mult_IZR in DM.
  destruct MB as [M1 M2]. apply IZR_le in M1. apply IZR_lt in M2. rewrite plus_IZR.
  set (q := IZR (a / b)) in *. set (r := IZR (a mod b)) in *. clearbody q r. assert (QV : IZR a / IZR b = q + r / IZR b) by (rewrite DM; field; lra).
  assert (0 <= r / IZR b < 1).
  { split; [apply Rmult_le_pos; [exact M1|left; apply Rinv_0_lt_compat; exact P]|]. apply (Rmult_lt_reg_r (IZR b)); [exact P|]. replace (r / IZR b * IZR b) with r by (field; lra). lra. }
  rewrite QV. split; [apply Rmult_le_compat_r; lra|apply Rmult_lt_compat_r; lra].
Qed.
Lemma Q_range : forall n, (1 <= n)%Z -> (10 ^ (n - 1) <= Q n < 10 ^ n)%Z.
Proof.
  intros n H. pose proof (Q_ok n) as [L U]. destruct K_ok as [K1 K2]. pose proof (T_pos (K - n)) as TP. unfold lo, hi in *. split.
  - apply Z.lt_succ_r. apply lt_IZR. apply (Rmult_lt_reg_r (T (K - n))); [exact TP|]. rewrite <- T_IZR, <- T_plus by lia. replace (n - 1 + (K - n))%Z with (K - 1)%Z by ring.
    unfold Z.succ. lra.
  - apply lt_IZR. apply (Rmult_lt_reg_r (T (K - n))); [exact TP|]. rewrite <- T_IZR, <- T_plus by lia. replace (n + (K - n))%Z with K by ring. lra.
Qed.

(** Every number of at most n digits is on one side of the neighbours. *)
Lemma sandwich : forall n d s, (1 <= n)%Z -> (0 <= d < 10 ^ n)%Z -> val (d, s) <= lo n \/ hi n <= val (d, s).
Proof.
  intros n d s H Hd. unfold val, lo, hi. cbn [fst snd]. pose proof (T_pos (K - n)) as TP. destruct (Z_le_gt_dec (K - n) s) as [S|S].
  - replace s with ((s - (K - n)) + (K - n))%Z by ring. rewrite T_plus, (T_IZR (s - (K - n))) by lia. rewrite <- Rmult_assoc, <- mult_IZR.
    set (z := (d * 10 ^ (s - (K - n)))%Z). clearbody z. destruct (Z_le_gt_dec z (Q n)) as [C|C]; [left|right]; apply Rmult_le_compat_r; try lra; apply IZR_le; lia.
  - left. pose proof (Q_range n H) as [L _]. apply Rle_trans with (IZR (10 ^ (n - 1)) * T (K - n)); [|apply Rmult_le_compat_r; [lra|apply IZR_le; exact L]].
    rewrite <- (T_IZR (n - 1)) by lia. rewrite <- T_plus. replace (n - 1 + (K - n))%Z with (n + (K - n - 1))%Z by ring. rewrite T_plus, (T_IZR n) by lia.
    apply Rmult_le_compat; [apply IZR_le; lia|apply Rlt_le, T_pos|apply IZR_le; lia|apply T_le; lia].
Qed.

Lemma rnd_v : rnd v = v. Proof. apply round_generic; [apply valid_rnd_N|exact v_format]. Qed.
Lemma rnd_mono : forall a b, a <= b -> rnd a <= rnd b. Proof. intros a b H. apply round_le; [exact fx_valid|apply valid_rnd_N|exact H]. Qed.

Lemma side : forall n d s, (1 <= n)%Z -> (0 <= d < 10 ^ n)%Z -> rnd (val (d, s)) = v ->
  (rnd (lo n) = v /\ Rabs (lo n - v) <= Rabs (val (d, s) - v)) \/ (rnd (hi n) = v /\ Rabs (hi n - v) <= Rabs (val (d, s) - v)).
Proof.
  intros n d s H Hd R. pose proof (Q_ok n) as [L U]. destruct (sandwich n d s H Hd) as [C|C]; [left|right].
  - split; [|rewrite !Rabs_left1 by lra; lra]. pose proof (rnd_mono _ _ C). pose proof (rnd_mono _ _ L) as M. rewrite rnd_v in M. lra.
  - split; [|rewrite !Rabs_pos_eq by lra; lra]. pose proof (rnd_mono _ _ C). pose proof (rnd_mono _ _ (Rlt_le _ _ U)) as M. rewrite rnd_v in M. lra.
Qed.

Lemma with_digits_ok : forall tie n, (1 <= n)%Z ->
  match with_digits tie m e K n with
  | None => rnd (lo n) <> v /\ rnd (hi n) <> v
  | Some c => rnd (val c) = v /\ (0 < fst c < 10 ^ n)%Z /\
      (rnd (lo n) = v -> Rabs (val c - v) <= Rabs (lo n - v)) /\ (rnd (hi n) = v -> Rabs (val c - v) <= Rabs (hi n - v))
  end.
Proof.
  intros tie n H. pose proof (Q_range n H) as QR. pose proof (Q_ok n) as [L U]. unfold with_digits.
  destruct (in_units N D (K - n)) as [a b] eqn:E. assert (QE : (a / b)%Z = Q n) by (unfold Q; rewrite E; reflexivity).
  destruct (in_units_ok _ _ _ _ _ D_pos E) as [Bb V]. rewrite <- v_frac in V. rewrite QE.
  set (ch := if (Q n + 1 =? 10 ^ n)%Z then (1, K)%Z else (Q n + 1, K - n)%Z).
  assert (P1 : (0 < 10 ^ (n - 1))%Z) by (apply ten_pos; lia). assert (P2 : (10 ^ n = 10 * 10 ^ (n - 1))%Z) by (rewrite <- Z.pow_succ_r by lia; f_equal; lia).
  assert (CH : (0 < fst ch < 10 ^ n)%Z /\ val ch = hi n).
  { unfold ch, val, hi. destruct (Z.eqb_spec (Q n + 1) (10 ^ n)) as [C|C]; cbn [fst snd].
    - split; [lia|]. rewrite C, <- T_IZR, <- T_plus by lia. replace (n + (K - n))%Z with K by ring. lra.
    - split; [lia|reflexivity]. }
  destruct CH as [CR CV]. assert (LV : val (Q n, (K - n)%Z) = lo n) by reflexivity.
  pose proof (reads_rnd (Q n) (K - n) ltac:(lia)) as RL. rewrite LV in RL.
  assert (RH : reads_as m e ch = true <-> rnd (hi n) = v) by (rewrite <- CV; destruct ch as [d s]; apply reads_rnd; cbn [fst] in CR; lia).
  clearbody ch.
  assert (GAP : v - lo n = IZR (a mod b) / IZR b * T (K - n) /\ hi n - v = IZR (b - a mod b) / IZR b * T (K - n)).
  { unfold lo, hi. rewrite V, <- QE. assert (0 < IZR b) by (apply IZR_lt; exact Bb). pose proof (Z.div_mod a b ltac:(lia)) as DM. apply (f_equal IZR) in DM. rewrite plus_IZR, mult_IZR in DM.
    rewrite plus_IZR, minus_IZR. set (q := IZR (a / b)) in *. set (r := IZR (a mod b)) in *. clearbody q r. rewrite DM. split; field; lra. }
  destruct GAP as [GL GH]. assert (UP : 0 < T (K - n) / IZR b) by (apply Rmult_lt_0_compat; [apply T_pos|apply Rinv_0_lt_compat, IZR_lt; exact Bb]).
  replace (IZR (a mod b) / IZR b * T (K - n)) with (IZR (a mod b) * (T (K - n) / IZR b)) in GL by (unfold Rdiv; ring).
  replace (IZR (b - a mod b) / IZR b * T (K - n)) with (IZR (b - a mod b) * (T (K - n) / IZR b)) in GH by (unfold Rdiv; ring).
  assert (AL : Rabs (lo n - v) = v - lo n) by (rewrite Rabs_left1 by lra; lra). assert (AH : Rabs (hi n - v) = hi n - v) by (apply Rabs_pos_eq; lra).
  assert (CMP : match (2 * (a mod b) ?= b)%Z with Lt => v - lo n <= hi n - v | Gt => hi n - v <= v - lo n | Eq => v - lo n = hi n - v end).
  { destruct (Z.compare_spec (2 * (a mod b)) b) as [C|C|C]; rewrite GL, GH; [f_equal; f_equal; lia|..]; (apply Rmult_le_compat_r; [lra|apply IZR_le; lia]). }
  assert (QP : (0 < fst (Q n, (K - n)%Z) < 10 ^ n)%Z) by (cbn [fst]; lia).
  destruct (reads_as m e (Q n, (K - n)%Z)) eqn:E1; destruct (reads_as m e ch) eqn:E2.
  - assert (R1 : rnd (lo n) = v) by (apply RL; reflexivity). assert (R2 : rnd (hi n) = v) by (apply RH; reflexivity).
    assert (forall c, c = (Q n, (K - n)%Z) /\ v - lo n <= hi n - v \/ c = ch /\ hi n - v <= v - lo n -> rnd (val c) = v /\ (0 < fst c < 10 ^ n)%Z /\
      (rnd (lo n) = v -> Rabs (val c - v) <= Rabs (lo n - v)) /\ (rnd (hi n) = v -> Rabs (val c - v) <= Rabs (hi n - v))) as G.
    { intros c [[-> O]|[-> O]]; [rewrite LV|rewrite CV]; (split; [assumption|]; split; [assumption|]; rewrite AL, AH; split; intros _; lra). }
    apply G. destruct (2 * (a mod b) ?= b)%Z; [destruct (tie (Q n)); [right|left]|left|right]; split; try reflexivity; lra.
  - rewrite LV. assert (rnd (lo n) = v) by (apply RL; reflexivity). split; [assumption|]. split; [exact QP|]. split; [intros _; lra|]. intros R. apply RH in R. discriminate R.
  - rewrite CV. assert (rnd (hi n) = v) by (apply RH; reflexivity). split; [assumption|]. split; [exact CR|]. split; [|intros _; lra]. intros R. apply RL in R. discriminate R.
  - split; intros R; [apply RL in R|apply RH in R]; discriminate R.
Qed.

(** Seventeen digits always suffice. *)
Lemma seventeen : rnd (lo 17) = v \/ rnd (hi 17) = v.
Proof.
  pose proof (Q_ok 17) as [L U]. assert (W : hi 17 - lo 17 = T (K - 17)) by (unfold lo, hi; rewrite plus_IZR; ring).
  assert (S : T (K - 17) <= v / 10 ^ 16).
  { destruct K_ok as [K1 _]. replace (K - 17)%Z with ((K - 1) + - (16))%Z by ring. rewrite T_plus, T_neg by lia. apply Rmult_le_compat; [apply Rlt_le, T_pos|left; apply Rinv_0_lt_compat, pw; lia|exact K1|].
    right. f_equal. rewrite pow_IZR. reflexivity. }
  assert (HB : bpow radix2 (-54) = / 18014398509481984) by reflexivity. pose proof v_pos as VP.
  destruct (Rle_or_lt (v - lo 17) (hi 17 - v)) as [C|C]; [left|right]; apply rnd_close; try exact v_format; try exact VP; rewrite HB.
  - rewrite Rabs_left1 by lra. lra.
  - rewrite Rabs_pos_eq by lra. lra.
Qed.

Lemma fewest_ok : forall tie left n, (1 <= left)%nat -> n = (18 - Z.of_nat left)%Z ->
  exists j, (n <= j <= 17)%Z /\ with_digits tie m e K j = Some (fewest tie left m e K n) /\ forall i, (n <= i < j)%Z -> with_digits tie m e K i = None.
Proof.
  intros tie left. induction left as [|l IH]; intros n L E; [lia|]. cbn [fewest]. destruct (with_digits tie m e K n) as [c|] eqn:W.
  - exists n. split; [lia|]. split; [exact W|]. intros i I. lia.
  - destruct l as [|l].
    + exfalso. pose proof (with_digits_ok tie 17 ltac:(lia)) as W17. assert (E17 : n = 17%Z) by lia. rewrite E17 in W. rewrite W in W17. destruct seventeen; tauto.
    + destruct (IH (n + 1)%Z ltac:(lia) ltac:(lia)) as (j & J1 & J2 & J3). exists j. split; [lia|]. split; [exact J2|]. intros i I. destruct (Z.eq_dec i n) as [->|]; [exact W|apply J3; lia].
Qed.

Lemma shortest_ok : forall tie, let c := shortest_decimal tie m e in exists j, (1 <= j <= 17)%Z /\ (10 ^ (j - 1) <= fst c < 10 ^ j)%Z /\ (fst c mod 10 <> 0)%Z /\
  nearest_to false (fst c) (snd c) x /\
  (forall d s, (0 <= d)%Z -> nearest_to false d s x -> (10 ^ (j - 1) <= d)%Z) /\
  (forall d s, (0 <= d < 10 ^ j)%Z -> nearest_to false d s x -> Rabs (IZR (fst c) * ten_to (snd c) - v) <= Rabs (IZR d * ten_to s - v)).
Proof.
  intros tie. unfold shortest_decimal. fold K. destruct (fewest_ok tie 17 1 ltac:(lia) ltac:(lia)) as (j & J1 & J2 & J3). cbv zeta.
  set (c := fewest tie 17 m e K 1) in *. clearbody c. pose proof (with_digits_ok tie j ltac:(lia)) as W. rewrite J2 in W. destruct W as (R & RG & CL & CH).
  assert (MIN : forall d s, (0 <= d)%Z -> nearest_to false d s x -> (10 ^ (j - 1) <= d)%Z).
  { intros d s P NR. apply near_rnd in NR. destruct (Z_le_gt_dec (10 ^ (j - 1)) d) as [|G]; [assumption|exfalso]. destruct (Z.eq_dec j 1) as [->|NJ].
    - change (10 ^ (1 - 1))%Z with 1%Z in G. assert (d = 0%Z) by lia. subst d. unfold val in NR. cbn [fst snd] in NR. rewrite Rmult_0_l, round_0 in NR by apply valid_rnd_N. pose proof v_pos. lra.
    - pose proof (with_digits_ok tie (j - 1) ltac:(lia)) as W. rewrite (J3 (j - 1)%Z ltac:(lia)) in W. destruct (side (j - 1) d s ltac:(lia) ltac:(lia) NR); tauto. }
  destruct c as [d s]. cbn [fst snd] in *. assert (NR : nearest_to false d s x) by (apply near_rnd; exact R).
  exists j. split; [lia|]. split; [split; [exact (MIN d s ltac:(lia) NR)|lia]|]. split; [|split; [exact NR|split; [exact MIN|]]].
  - intros M. pose proof (Z.div_mod d 10 ltac:(lia)) as DM. rewrite M in DM. set (d' := (d / 10)%Z) in *. clearbody d'.
    assert (NR' : nearest_to false d' (s + 1) x).
    { apply near_rnd. rewrite <- R. f_equal. unfold val. cbn [fst snd]. rewrite T_plus, DM, Z.add_0_r, mult_IZR. change (T 1) with 10. ring. }
    pose proof (MIN d' (s + 1)%Z ltac:(lia) NR'). assert ((10 ^ j = 10 * 10 ^ (j - 1))%Z) by (rewrite <- Z.pow_succ_r by lia; f_equal; lia). lia.
  - intros d' s' P NR'. apply near_rnd in NR'. change (ten_to s) with (T s). change (ten_to s') with (T s').
    change (IZR d * T s) with (val (d, s)). change (IZR d' * T s') with (val (d', s')). destruct (side j d' s' ltac:(lia) P NR') as [[A C]|[A C]]; [specialize (CL A)|specialize (CH A)]; lra.
Qed.
End Search.
