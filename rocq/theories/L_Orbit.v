(** * The Earth series compared with the elliptic orbit *)

From Coq Require Import ZArith Reals Lra Lia Bool List.
From Flocq Require Import Core.
From Verif Require Import Outcome Arith ArithR M_Common M_Time M_Earth T_Epv00 Spec_Matrix Spec_Frames Spec_Series Spec_Orbit.
From Verif Require Import L_ArithR L_Series L_SeriesR L_Matrix L_Pi L_Epv L_Kepler.
Import ListNotations.
Open Scope R_scope.

Lemma cos_lip : forall x y, Rabs (cos x - cos y) <= Rabs (x - y).
Proof.
  intros x y. rewrite !cos_sin. eapply Rle_trans; [apply sin_lip|]. apply Req_le. f_equal. ring.
Qed.

Definition trm (k j : nat) (t : R) : R := rl (getd E0 0 j k) * cos (rl (getd E0 1 j k) + rl (getd E0 2 j k) * t).

Lemma helio_split4 : forall k t l, seq 0 (nn NE0 k) = 0%nat :: 1%nat :: 2%nat :: 3%nat :: l ->
  Rabs (fst (helio_st realA k t) - (trm k 0 t + trm k 1 t + trm k 2 t + trm k 3 t)) <=
  amp E0 k l + Rabs t * amp E1 k (seq 0 (nn NE1 k)) + t * t * amp E2 k (seq 0 (nn NE2 k)).
Proof.
  intros k t l E. unfold helio_st. rewrite E. cbn [fold_left].
  set (i4 := f0 realA E0 k t _ 3).
  assert (F : fst i4 = trm k 0 t + trm k 1 t + trm k 2 t + trm k 3 t).
  { unfold i4, f0. cbn [fst]. realA_ops. rewrite (Rlit_0 0). unfold trm, rl. ring. }
  clearbody i4. 
  pose proof (f0_bound E0 k t l i4) as B0. set (s0 := fold_left (f0 realA E0 k t) l i4) in *.
  pose proof (f1_bound E1 k t (seq 0 (nn NE1 k)) s0) as B1. set (s1 := fold_left _ _ s0) in *.
  pose proof (f2_bound E2 k t (seq 0 (nn NE2 k)) s1) as B2. set (s2 := fold_left _ _ s1) in *.
  rewrite F in B0. apply Rabs_le_inv in B0. apply Rabs_le_inv in B1. apply Rabs_le_inv in B2. apply Rabs_le. lra.
Qed.

Lemma trm_R : forall k j t m0 p0 m1 p1 m2 p2,
  getd E0 0 j k = (m0, Zneg p0) -> getd E0 1 j k = (m1, Zneg p1) -> getd E0 2 j k = (m2, Zneg p2) ->
  trm k j t = IZR m0 / IZR (Z.pow_pos 10 p0) * cos (IZR m1 / IZR (Z.pow_pos 10 p1) + IZR m2 / IZR (Z.pow_pos 10 p2) * t).
Proof. intros k j t m0 p0 m1 p1 m2 p2 A B C. unfold trm, rl. rewrite A, B, C. reflexivity. Qed.
Lemma trm_C : forall k j t m0 p0,
  getd E0 0 j k = (m0, Zneg p0) -> getd E0 1 j k = (0, 0)%Z -> getd E0 2 j k = (0, 0)%Z -> trm k j t = IZR m0 / IZR (Z.pow_pos 10 p0).
Proof.
  intros k j t m0 p0 A B C. unfold trm, rl. rewrite A, B, C. cbn [fst snd]. rewrite (Rlit_0 0).
  replace (0 + 0 * t) with 0 by ring. rewrite cos_0, Rmult_1_r. reflexivity.
Qed.

Ltac pows := change (Z.pow_pos 10 11) with 100000000000%Z in *; change (Z.pow_pos 10 12) with 1000000000000%Z in *;
  change (Z.pow_pos 10 13) with 10000000000000%Z in *; change (Z.pow_pos 10 14) with 100000000000000%Z in *;
  change (Z.pow_pos 10 15) with 1000000000000000%Z in *; change (Z.pow_pos 10 16) with 10000000000000000%Z in *.

Lemma amps4 : amp E0 0 (seq 4 497) <= IZR 285100000 / 1000000000000 /\ amp E0 1 (seq 4 497) <= IZR 290000000 / 1000000000000.
Proof. split; apply amp_le; vm_compute; reflexivity. Qed.

Lemma amp_nonneg : forall tab k l, 0 <= amp tab k l.
Proof.
  intros tab k l. unfold amp, sumR. induction l as [|j l IH]; cbn [fold_right]; [lra|]. pose proof (Rabs_pos (rl (getd tab 0 j k))). lra.
Qed.

(** The four main terms of x and y plus a remainder. *)
Lemma helio_main : forall t, Rabs t <= 100 ->
  Rabs (fst (helio_st realA 0 t) - (0.9998292878132 * cos (1.753485171504 + 6.283075850446 * t) +
     0.008352579567414 * cos (1.710344404582 + 12.56615170089 * t) + 0.005611445335148 +
     0.0001046664295572 * cos (1.66722541677 + 18.84922755134 * t))) <= 0.0004661 /\
  Rabs (fst (helio_st realA 1 t) - (0.9998921098898 * cos (0.1826583913846 + 6.283075850446 * t) +
     - 0.02442700893735 + 0.008352929742915 * cos (0.139527799868 + 12.56615170089 * t) +
     0.0001046697300177 * cos (0.09641423109763 + 18.84922755134 * t))) <= 0.000441 /\
  Rabs (fst (helio_st realA 2 t)) <= 0.00026.
Proof.
  intros t Ht.
  destruct amps as (_ & _ & A02 & A10 & A11 & A12 & A20 & A21 & A22). destruct amps4 as [A00 A01].
  assert (T2 : 0 <= t * t <= 10000) by (apply Rabs_le_inv in Ht; nra). pose proof (Rabs_pos t) as T0.
  assert (M : forall a b c d, 0 <= a <= b -> 0 <= c <= d -> a * c <= b * d) by (intros; apply Rmult_le_compat; lra).
  pose proof (M _ 100 _ _ (conj T0 Ht) (conj (amp_nonneg E1 0 _) A10)). pose proof (M _ 100 _ _ (conj T0 Ht) (conj (amp_nonneg E1 1 _) A11)).
  pose proof (M _ 100 _ _ (conj T0 Ht) (conj (amp_nonneg E1 2 _) A12)).
  pose proof (M _ 10000 _ _ T2 (conj (amp_nonneg E2 0 _) A20)). pose proof (M _ 10000 _ _ T2 (conj (amp_nonneg E2 1 _) A21)).
  pose proof (M _ 10000 _ _ T2 (conj (amp_nonneg E2 2 _) A22)).
  assert (B0 := helio_split4 0 t (seq 4 497) eq_refl). assert (B1 := helio_split4 1 t (seq 4 497) eq_refl).
  assert (B2 := helio_all 2 t).
  change (nn NE0 2) with 137%nat in B2. change (nn NE1 0) with 79%nat in B0. change (nn NE1 1) with 80%nat in B1. change (nn NE1 2) with 12%nat in B2.
  change (nn NE2 0) with 5%nat in B0. change (nn NE2 1) with 5%nat in B1. change (nn NE2 2) with 3%nat in B2.
  split; [|split].
  - rewrite (trm_R 0 0 t _ _ _ _ _ _ eq_refl eq_refl eq_refl), (trm_R 0 1 t _ _ _ _ _ _ eq_refl eq_refl eq_refl),
      (trm_C 0 2 t _ _ eq_refl eq_refl eq_refl), (trm_R 0 3 t _ _ _ _ _ _ eq_refl eq_refl eq_refl) in B0. pows.
    replace (1753485171504 / 1000000000000) with 1.753485171504 in B0 by lra. 
    replace (6283075850446 / 1000000000000) with 6.283075850446 in B0 by lra.
    replace (1710344404582 / 1000000000000) with 1.710344404582 in B0 by lra.
    replace (1256615170089 / 100000000000) with 12.56615170089 in B0 by lra.
    replace (166722541677 / 100000000000) with 1.66722541677 in B0 by lra.
    replace (1884922755134 / 100000000000) with 18.84922755134 in B0 by lra.
    change (num realA) with R in *. set (x := fst (helio_st realA 0 t)) in *. clearbody x.
    apply Rabs_le_inv in B0. apply Rabs_le. lra.
  - rewrite (trm_R 1 0 t _ _ _ _ _ _ eq_refl eq_refl eq_refl), (trm_R 1 2 t _ _ _ _ _ _ eq_refl eq_refl eq_refl),
      (trm_C 1 1 t _ _ eq_refl eq_refl eq_refl), (trm_R 1 3 t _ _ _ _ _ _ eq_refl eq_refl eq_refl) in B1. pows.
    replace (1826583913846 / 10000000000000) with 0.1826583913846 in B1 by lra. 
    replace (6283075850446 / 1000000000000) with 6.283075850446 in B1 by lra.
    replace (139527799868 / 1000000000000) with 0.139527799868 in B1 by lra.
    replace (1256615170089 / 100000000000) with 12.56615170089 in B1 by lra.
    replace (9641423109763 / 100000000000000) with 0.09641423109763 in B1 by lra.
    replace (1884922755134 / 100000000000) with 18.84922755134 in B1 by lra.
    change (num realA) with R in *. set (x := fst (helio_st realA 1 t)) in *. clearbody x.
    apply Rabs_le_inv in B1. apply Rabs_le. lra.
  - change (num realA) with R in *. set (x := fst (helio_st realA 2 t)) in *. clearbody x.
    apply Rabs_le_inv in B2. apply Rabs_le. lra.
Qed.

Lemma peri_trig : -0.2238860 <= cos orbit_peri <= -0.2238800 /\ 0.974610 <= sin orbit_peri <= 0.974625.
Proof.
  unfold orbit_peri. pose proof PI_bounds as P. set (x := 1.796595647 - PI / 2).
  assert (X : 0.22579932 <= x <= 0.22579933) by (unfold x; lra).
  replace 1.796595647 with (x + PI / 2) by (unfold x; ring).
  rewrite cos_plus, sin_plus, cos_PI2, sin_PI2, !Rmult_0_r, !Rmult_1_r, Rplus_0_l, Rminus_0_l.
  destruct (sin_taylor5 0.22579932 ltac:(lra)) as [S1 _]. destruct (sin_taylor5 0.22579933 ltac:(lra)) as [_ S2].
  destruct (cos_taylor6 0.22579932 ltac:(lra)) as [_ C2]. destruct (cos_taylor6 0.22579933 ltac:(lra)) as [C1 _].
  assert (sin 0.22579932 <= sin x) by (apply sin_incr_1; lra). assert (sin x <= sin 0.22579933) by (apply sin_incr_1; lra).
  assert (cos 0.22579933 <= cos x) by (apply cos_decr_1; lra). assert (cos x <= cos 0.22579932) by (apply cos_decr_1; lra).
  lra.
Qed.

Lemma obl_trig : 0.917475 <= cos orbit_obl <= 0.917490 /\ 0.397680 <= sin orbit_obl <= 0.397780.
Proof.
  unfold orbit_obl, arcsec. pose proof PI_bounds as P. set (x := 84381.409 * (PI / 648000)).
  assert (X : 0.4090926 <= x <= 0.4090927) by (unfold x; lra). clearbody x.
  destruct (sin_taylor5 0.4090926 ltac:(lra)) as [S1 _]. destruct (sin_taylor5 0.4090927 ltac:(lra)) as [_ S2].
  destruct (cos_taylor6 0.4090926 ltac:(lra)) as [_ C2]. destruct (cos_taylor6 0.4090927 ltac:(lra)) as [C1 _].
  assert (sin 0.4090926 <= sin x) by (apply sin_incr_1; lra). assert (sin x <= sin 0.4090927) by (apply sin_incr_1; lra).
  assert (cos 0.4090927 <= cos x) by (apply cos_decr_1; lra). assert (cos x <= cos 0.4090926) by (apply cos_decr_1; lra).
  lra.
Qed.

Lemma near_cos : forall x y d, Rabs (x - y) <= d -> exists q, cos x = cos y + q /\ - d <= q <= d.
Proof.
  intros x y d H. exists (cos x - cos y). split; [ring|]. apply Rabs_le_inv. eapply Rle_trans; [apply cos_lip|exact H].
Qed.
Lemma near_cos_sin : forall x y d, Rabs (PI / 2 + x - y) <= d -> exists q, cos x = sin y + q /\ - d <= q <= d.
Proof.
  intros x y d H. exists (cos x - sin y). split; [ring|]. apply Rabs_le_inv. rewrite cos_sin. eapply Rle_trans; [apply sin_lip|exact H].
Qed.

(** The ellipse to second order in the eccentricity. *)
Lemma orbit_expand : forall u, let m := u - orbit_e * sin u in
  exists e1 e2, -0.0000141 <= e1 <= 0.0000141 /\ -0.0000142 <= e2 <= 0.0000142 /\
  orbit_xi u = orbit_a * ((1 - 3 / 8 * (orbit_e * orbit_e)) * cos m - 3 / 2 * orbit_e + orbit_e / 2 * cos (2 * m) + 3 / 8 * (orbit_e * orbit_e) * cos (3 * m) + e1) /\
  orbit_eta u = orbit_a * ((1 - 5 / 8 * (orbit_e * orbit_e)) * sin m + orbit_e / 2 * sin (2 * m) + 3 / 8 * (orbit_e * orbit_e) * sin (3 * m) + e2).
Proof.
  intros u m. destruct (kepler_expand orbit_e u) as [K1 K2]; [unfold orbit_e; lra|]. fold m in K1, K2.
  assert (E3 : orbit_e * orbit_e * orbit_e <= 0.0000047) by (unfold orbit_e; lra).
  assert (S : -0.0000001 <= R_sqrt.sqrt (1 - orbit_e * orbit_e) - (1 - orbit_e * orbit_e / 2) <= 0.0000001).
  { assert (L : 0 <= 1 - orbit_e * orbit_e) by (unfold orbit_e; lra). pose proof (sqrt_pos (1 - orbit_e * orbit_e)) as P. pose proof (sqrt_def _ L) as D.
    set (s := R_sqrt.sqrt _) in *. clearbody s. unfold orbit_e in *. split; nra. }
  pose proof (SIN_bound u) as SB.
  exists (cos u - orbit_e - ((1 - 3 / 8 * (orbit_e * orbit_e)) * cos m - 3 / 2 * orbit_e + orbit_e / 2 * cos (2 * m) + 3 / 8 * (orbit_e * orbit_e) * cos (3 * m))).
  exists (R_sqrt.sqrt (1 - orbit_e * orbit_e) * sin u - ((1 - 5 / 8 * (orbit_e * orbit_e)) * sin m + orbit_e / 2 * sin (2 * m) + 3 / 8 * (orbit_e * orbit_e) * sin (3 * m))).
  apply Rabs_le_inv in K1. apply Rabs_le_inv in K2.
  split; [lra|]. split; [|unfold orbit_xi, orbit_eta; split; ring].
  set (s := R_sqrt.sqrt _) in *. clearbody s.
  assert (-0.0000001 <= (s - (1 - orbit_e * orbit_e / 2)) * sin u <= 0.0000001) by (set (v := s - _) in *; clearbody v; split; nra).
  lra.
Qed.

Lemma orbit_ecliptic : forall t u, Rabs t <= 100 -> kepler u t ->
  Rabs (fst (helio_st realA 0 t) - orbit_x u) <= 0.00058 /\ Rabs (fst (helio_st realA 1 t) - orbit_y u) <= 0.00056.
Proof.
  intros t u Ht K. destruct (helio_main t Ht) as (B0 & B1 & _).
  destruct (orbit_expand u) as (e1 & e2 & R1 & R2 & X & Y). unfold kepler in K. rewrite K in X, Y. set (m := mean_anomaly t) in *.
  assert (Mt : m = 1.753470314 + 6.283075849991 * t - orbit_peri) by (unfold m, mean_anomaly, iers_e; lra).
  apply Rabs_le_inv in Ht.
  destruct (near_cos (1.753485171504 + 6.283075850446 * t) (m + orbit_peri) 0.000015) as (q1 & Q1 & D1); [apply Rabs_le; lra|].
  destruct (near_cos (1.710344404582 + 12.56615170089 * t) (2 * m + orbit_peri) 0.000015) as (q2 & Q2 & D2); [rewrite Mt; unfold orbit_peri; apply Rabs_le; lra|].
  destruct (near_cos (1.66722541677 + 18.84922755134 * t) (3 * m + orbit_peri) 0.000015) as (q3 & Q3 & D3); [rewrite Mt; unfold orbit_peri; apply Rabs_le; lra|].
  rewrite Q1, Q2, Q3 in B0. pose proof PI_bounds as P.
  destruct (near_cos_sin (0.1826583913846 + 6.283075850446 * t) (m + orbit_peri) 0.00003) as (p1 & P1 & F1); [apply Rabs_le; lra|].
  destruct (near_cos_sin (0.139527799868 + 12.56615170089 * t) (2 * m + orbit_peri) 0.00003) as (p2 & P2 & F2); [rewrite Mt; unfold orbit_peri; apply Rabs_le; lra|].
  destruct (near_cos_sin (0.09641423109763 + 18.84922755134 * t) (3 * m + orbit_peri) 0.00003) as (p3 & P3 & F3); [rewrite Mt; unfold orbit_peri; apply Rabs_le; lra|].
  rewrite P1, P2, P3 in B1.
  change (num realA) with R in *. set (x := fst (helio_st realA 0 t)) in *. set (y := fst (helio_st realA 1 t)) in *. clearbody x y.
  destruct peri_trig as [KC KS].
  assert (EX : orbit_x u = orbit_a * ((1 - 1 / 2 * (orbit_e * orbit_e)) * cos (m + orbit_peri) + 1 / 8 * (orbit_e * orbit_e) * cos (m - orbit_peri)
    + orbit_e / 2 * cos (2 * m + orbit_peri) + 3 / 8 * (orbit_e * orbit_e) * cos (3 * m + orbit_peri) - 3 / 2 * orbit_e * cos orbit_peri
    + (cos orbit_peri * e1 - sin orbit_peri * e2))).
  { unfold orbit_x. rewrite X, Y, !cos_plus, cos_minus. field. }
  assert (EY : orbit_y u = orbit_a * ((1 - 1 / 2 * (orbit_e * orbit_e)) * sin (m + orbit_peri) - 1 / 8 * (orbit_e * orbit_e) * sin (m - orbit_peri)
    + orbit_e / 2 * sin (2 * m + orbit_peri) + 3 / 8 * (orbit_e * orbit_e) * sin (3 * m + orbit_peri) - 3 / 2 * orbit_e * sin orbit_peri
    + (sin orbit_peri * e1 + cos orbit_peri * e2))).
  { unfold orbit_y. rewrite X, Y, !sin_plus, sin_minus. field. }
  assert (V1 : -0.000018 <= cos orbit_peri * e1 - sin orbit_peri * e2 <= 0.000018) by (clear - KC KS R1 R2; split; nra).
  assert (V2 : -0.000018 <= sin orbit_peri * e1 + cos orbit_peri * e2 <= 0.000018) by (clear - KC KS R1 R2; split; nra).
  set (w1 := cos orbit_peri * e1 - sin orbit_peri * e2) in *. set (w2 := sin orbit_peri * e1 + cos orbit_peri * e2) in *. clearbody w1 w2.
  pose proof (COS_bound (m + orbit_peri)) as C1. pose proof (COS_bound (m - orbit_peri)) as C0. pose proof (COS_bound (2 * m + orbit_peri)) as C2. pose proof (COS_bound (3 * m + orbit_peri)) as C3.
  pose proof (SIN_bound (m + orbit_peri)) as S1. pose proof (SIN_bound (m - orbit_peri)) as S0. pose proof (SIN_bound (2 * m + orbit_peri)) as S2. pose proof (SIN_bound (3 * m + orbit_peri)) as S3.
  rewrite EX, EY. clear EX EY X Y P1 P2 P3 Q1 Q2 Q3 Mt K.
  set (c0 := cos (m - orbit_peri)) in *. set (c1 := cos (m + orbit_peri)) in *. set (c2 := cos (2 * m + orbit_peri)) in *. set (c3 := cos (3 * m + orbit_peri)) in *.
  set (s0 := sin (m - orbit_peri)) in *. set (s1 := sin (m + orbit_peri)) in *. set (s2 := sin (2 * m + orbit_peri)) in *. set (s3 := sin (3 * m + orbit_peri)) in *.
  set (kc := cos orbit_peri) in *. set (ks := sin orbit_peri) in *. clearbody c0 c1 c2 c3 s0 s1 s2 s3 kc ks.
  unfold orbit_a, orbit_e. apply Rabs_le_inv in B0. apply Rabs_le_inv in B1. split; apply Rabs_le; split; lra.
Qed.
