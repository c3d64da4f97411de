(** * Newton's law along the ellipse *)

From Coq Require Import ZArith Reals Lra Lia Bool List.
From Flocq Require Import Core.
From Verif Require Import Outcome Arith ArithR M_Common M_Time M_Earth T_Epv00 Spec_Matrix Spec_Frames Spec_Series Spec_Orbit Spec_Gravity.
From Verif Require Import L_ArithR L_Series L_SeriesR L_Matrix L_Pi L_Epv L_Kepler L_Orbit L_OrbitV L_Near L_PSeries L_POrbit L_Gravity.
Import ListNotations.
Open Scope R_scope.

(** ** The attraction along an ellipse, to second order in the eccentricity *)

Definition A_xi (e m : R) : R := (1 - 3 / 8 * (e * e)) * cos m + 2 * e * cos (2 * m) + 27 / 8 * (e * e) * cos (3 * m).
Definition A_eta (e m : R) : R := (1 - 5 / 8 * (e * e)) * sin m + 2 * e * sin (2 * m) + 27 / 8 * (e * e) * sin (3 * m).

Lemma unit_mul : forall x y, -1 <= x <= 1 -> -1 <= y <= 1 -> -1 <= x * y <= 1.
Proof. intros x y Hx Hy. split; nra. Qed.
Lemma small_mul : forall x y n, -1 <= x <= 1 -> - n <= y <= n -> - n <= x * y <= n.
Proof. intros x y n Hx Hy. split; nra. Qed.
Lemma cube_mul : forall f w, 0 <= f <= 1.06 -> -0.00009 <= w <= 0.00009 -> -0.0000955 <= f * w <= 0.0000955.
Proof. intros f w Hf Hw. split; nra. Qed.

Lemma kepler_force0 : forall u, let e := orbit_e in let m := u - e * sin u in
  Rabs ((1 - e * cos u) ^ 3 * A_xi e m - (cos u - e)) <= 0.00018 /\
  Rabs ((1 - e * cos u) ^ 3 * A_eta e m - (1 - e * e / 2) * sin u) <= 0.00018.
Proof.
  intros u e m. assert (He : 0 <= e <= 0.02) by (unfold e, orbit_e; lra).
  pose proof (SIN_bound u) as SB. pose proof (COS_bound u) as CB. pose proof (sin2_cos2 u) as SC. unfold Rsqr in SC.
  set (d := e * sin u).
  assert (Hd : Rabs d <= 0.0167086).
  { unfold d, e, orbit_e. apply Rabs_le. lra. }
  assert (D1 : Rabs d <= 1) by lra.
  assert (S3 := sin_taylor3 d D1). assert (C4 := cos_taylor4 d D1).
  assert (P3 : Rabs d ^ 3 <= 0.00000467).
  { pose proof (Rabs_pos d). eapply Rle_trans; [apply pow_incr; split; [apply Rabs_pos|exact Hd]|]. lra. }
  assert (P4 : d ^ 4 <= 0.00000008).
  { replace (d ^ 4) with (Rabs d ^ 4) by (rewrite <- (Rabs_pos_eq (d ^ 4)), RPow_abs by (replace (d ^ 4) with ((d * d) * (d * d)) by ring; apply Rle_0_sqr); reflexivity).
    eapply Rle_trans; [apply pow_incr; split; [apply Rabs_pos|exact Hd]|]. lra. }
  assert (DD : 0 <= d * d <= 0.0002792).
  { split; [apply Rle_0_sqr|]. replace (d * d) with (Rabs d ^ 2) by (cbn [pow]; rewrite Rmult_1_r, <- Rabs_mult; apply Rabs_pos_eq; apply Rle_0_sqr).
    eapply Rle_trans; [apply pow_incr; split; [apply Rabs_pos|exact Hd]|]. lra. }
  set (r1 := cos d - (1 - d * d / 2)). assert (B1 : -0.00000001 <= r1 <= 0.00000001) by (unfold r1; lra).
  set (r2 := sin d - d). assert (B2 : -0.0000008 <= r2 <= 0.0000008) by (unfold r2; apply Rabs_le_inv in S3; lra).
  set (q1 := cos (2 * d) - 1). assert (G1 : -0.00056 <= q1 <= 0).
  { unfold q1. destruct (cos_taylor4 (2 * d)) as [L _]; [rewrite Rabs_mult, (Rabs_pos_eq 2) by lra; lra|].
    pose proof (COS_bound (2 * d)). lra. }
  set (q2 := sin (2 * d) - 2 * d). assert (G2 : -0.0000063 <= q2 <= 0.0000063).
  { unfold q2. assert (T := sin_taylor3 (2 * d)). rewrite Rabs_mult, (Rabs_pos_eq 2) in T by lra. specialize (T ltac:(lra)).
    replace ((2 * Rabs d) ^ 3) with (8 * Rabs d ^ 3) in T by ring. apply Rabs_le_inv in T. lra. }
  set (t1 := cos (3 * m) - cos (3 * u)). assert (I1 : -0.0502 <= t1 <= 0.0502).
  { assert (X : Rabs t1 <= 0.0502); [|apply Rabs_le_inv in X; lra]. unfold t1. eapply Rle_trans; [apply cos_lip|].
    replace (3 * m - 3 * u) with (- (3 * d)) by (unfold m, d; ring). rewrite Rabs_Ropp, Rabs_mult, (Rabs_pos_eq 3) by lra. lra. }
  set (t2 := sin (3 * m) - sin (3 * u)). assert (I2 : -0.0502 <= t2 <= 0.0502).
  { assert (X : Rabs t2 <= 0.0502); [|apply Rabs_le_inv in X; lra]. unfold t2. eapply Rle_trans; [apply sin_lip|].
    replace (3 * m - 3 * u) with (- (3 * d)) by (unfold m, d; ring). rewrite Rabs_Ropp, Rabs_mult, (Rabs_pos_eq 3) by lra. lra. }
  assert (S2 : sin u * sin u = 1 - cos u * cos u) by lra.
  assert (C3 : cos (3 * u) = cos u * (4 * (cos u * cos u) - 3)).
  { replace (3 * u) with (2 * u + u) by ring. rewrite cos_plus, cos_2a, sin_2a.
    transitivity (cos u * cos u * cos u - 3 * (cos u * (sin u * sin u))); [ring|rewrite S2; ring]. }
  assert (S3u : sin (3 * u) = sin u * (4 * (cos u * cos u) - 1)).
  { replace (3 * u) with (2 * u + u) by ring. rewrite sin_plus, cos_2a, sin_2a.
    transitivity (sin u * (3 * (cos u * cos u) - sin u * sin u)); [ring|rewrite S2; ring]. }
  assert (Cm : cos m = cos u * (1 - d * d / 2 + r1) + sin u * (d + r2)).
  { unfold m. fold d. rewrite cos_minus. unfold r1, r2. ring. }
  assert (Sm : sin m = sin u * (1 - d * d / 2 + r1) - cos u * (d + r2)).
  { unfold m. fold d. rewrite sin_minus. unfold r1, r2. ring. }
  assert (C2 : cos (2 * u) = 2 * (cos u * cos u) - 1) by (rewrite cos_2a; lra).
  assert (C2m : cos (2 * m) = (2 * (cos u * cos u) - 1) * (1 + q1) + 2 * (sin u * cos u) * (2 * d + q2)).
  { replace (2 * m) with (2 * u - 2 * d) by (unfold m, d; ring). rewrite cos_minus, C2, sin_2a. unfold q1, q2. ring. }
  assert (S2m : sin (2 * m) = 2 * (sin u * cos u) * (1 + q1) - (2 * (cos u * cos u) - 1) * (2 * d + q2)).
  { replace (2 * m) with (2 * u - 2 * d) by (unfold m, d; ring). rewrite sin_minus, C2, sin_2a. unfold q1, q2. ring. }
  assert (C3m : cos (3 * m) = cos u * (4 * (cos u * cos u) - 3) + t1) by (unfold t1; rewrite <- C3; ring).
  assert (S3m : sin (3 * m) = sin u * (4 * (cos u * cos u) - 1) + t2) by (unfold t2; rewrite <- S3u; ring).
  unfold A_xi, A_eta. rewrite Cm, Sm, C2m, S2m, C3m, S3m. clear Cm Sm C2m S2m C3m S3m C2 C3 S3u.
  set (C := cos u) in *. set (S := sin u) in *. clearbody r1 r2 q1 q2 t1 t2.
  assert (CC : 0 <= C * C <= 1) by (split; nra).
  assert (w : exists w1 w2,
    (1 - 3 / 8 * (e * e)) * (C * r1 + S * r2) + 2 * e * ((2 * (C * C) - 1) * q1 + 2 * (S * C) * q2) + 27 / 8 * (e * e) * t1 = w1 /\
    (1 - 5 / 8 * (e * e)) * (S * r1 - C * r2) + 2 * e * (2 * (S * C) * q1 - (2 * (C * C) - 1) * q2) + 27 / 8 * (e * e) * t2 = w2 /\
    -0.00009 <= w1 <= 0.00009 /\ -0.00009 <= w2 <= 0.00009).
  { pose proof small_mul as M.
    assert (SCb : -1 <= 2 * (S * C) <= 1) by (pose proof (Rle_0_sqr (S + C)); pose proof (Rle_0_sqr (S - C)); unfold Rsqr in *; lra).
    pose proof (M C r1 0.00000001 CB ltac:(lra)). pose proof (M S r2 0.0000008 SB ltac:(lra)). pose proof (M S r1 0.00000001 SB ltac:(lra)). pose proof (M C r2 0.0000008 CB ltac:(lra)).
    pose proof (M (2 * (C * C) - 1) q1 0.00056 ltac:(lra) ltac:(lra)). pose proof (M (2 * (C * C) - 1) q2 0.0000063 ltac:(lra) ltac:(lra)).
    pose proof (M (2 * (S * C)) q1 0.00056 SCb ltac:(lra)). pose proof (M (2 * (S * C)) q2 0.0000063 SCb ltac:(lra)).
    do 2 eexists. split; [reflexivity|]. split; [reflexivity|]. unfold e, orbit_e.
    set (x1 := C * r1) in *. set (x2 := S * r2) in *. set (x3 := S * r1) in *. set (x4 := C * r2) in *.
    set (x5 := (2 * (C * C) - 1) * q1) in *. set (x6 := (2 * (C * C) - 1) * q2) in *. set (x7 := 2 * (S * C) * q1) in *. set (x8 := 2 * (S * C) * q2) in *.
    clearbody x1 x2 x3 x4 x5 x6 x7 x8. lra. }
  destruct w as (w1 & w2 & W1 & W2 & K1 & K2).
  assert (F : 0 <= (1 - e * C) ^ 3 <= 1.06).
  { assert (0 <= 1 - e * C <= 1.0168) by (unfold e, orbit_e; lra). split; [apply pow_le; lra|]. eapply Rle_trans; [apply pow_incr; eassumption|]. lra. }
  assert (EX : forall x, (1 - e * C) ^ 3 * x = (1 - 3 * e * C + 3 * (e * e) * (C * C) - e * e * e * (C * C * C)) * x) by (intros; ring).
  assert (b2 : -1 <= C * C <= 1) by lra. pose proof (unit_mul _ _ b2 CB) as b3. pose proof (unit_mul _ _ b3 CB) as b4.
  pose proof (unit_mul _ _ b4 CB) as b5. pose proof (unit_mul _ _ b5 CB) as b6. assert (MS := fun x => unit_mul S x SB).
  split.
  - assert (E1 : (1 - e * C) ^ 3 * ((1 - 3 / 8 * (e * e)) * (C * (1 - d * d / 2 + r1) + S * (d + r2)) + 2 * e * ((2 * (C * C) - 1) * (1 + q1) + 2 * (S * C) * (2 * d + q2)) + 27 / 8 * (e * e) * (C * (4 * (C * C) - 3) + t1)) - (C - e)
      = (1 - e * C) ^ 3 * w1 + ((1 - 3 * e * C + 3 * (e * e) * (C * C) - e * e * e * (C * C * C)) *
         ((1 - 3 / 8 * (e * e)) * (C * (1 - e * e * (1 - C * C) / 2) + e * (1 - C * C)) + 2 * e * ((2 * (C * C) - 1) + 4 * e * (1 - C * C) * C) + 27 / 8 * (e * e) * (C * (4 * (C * C) - 3))) - (C - e))).
    { rewrite <- W1, <- S2. unfold d. rewrite <- EX. rewrite S2 at 2. rewrite <- S2. field. }
    rewrite E1. clear E1. assert (FW : -0.0000955 <= (1 - e * C) ^ 3 * w1 <= 0.0000955) by (apply cube_mul; assumption).
    set (f := (1 - e * C) ^ 3 * w1) in *. clearbody f. unfold e, orbit_e. apply Rabs_le. split; lra.
  - assert (E1 : (1 - e * C) ^ 3 * ((1 - 5 / 8 * (e * e)) * (S * (1 - d * d / 2 + r1) - C * (d + r2)) + 2 * e * (2 * (S * C) * (1 + q1) - (2 * (C * C) - 1) * (2 * d + q2)) + 27 / 8 * (e * e) * (S * (4 * (C * C) - 1) + t2)) - (1 - e * e / 2) * S
      = (1 - e * C) ^ 3 * w2 + ((1 - 3 * e * C + 3 * (e * e) * (C * C) - e * e * e * (C * C * C)) *
         ((1 - 5 / 8 * (e * e)) * (S * (1 - e * e * (1 - C * C) / 2) - C * (e * S)) + 2 * e * (2 * (S * C) - (2 * (C * C) - 1) * (2 * (e * S))) + 27 / 8 * (e * e) * (S * (4 * (C * C) - 1))) - (1 - e * e / 2) * S)).
    { rewrite <- W2, <- S2. unfold d. rewrite <- EX. field. }
    rewrite E1. clear E1. assert (FW : -0.0000955 <= (1 - e * C) ^ 3 * w2 <= 0.0000955) by (apply cube_mul; assumption).
    set (f := (1 - e * C) ^ 3 * w2) in *. clearbody f.
    pose proof (MS _ CB) as c1. pose proof (MS _ b2) as c2. pose proof (MS _ b3) as c3. pose proof (MS _ b4) as c4. pose proof (MS _ b5) as c5. pose proof (MS _ b6) as c6.
    unfold e, orbit_e. apply Rabs_le. split; lra.
Qed.

(** Components of the attraction at the eccentric anomaly [u], in units of the
    attraction at the distance a. *)
Definition g_xi (u : R) : R := (cos u - orbit_e) / (1 - orbit_e * cos u) ^ 3.
Definition g_eta (u : R) : R := R_sqrt.sqrt (1 - orbit_e * orbit_e) * sin u / (1 - orbit_e * cos u) ^ 3.

Lemma div_close : forall f a n b, 0.95 <= f -> Rabs (f * a - n) <= b -> Rabs (a - n / f) <= b / 0.95.
Proof.
  intros f a n b Hf H. replace (a - n / f) with ((f * a - n) * / f) by (field; lra). rewrite Rabs_mult.
  assert (I : 0 < / f <= / 0.95) by (split; [apply Rinv_0_lt_compat; lra|apply Rinv_le; lra]). rewrite (Rabs_pos_eq (/ f)) by lra.
  unfold Rdiv. apply Rmult_le_compat; try lra. apply Rabs_pos.
Qed.

Lemma kepler_force : forall u, let m := u - orbit_e * sin u in
  exists e1 e2, -0.00019 <= e1 <= 0.00019 /\ -0.00019 <= e2 <= 0.00019 /\
  g_xi u = A_xi orbit_e m + e1 /\ g_eta u = A_eta orbit_e m + e2.
Proof.
  intros u m. destruct (kepler_force0 u) as [K1 K2]. cbv zeta in K1, K2. fold m in K1, K2.
  pose proof (COS_bound u) as CB. pose proof (SIN_bound u) as SB.
  assert (F : 0.95 <= (1 - orbit_e * cos u) ^ 3).
  { assert (0.9832 <= 1 - orbit_e * cos u) by (unfold orbit_e; lra).
    eapply Rle_trans; [|apply pow_incr; split; [|eassumption]; lra]. lra. }
  assert (S : -0.0000001 <= R_sqrt.sqrt (1 - orbit_e * orbit_e) - (1 - orbit_e * orbit_e / 2) <= 0.0000001).
  { assert (L : 0 <= 1 - orbit_e * orbit_e) by (unfold orbit_e; lra). pose proof (sqrt_pos (1 - orbit_e * orbit_e)) as P. pose proof (sqrt_def _ L) as D.
    set (s := R_sqrt.sqrt _) in *. clearbody s. unfold orbit_e in *. split; nra. }
  set (s := R_sqrt.sqrt _) in *.
  assert (K2' : Rabs ((1 - orbit_e * cos u) ^ 3 * A_eta orbit_e m - s * sin u) <= 0.0001801).
  { set (x := (1 - orbit_e * cos u) ^ 3 * A_eta orbit_e m) in *. clearbody x.
    assert (-0.0000001 <= (s - (1 - orbit_e * orbit_e / 2)) * sin u <= 0.0000001) by (set (v := s - _) in *; clearbody v; split; nra).
    apply Rabs_le_inv in K2. apply Rabs_le. lra. }
  pose proof (div_close _ _ _ _ F K1) as D1. pose proof (div_close _ _ _ _ F K2') as D2.
  exists (g_xi u - A_xi orbit_e m), (g_eta u - A_eta orbit_e m).
  apply Rabs_le_inv in D1. apply Rabs_le_inv in D2. unfold g_xi, g_eta. fold s.
  split; [lra|]. split; [lra|]. split; ring.
Qed.

Definition kyear : R := gauss * gauss * (365.25 * 365.25).
Lemma kyear_val : 39.476926 <= kyear <= 39.476927.
Proof. unfold kyear, gauss. lra. Qed.
Definition g_x (u : R) : R := kyear / (orbit_a * orbit_a) * (cos orbit_peri * g_xi u - sin orbit_peri * g_eta u).
Definition g_y (u : R) : R := kyear / (orbit_a * orbit_a) * (sin orbit_peri * g_xi u + cos orbit_peri * g_eta u).

(** The acceleration of the series against the attraction at the point of the
    ellipse; the Moon's pull is left in. *)
Lemma acc_kepler : forall t u, Rabs t <= 100 -> kepler u t ->
  Rabs (snd (helio_va 0 t) + g_x u + 0.21948457 * cos (0.6687513390251 + 83.99684731857 * t)) <= 0.076 /\
  Rabs (snd (helio_va 1 t) + g_y u + 0.21948453 * cos (5.381140401712 + 83.99684731857 * t)) <= 0.076.
Proof.
  intros t u Ht K. destruct (helio_amain t Ht) as (B0 & B1 & _).
  destruct (kepler_force u) as (e1 & e2 & R1 & R2 & X & Y). unfold kepler in K. rewrite K in X, Y. set (m := mean_anomaly t) in *.
  assert (Mt : m = 1.753470314 + 6.283075849991 * t - orbit_peri) by (unfold m, mean_anomaly, iers_e; lra).
  apply Rabs_le_inv in Ht.
  destruct (near_cos (1.753485171504 + 6.283075850446 * t) (m + orbit_peri) 0.000015) as (q1 & Q1 & D1); [apply Rabs_le; lra|].
  destruct (near_cos (1.710344404582 + 12.56615170089 * t) (2 * m + orbit_peri) 0.000015) as (q2 & Q2 & D2); [rewrite Mt; unfold orbit_peri; apply Rabs_le; lra|].
  destruct (near_cos (1.66722541677 + 18.84922755134 * t) (3 * m + orbit_peri) 0.000015) as (q3 & Q3 & D3); [rewrite Mt; unfold orbit_peri; apply Rabs_le; lra|].
  rewrite Q1, Q2, Q3 in B0. pose proof PI_bounds as P.
  destruct (near_cos_sin (0.1826583913846 + 6.283075850446 * t) (m + orbit_peri) 0.00003) as (p1 & P1 & F1); [apply Rabs_le; lra|].
  destruct (near_cos_sin (0.139527799868 + 12.56615170089 * t) (2 * m + orbit_peri) 0.00003) as (p2 & P2 & F2); [rewrite Mt; unfold orbit_peri; apply Rabs_le; lra|].
  destruct (near_cos_sin (0.09641423109763 + 18.84922755134 * t) (3 * m + orbit_peri) 0.00003) as (p3 & P3 & F3); [rewrite Mt; unfold orbit_peri; apply Rabs_le; lra|].
  rewrite P1, P2, P3 in B1.
  set (x := snd (helio_va 0 t)) in *. set (y := snd (helio_va 1 t)) in *. clearbody x y.
  destruct peri_trig as [KC KS].
  assert (EX : cos orbit_peri * g_xi u - sin orbit_peri * g_eta u = (1 - 1 / 2 * (orbit_e * orbit_e)) * cos (m + orbit_peri) + 1 / 8 * (orbit_e * orbit_e) * cos (m - orbit_peri)
    + 2 * orbit_e * cos (2 * m + orbit_peri) + 27 / 8 * (orbit_e * orbit_e) * cos (3 * m + orbit_peri) + (cos orbit_peri * e1 - sin orbit_peri * e2)).
  { rewrite X, Y. unfold A_xi, A_eta. rewrite !cos_plus, cos_minus. field. }
  assert (EY : sin orbit_peri * g_xi u + cos orbit_peri * g_eta u = (1 - 1 / 2 * (orbit_e * orbit_e)) * sin (m + orbit_peri) - 1 / 8 * (orbit_e * orbit_e) * sin (m - orbit_peri)
    + 2 * orbit_e * sin (2 * m + orbit_peri) + 27 / 8 * (orbit_e * orbit_e) * sin (3 * m + orbit_peri) + (sin orbit_peri * e1 + cos orbit_peri * e2)).
  { rewrite X, Y. unfold A_xi, A_eta. rewrite !sin_plus, sin_minus. field. }
  assert (V1 : -0.00023 <= cos orbit_peri * e1 - sin orbit_peri * e2 <= 0.00023) by (clear - KC KS R1 R2; split; nra).
  assert (V2 : -0.00023 <= sin orbit_peri * e1 + cos orbit_peri * e2 <= 0.00023) by (clear - KC KS R1 R2; split; nra).
  unfold g_x, g_y. rewrite EX, EY. clear EX EY X Y P1 P2 P3 Q1 Q2 Q3 Mt K KC KS R1 R2.
  set (w1 := cos orbit_peri * e1 - sin orbit_peri * e2) in *. set (w2 := sin orbit_peri * e1 + cos orbit_peri * e2) in *. clearbody w1 w2.
  pose proof (COS_bound (m + orbit_peri)) as C1. pose proof (COS_bound (m - orbit_peri)) as C0. pose proof (COS_bound (2 * m + orbit_peri)) as C2. pose proof (COS_bound (3 * m + orbit_peri)) as C3.
  pose proof (SIN_bound (m + orbit_peri)) as S1. pose proof (SIN_bound (m - orbit_peri)) as S0. pose proof (SIN_bound (2 * m + orbit_peri)) as S2. pose proof (SIN_bound (3 * m + orbit_peri)) as S3.
  set (c0 := cos (m - orbit_peri)) in *. set (c1 := cos (m + orbit_peri)) in *. set (c2 := cos (2 * m + orbit_peri)) in *. set (c3 := cos (3 * m + orbit_peri)) in *.
  set (s0 := sin (m - orbit_peri)) in *. set (s1 := sin (m + orbit_peri)) in *. set (s2 := sin (2 * m + orbit_peri)) in *. set (s3 := sin (3 * m + orbit_peri)) in *.
  set (n1 := cos (0.6687513390251 + _)) in *. set (n2 := cos (5.381140401712 + _)) in *.
  clearbody c0 c1 c2 c3 s0 s1 s2 s3 n1 n2.
  assert (KV : 39.476845 <= kyear / (orbit_a * orbit_a) <= 39.476848).
  { unfold kyear, gauss, orbit_a. lra. }
  set (kk := kyear / (orbit_a * orbit_a)) in *. clearbody kk.
  apply Rabs_le_inv in B0. apply Rabs_le_inv in B1.
  set (h1 := (1 - 1 / 2 * (orbit_e * orbit_e)) * c1 + 1 / 8 * (orbit_e * orbit_e) * c0 + 2 * orbit_e * c2 + 27 / 8 * (orbit_e * orbit_e) * c3 + w1).
  set (h2 := (1 - 1 / 2 * (orbit_e * orbit_e)) * s1 - 1 / 8 * (orbit_e * orbit_e) * s0 + 2 * orbit_e * s2 + 27 / 8 * (orbit_e * orbit_e) * s3 + w2).
  assert (H1 : -1.1 <= h1 <= 1.1) by (unfold h1, orbit_e; lra). assert (H2 : -1.1 <= h2 <= 1.1) by (unfold h2, orbit_e; lra).
  assert (L1 : -0.000004 <= (kk - 39.476846) * h1 <= 0.000004) by (clear - KV H1; split; nra).
  assert (L2 : -0.000004 <= (kk - 39.476846) * h2 <= 0.000004) by (clear - KV H2; split; nra).
  replace (kk * h1) with (39.476846 * h1 + (kk - 39.476846) * h1) by ring. replace (kk * h2) with (39.476846 * h2 + (kk - 39.476846) * h2) by ring.
  set (l1 := (kk - 39.476846) * h1) in *. set (l2 := (kk - 39.476846) * h2) in *. clearbody l1 l2. unfold h1, h2, orbit_e. clear h1 h2 H1 H2.
  split; apply Rabs_le; lra.
Qed.
