(** * Proofs of C85 and C86: nutation and pole against textbook formulas *)

From Coq Require Import ZArith Reals Lra Lia Bool List.
From Flocq Require Import Core.
From Verif Require Import Outcome Arith ArithR M_Common M_Time M_Frames T_Nut Spec_Matrix Spec_Frames Spec_Series Spec_Sun Spec_Pole.
From Verif Require Import L_ArithR L_Series L_SeriesR L_Matrix L_Pi L_Epv L_Closed L_PFrames L_PSeries L_Kepler L_Orbit L_Near L_PMatrix L_Frames L_POrbit.
Import ListNotations.
Open Scope R_scope.

Definition restcls (q : nat) : R := sumR (fun i => Rabs (rl (clsd i q))) (seq 4 73).
Lemma restcls_values : restcls 0 = 4900770 /\ restcls 1 <= 7000 /\ restcls 2 <= 20000 /\ restcls 3 = 1162055 /\ restcls 4 <= 3000 /\ restcls 5 <= 8000.
Proof.
  unfold restcls. repeat split;
  (rewrite (sumR_abs_lit 0) by (try lia; vm_compute; reflexivity));
  match goal with |- context[IZR ?z / _] => let v := eval vm_compute in z in replace z with v by (vm_compute; reflexivity) end;
  change (10 ^ 0)%Z with 1%Z; lra.
Qed.

Lemma sumn_4 : forall k f, sumn (4 + k) f = f 0%nat + f 1%nat + f 2%nat + f 3%nat + sumR f (seq 4 k).
Proof.
  intros k f. induction k as [|k IH]; [cbn [Nat.add sumn seq sumR fold_right]; ring|].
  rewrite Nat.add_succ_r. cbn [sumn]. rewrite IH, seq_S, sumR_app. cbn [sumR fold_right]. ring.
Qed.
Lemma sumR_abs : forall f g l, (forall i, In i l -> Rabs (f i) <= g i) -> Rabs (sumR f l) <= sumR g l.
Proof.
  intros f g l H. induction l as [|i l IH]; [cbn; rewrite Rabs_R0; lra|]. cbn [sumR fold_right].
  eapply Rle_trans; [apply Rabs_triang|]. apply Rplus_le_compat; [apply H; left; reflexivity|].
  apply IH. intros j Hj. apply H. right. exact Hj.
Qed.

Lemma near_sin' : forall x y d, Rabs (x - y) <= d -> exists q, sin x = sin y + q /\ - d <= q <= d.
Proof.
  intros x y d H. exists (sin x - sin y). split; [ring|]. apply Rabs_le_inv. eapply Rle_trans; [apply sin_lip|exact H].
Qed.

(** The four arguments of the table and those of the textbook. *)
Lemma args_near : forall t, Rabs t <= 1 ->
  Rabs (combo (nth 0 NALS []) (nut_angles t) - node t) <= 0.00001 /\
  Rabs (combo (nth 1 NALS []) (nut_angles t) + 4 * PI - 2 * sun_long t) <= 0.00001 /\
  Rabs (combo (nth 2 NALS []) (nut_angles t) - 2 * moon_long t) <= 0.00001 /\
  Rabs (combo (nth 3 NALS []) (nut_angles t) - 2 * node t) <= 0.00001.
Proof.
  intros t H. apply Rabs_le_inv in H. pose proof PI_bounds as P.
  assert (G : forall x y b, - b <= x - y <= b -> b <= 1.9 -> Rabs (arcsec x - arcsec y) <= 0.00001).
  { intros x y b B Hb. unfold arcsec. replace (x * (PI / 648000) - y * (PI / 648000)) with ((x - y) * (PI / 648000)) by ring.
    set (k := PI / 648000). assert (0 <= k <= 0.00000485) by (unfold k; lra). apply Rabs_le. split; nra. }
  assert (E0 : combo (nth 0 NALS []) (nut_angles t) = arcsec (450160.398036 - 6962890.5431 * t)) by (cbn [nth NALS combo nut_angles]; ring).
  assert (E1 : combo (nth 1 NALS []) (nut_angles t) = arcsec (2 * (335779.526232 + 1739527262.8478 * t) - 2 * (1072260.70369 + 1602961601.2090 * t) + 2 * (450160.398036 - 6962890.5431 * t)))
    by (cbn [nth NALS combo nut_angles]; unfold arcsec; ring).
  assert (E2 : combo (nth 2 NALS []) (nut_angles t) = arcsec (2 * (335779.526232 + 1739527262.8478 * t) + 2 * (450160.398036 - 6962890.5431 * t)))
    by (cbn [nth NALS combo nut_angles]; unfold arcsec; ring).
  assert (E3 : combo (nth 3 NALS []) (nut_angles t) = arcsec (2 * (450160.398036 - 6962890.5431 * t))) by (cbn [nth NALS combo nut_angles]; unfold arcsec; ring).
  assert (N : node t = arcsec (3600 * (125.04452 - 1934.136261 * t))) by (unfold node, degrees, arcsec; field).
  assert (N2 : 2 * node t = arcsec (2 * (3600 * (125.04452 - 1934.136261 * t)))) by (unfold node, degrees, arcsec; field).
  assert (M : 2 * moon_long t = arcsec (2 * (3600 * (218.3165 + 481267.8813 * t)))) by (unfold moon_long, degrees, arcsec; field).
  rewrite E0, E1, E2, E3, N2, N, M. split; [|split; [|split]].
  - apply (G _ _ 1.9); lra.
  - replace (2 * sun_long t) with (arcsec (2 * (3600 * (280.4665 + 36000.7698 * t)) - 2592000) + 4 * PI) by (unfold sun_long, degrees, arcsec; field).
    match goal with |- Rabs (?x + ?z - (?y + ?z)) <= _ => replace (x + z - (y + z)) with (x - y) by ring end. apply (G _ _ 1.9); lra.
  - apply (G _ _ 1.9); lra.
  - apply (G _ _ 1.9); lra.
Qed.

Lemma sin_4pi : forall x, sin (x + 4 * PI) = sin x.
Proof. intros x. transitivity (sin (x + 2 * INR 2 * PI)); [f_equal; cbn [INR]; ring|apply sin_period]. Qed.
Lemma cos_4pi : forall x, cos (x + 4 * PI) = cos x.
Proof. intros x. transitivity (cos (x + 2 * INR 2 * PI)); [f_equal; cbn [INR]; ring|apply cos_period]. Qed.

Lemma arcsec_near : forall x y b, Rabs (x - y) <= b -> Rabs (arcsec x - arcsec y) <= arcsec b.
Proof.
  intros x y b H. replace (arcsec x - arcsec y) with (arcsec (x - y)) by (unfold arcsec; ring). rewrite arcsec_abs. apply arcsec_le. exact H.
Qed.

Lemma coefs : 
  nut_coef 0 0 = -172064161 /\ nut_coef 0 1 = -174666 /\ nut_coef 0 2 = 33386 /\ nut_coef 0 3 = 92052331 /\ nut_coef 0 4 = 9086 /\ nut_coef 0 5 = 15377 /\
  nut_coef 1 0 = -13170906 /\ nut_coef 1 1 = -1675 /\ nut_coef 1 2 = -13696 /\ nut_coef 1 3 = 5730336 /\ nut_coef 1 4 = -3015 /\ nut_coef 1 5 = -4587 /\
  nut_coef 2 0 = -2276413 /\ nut_coef 2 1 = -234 /\ nut_coef 2 2 = 2796 /\ nut_coef 2 3 = 978459 /\ nut_coef 2 4 = -485 /\ nut_coef 2 5 = 1374 /\
  nut_coef 3 0 = 2074554 /\ nut_coef 3 1 = 207 /\ nut_coef 3 2 = -698 /\ nut_coef 3 3 = -897492 /\ nut_coef 3 4 = 470 /\ nut_coef 3 5 = -291.
Proof.
  unfold nut_coef, dec. repeat split; cbn [nth CLS fst snd powerRZ]; lra.
Qed.

Lemma nut_low : forall t, Rabs t <= 1 ->
  Rabs (nut_dpsi t - arcsec (low_dpsi t)) <= arcsec 0.55 /\ Rabs (nut_deps t - arcsec (low_deps t)) <= arcsec 0.15.
Proof.
  intros t Ht. destruct restcls_values as (V0 & V1 & V2 & V3 & V4 & V5).
  destruct (args_near t Ht) as (A0 & A1 & A2 & A3).
  assert (RC : forall i q, Rabs (nut_coef i q) = Rabs (rl (clsd i q))) by (intros; unfold nut_coef, clsd; rewrite rl_dec; reflexivity).
  assert (TT : forall b, 0 <= b -> Rabs t * b <= b) by (intros; pose proof (Rabs_pos t); nra).
  assert (P0 : forall q, 0 <= restcls q).
  { intros q. unfold restcls. generalize (seq 4 73). intros l. induction l as [|j l IH]; cbn [sumR fold_right]; [lra|]. pose proof (Rabs_pos (rl (clsd j q))). unfold sumR in IH. lra. }
  destruct coefs as (C00 & C01 & C02 & C03 & C04 & C05 & C10 & C11 & C12 & C13 & C14 & C15 & C20 & C21 & C22 & C23 & C24 & C25 & C30 & C31 & C32 & C33 & C34 & C35).
  assert (S0 : exists q, sin (combo (nth 0 NALS []) (nut_angles t)) = sin (node t) + q /\ - (0.00001) <= q <= 0.00001) by (apply near_sin'; exact A0).
  assert (S1 : exists q, sin (combo (nth 1 NALS []) (nut_angles t)) = sin (2 * sun_long t) + q /\ - (0.00001) <= q <= 0.00001) by (rewrite <- sin_4pi; apply near_sin'; exact A1).
  assert (S2 : exists q, sin (combo (nth 2 NALS []) (nut_angles t)) = sin (2 * moon_long t) + q /\ - (0.00001) <= q <= 0.00001) by (apply near_sin'; exact A2).
  assert (S3 : exists q, sin (combo (nth 3 NALS []) (nut_angles t)) = sin (2 * node t) + q /\ - (0.00001) <= q <= 0.00001) by (apply near_sin'; exact A3).
  assert (K0 : exists q, cos (combo (nth 0 NALS []) (nut_angles t)) = cos (node t) + q /\ - (0.00001) <= q <= 0.00001) by (apply near_cos; exact A0).
  assert (K1 : exists q, cos (combo (nth 1 NALS []) (nut_angles t)) = cos (2 * sun_long t) + q /\ - (0.00001) <= q <= 0.00001) by (rewrite <- cos_4pi; apply near_cos; exact A1).
  assert (K2 : exists q, cos (combo (nth 2 NALS []) (nut_angles t)) = cos (2 * moon_long t) + q /\ - (0.00001) <= q <= 0.00001) by (apply near_cos; exact A2).
  assert (K3 : exists q, cos (combo (nth 3 NALS []) (nut_angles t)) = cos (2 * node t) + q /\ - (0.00001) <= q <= 0.00001) by (apply near_cos; exact A3).
  assert (MT : forall x, -1 <= x <= 1 -> -1 <= t * x <= 1) by (intros x Hx; apply Rabs_le_inv in Ht; split; nra).
  split; unfold nut_dpsi, nut_deps; apply arcsec_near; change (length NALS) with (4 + 73)%nat; rewrite sumn_4; cbv zeta.
  - assert (R : Rabs (sumR (fun i => (nut_coef i 0 + nut_coef i 1 * t) * sin (combo (nth i NALS []) (nut_angles t)) + nut_coef i 2 * cos (combo (nth i NALS []) (nut_angles t))) (seq 4 73))
      <= restcls 0 + Rabs t * restcls 1 + restcls 2).
    { unfold restcls. rewrite <- sumR_scal, <- !sumR_plus. apply sumR_abs. intros i _. rewrite <- !RC. apply trig_term; [apply sin_abs|apply cos_abs]. }
    pose proof (TT (restcls 1) (P0 1%nat)) as T1. apply Rabs_le_inv in R. set (rr := sumR _ _) in *. clearbody rr.
    rewrite C00, C01, C02, C10, C11, C12, C20, C21, C22, C30, C31, C32.
    assert (Q : forall a, -1 <= sin a <= 1 /\ -1 <= cos a <= 1 /\ -1 <= t * sin a <= 1) by (intros a; pose proof (SIN_bound a); pose proof (COS_bound a); repeat split; try lra; apply MT; lra).
    destruct (Q (combo (nth 0 NALS []) (nut_angles t))) as (Q0 & Q0' & Q0''). destruct (Q (combo (nth 1 NALS []) (nut_angles t))) as (Q1 & Q1' & Q1'').
    destruct (Q (combo (nth 2 NALS []) (nut_angles t))) as (Q2 & Q2' & Q2''). destruct (Q (combo (nth 3 NALS []) (nut_angles t))) as (Q3 & Q3' & Q3'').
    pose proof (SIN_bound (node t)). pose proof (SIN_bound (2 * sun_long t)). pose proof (SIN_bound (2 * moon_long t)). pose proof (SIN_bound (2 * node t)).
    set (a0 := combo (nth 0 NALS []) (nut_angles t)) in *. set (a1 := combo (nth 1 NALS []) (nut_angles t)) in *.
    set (a2 := combo (nth 2 NALS []) (nut_angles t)) in *. set (a3 := combo (nth 3 NALS []) (nut_angles t)) in *. clearbody a0 a1 a2 a3.
    destruct S0 as (q0 & S0 & D0). destruct S1 as (q1 & S1 & D1). destruct S2 as (q2 & S2 & D2). destruct S3 as (q3 & S3 & D3).
    unfold low_dpsi. apply Rabs_le. split; lra.
  - assert (R : Rabs (sumR (fun i => (nut_coef i 3 + nut_coef i 4 * t) * cos (combo (nth i NALS []) (nut_angles t)) + nut_coef i 5 * sin (combo (nth i NALS []) (nut_angles t))) (seq 4 73))
      <= restcls 3 + Rabs t * restcls 4 + restcls 5).
    { unfold restcls. rewrite <- sumR_scal, <- !sumR_plus. apply sumR_abs. intros i _. rewrite <- !RC. apply trig_term; [apply cos_abs|apply sin_abs]. }
    pose proof (TT (restcls 4) (P0 4%nat)) as T1. apply Rabs_le_inv in R. set (rr := sumR _ _) in *. clearbody rr.
    rewrite C03, C04, C05, C13, C14, C15, C23, C24, C25, C33, C34, C35.
    assert (Q : forall a, -1 <= sin a <= 1 /\ -1 <= cos a <= 1 /\ -1 <= t * cos a <= 1) by (intros a; pose proof (SIN_bound a); pose proof (COS_bound a); repeat split; try lra; apply MT; lra).
    destruct (Q (combo (nth 0 NALS []) (nut_angles t))) as (Q0 & Q0' & Q0''). destruct (Q (combo (nth 1 NALS []) (nut_angles t))) as (Q1 & Q1' & Q1'').
    destruct (Q (combo (nth 2 NALS []) (nut_angles t))) as (Q2 & Q2' & Q2''). destruct (Q (combo (nth 3 NALS []) (nut_angles t))) as (Q3 & Q3' & Q3'').
    pose proof (COS_bound (node t)). pose proof (COS_bound (2 * sun_long t)). pose proof (COS_bound (2 * moon_long t)). pose proof (COS_bound (2 * node t)).
    set (a0 := combo (nth 0 NALS []) (nut_angles t)) in *. set (a1 := combo (nth 1 NALS []) (nut_angles t)) in *.
    set (a2 := combo (nth 2 NALS []) (nut_angles t)) in *. set (a3 := combo (nth 3 NALS []) (nut_angles t)) in *. clearbody a0 a1 a2 a3.
    destruct K0 as (q0 & S0' & D0). destruct K1 as (q1 & S1' & D1). destruct K2 as (q2 & S2' & D2). destruct K3 as (q3 & S3' & D3).
    unfold low_deps. apply Rabs_le. split; lra.
Qed.

(** C85.  Within a century of J2000.0 the nutation is that of the four largest
    terms in the textbooks, within 0.55 and 0.15 arcseconds. *)
Lemma C85_nutation_pf : forall d, Rabs (centuries d) <= 1 -> exists dpsi deps, nutation (A := realA) d = Val (dpsi, deps) /\
  Rabs (dpsi - arcsec (low_dpsi (centuries d))) <= arcsec 0.55 /\ Rabs (deps - arcsec (low_deps (centuries d))) <= arcsec 0.15.
Proof.
  intros d H. exists (nut_dpsi (centuries d)), (nut_deps (centuries d)). split; [apply C60_nutation_series_pf|]. apply nut_low. exact H.
Qed.

(** ** The pole *)

Definition e3 : vec3 realA := V3 (A := realA) 0 0 1.

Lemma row3_act : forall m j, coord (act m e3) j = entry m I2 j.
Proof. intros m j. unfold act, mapply, coord, entry, e3. destruct j; cbn [vget v0 v1 v2]; realA_ops; change (num realA) with R; ring. Qed.

Lemma act_R1 : forall x a b c, act (rot3 I0 x) (V3 (A := realA) a b c) = V3 (A := realA) a (b * cos x - c * sin x) (b * sin x + c * cos x).
Proof. intros. unfold act, mapply, rot3. cbn [mget mrow vget r0 r1 r2 v0 v1 v2]. realA_ops. change (num realA) with R. f_equal; ring. Qed.
Lemma act_R3 : forall x a b c, act (rot3 I2 x) (V3 (A := realA) a b c) = V3 (A := realA) (a * cos x - b * sin x) (a * sin x + b * cos x) c.
Proof. intros. unfold act, mapply, rot3. cbn [mget mrow vget r0 r1 r2 v0 v1 v2]. realA_ops. change (num realA) with R. f_equal; ring. Qed.

Lemma n_act : forall e dp de, act (N_matrix e dp de) e3 = V3 (A := realA) (sin (e + de) * sin dp)
  (sin de - sin (e + de) * cos e * (1 - cos dp)) (cos de - sin (e + de) * sin e * (1 - cos dp)).
Proof.
  intros e dp de. unfold N_matrix. rewrite product_3, !act_mm. unfold R1, R3, e3. rewrite act_R1, act_R3, act_R1, !sin_neg, !cos_neg.
  set (a := e + de). replace de with (a - e) by (unfold a; ring). rewrite sin_minus, cos_minus. clearbody a. f_equal; ring.
Qed.
Lemma p_act : forall t, exists z, act (P_matrix t) e3 = V3 (A := realA) (sin (omega_A t) * sin (psi_A t))
  (sin (omega_A t - eps_0) - sin (omega_A t) * cos eps_0 * (1 - cos (psi_A t))) z.
Proof.
  intros t. unfold P_matrix. rewrite product_4, !act_mm. unfold R1, R3, e3. rewrite act_R3, act_R1, act_R3, act_R1, !sin_neg, !cos_neg, sin_minus.
  eexists. f_equal; ring.
Qed.

Lemma sin_t5 : forall x, Rabs x <= 1 -> Rabs (sin x - (x - x ^ 3 / 6)) <= Rabs x ^ 5 / 120.
Proof.
  intros x Hx. destruct (Rle_dec 0 x) as [H|H].
  - rewrite (Rabs_pos_eq x) in * by exact H. pose proof (sin_taylor5 x ltac:(lra)). assert (0 <= x ^ 5) by (apply pow_le; lra). apply Rabs_le. lra.
  - rewrite (Rabs_left x) in * by lra. pose proof (sin_taylor5 (- x) ltac:(lra)) as S. rewrite sin_neg in S.
    assert (0 <= (- x) ^ 5) by (apply pow_le; lra). replace ((- x) ^ 3) with (- x ^ 3) in S by ring. apply Rabs_le. lra.
Qed.

Lemma eps0_trig : 0.397768 <= sin eps_0 <= 0.397783 /\ 0.917474 <= cos eps_0 <= 0.917490.
Proof.
  unfold eps_0, arcsec. pose proof PI_bounds as P. set (x := 84381.448 * (PI / 648000)).
  assert (X : 0.4090926 <= x <= 0.4090930) by (unfold x; lra). clearbody x.
  assert (H : 0.2045463 <= x / 2 <= 0.2045465) by lra.
  destruct (sin_taylor5 0.2045463 ltac:(lra)) as [S1 _]. destruct (sin_taylor5 0.2045465 ltac:(lra)) as [_ S2].
  destruct (cos_taylor6 0.2045463 ltac:(lra)) as [_ C2]. destruct (cos_taylor6 0.2045465 ltac:(lra)) as [C1 _].
  assert (A : sin 0.2045463 <= sin (x / 2)) by (apply sin_incr_1; lra). assert (B : sin (x / 2) <= sin 0.2045465) by (apply sin_incr_1; lra).
  assert (C : cos 0.2045465 <= cos (x / 2)) by (apply cos_decr_1; lra). assert (D : cos (x / 2) <= cos 0.2045463) by (apply cos_decr_1; lra).
  replace x with (2 * (x / 2)) by field. rewrite sin_2a, cos_2a_sin.
  set (s := sin (x / 2)) in *. set (c := cos (x / 2)) in *.
  assert (S' : 0.203119 <= s <= 0.203124) by lra. assert (C' : 0.979153 <= c <= 0.979156) by lra. clear - S' C'. clearbody s c.
  split; split; nra.
Qed.

(** Precession alone. *)
Lemma mulb : forall a b x y, Rabs x <= a -> Rabs y <= b -> Rabs (x * y) <= a * b.
Proof. intros a b x y H1 H2. rewrite Rabs_mult. apply Rmult_le_compat; auto using Rabs_pos. Qed.
Lemma abs_ring : forall x, x <= Rabs x /\ - x <= Rabs x.
Proof. intros x. split; [apply Rle_abs|rewrite <- Rabs_Ropp; apply Rle_abs]. Qed.

Lemma p_low : forall t, Rabs t <= 1 ->
  Rabs (sin (omega_A t) * sin (psi_A t) - arcsec (2004.191898 * t - 0.4297829 * t ^ 2 - 0.19861834 * t ^ 3)) <= arcsec 0.1 /\
  Rabs (sin (omega_A t - eps_0) - sin (omega_A t) * cos eps_0 * (1 - cos (psi_A t)) - arcsec (- 22.4072747 * t ^ 2 + 0.00190059 * t ^ 3)) <= arcsec 0.1.
Proof.
  intros t Ht. pose proof Ht as At. apply Rabs_le_inv in Ht. pose proof PI_bounds as P.
  assert (T2 : 0 <= t ^ 2 <= 1) by nra. assert (T3 : -1 <= t ^ 3 <= 1) by (replace (t ^ 3) with (t * t ^ 2) by ring; split; nra).
  destruct eps0_trig as [S0 C0]. set (k := PI / 648000). assert (K : 0.0000048481368 <= k <= 0.0000048481369) by (unfold k; lra).
  assert (EP : psi_A t = k * (5038.47875 * t) + k * (- 1.07259 * t ^ 2 - 0.001147 * t ^ 3)) by (unfold psi_A, arcsec; fold k; lra).
  assert (ED : omega_A t - eps_0 = k * (0.05127 * t ^ 2 - 0.007726 * t ^ 3 - 0.02524 * t)) by (unfold omega_A, eps_0, arcsec; fold k; lra).
  assert (SO : exists q, sin (omega_A t) = sin eps_0 + q /\ - (0.0000005) <= q <= 0.0000005).
  { apply near_sin. rewrite ED. apply Rabs_le. assert (Hk : -0.1 <= 0.05127 * t ^ 2 - 0.007726 * t ^ 3 - 0.02524 * t <= 0.1) by lra.
    set (w := 0.05127 * t ^ 2 - 0.007726 * t ^ 3 - 0.02524 * t) in *. clearbody w. clear - K Hk. split; nra. }
  destruct SO as (q & SO & Q). rewrite SO. clear SO.
  set (d := omega_A t - eps_0) in *.
  set (p := psi_A t) in *. set (s0 := sin eps_0) in *. set (c0 := cos eps_0) in *. clearbody d p s0 c0.
  set (c := k * 5038.47875). assert (C : 0.02442723 <= c <= 0.02442724) by (unfold c; lra).
  set (g := - 1.07259 * t ^ 2 - 0.001147 * t ^ 3) in *. assert (G : -1.0738 <= g <= 0.0012) by (unfold g; lra).
  set (h := k * g) in *. assert (H : - 0.0000053 <= h <= 0.0000053) by (unfold h; clearbody g; clear - K G; split; nra).
  assert (EP' : p = c * t + h) by (rewrite EP; unfold c; ring).
  assert (PB : Rabs p <= 0.0245) by (rewrite EP'; clearbody c h; apply Rabs_le; clear - Ht C H; split; nra).
  unfold arcsec. fold k. split.
  - destruct (abs_ring (sin p - (p - p ^ 3 / 6))) as [R1 R2].
    pose proof (sin_t5 p ltac:(lra)) as R. assert (P5 : Rabs p ^ 5 / 120 <= 0.000000001).
    { assert (Rabs p ^ 5 <= 0.0245 ^ 5) by (apply pow_incr; split; [apply Rabs_pos|exact PB]). lra. }
    set (r := sin p - (p - p ^ 3 / 6)) in *. assert (RB : -0.000000001 <= r <= 0.000000001) by lra.
    assert (SB : -0.025 <= sin p <= 0.025).
    { destruct (near_sin p 0 0.0245) as (z & Z & ZB); [rewrite Rminus_0_r; exact PB|]. rewrite sin_0 in Z. lra. }
    assert (E : (s0 + q) * sin p - (2004.191898 * t - 0.4297829 * t ^ 2 - 0.19861834 * t ^ 3) * k
      = (s0 * c - k * 2004.191898) * t + (s0 * h + k * 0.4297829 * t ^ 2) + (k * 0.19861834 - s0 * (c * c * c) / 6) * t ^ 3
        - s0 * (3 * (c * t) * (c * t) * h + 3 * (c * t) * (h * h) + h * h * h) / 6 + s0 * r + q * sin p).
    { replace (s0 * r) with (s0 * (sin p - ((c * t + h) - (c * t + h) ^ 3 / 6))) by (unfold r; rewrite <- EP'; reflexivity). ring_simplify. lra. }
    rewrite E. clear E EP EP' R R1 R2. clearbody r.
    assert (B1 : Rabs (s0 * c - k * 2004.191898) <= 0.00000026) by (clearbody c; apply Rabs_le; clear - S0 C K; split; nra).
    assert (B2 : Rabs (s0 * h + k * 0.4297829 * t ^ 2) <= 0.00000003).
    { unfold h, g. replace (s0 * (k * (-1.07259 * t ^ 2 - 0.001147 * t ^ 3)) + k * 0.4297829 * t ^ 2) with (k * ((0.4297829 - 1.07259 * s0) * t ^ 2 - 0.001147 * s0 * t ^ 3)) by lra.
      assert (W : - 0.005 <= (0.4297829 - 1.07259 * s0) * t ^ 2 - 0.001147 * s0 * t ^ 3 <= 0.005) by (clear - S0 T2 T3; split; nra).
      set (w := (0.4297829 - 1.07259 * s0) * t ^ 2 - 0.001147 * s0 * t ^ 3) in *. clearbody w. apply Rabs_le. clear - W K. split; nra. }
    assert (B3 : Rabs (k * 0.19861834 - s0 * (c * c * c) / 6) <= 0.00000001).
    { clearbody c. assert (0.000014575 <= c * c * c <= 0.000014576) by (clear - C; assert (0.00059668 <= c * c <= 0.00059670) by nra; split; nra).
      set (w := c * c * c) in *. clearbody w. apply Rabs_le. clear - S0 K H0. split; nra. }
    assert (B4 : Rabs (s0 * (3 * (c * t) * (c * t) * h + 3 * (c * t) * (h * h) + h * h * h) / 6) <= 0.00000001).
    { clearbody c h. assert (V : -0.0245 <= c * t <= 0.0245) by (clear - C Ht; split; nra). set (v := c * t) in *. clearbody v. 
      assert (V2 : 0 <= v * v <= 0.00061) by (clear - V; split; nra). assert (H2 : 0 <= h * h <= 0.0000000001) by (clear - H; split; nra).
      assert (W : -0.00000005 <= 3 * v * v * h + 3 * v * (h * h) + h * h * h <= 0.00000005).
      { replace (3 * v * v * h + 3 * v * (h * h) + h * h * h) with (3 * ((v * v) * h) + 3 * (v * (h * h)) + (h * h) * h) by ring.
        set (v2 := v * v) in *. set (h2 := h * h) in *. clearbody v2 h2. 
        assert (-0.00000001 <= v2 * h <= 0.00000001) by (clear - V2 H; split; nra). assert (-0.0000000001 <= v * h2 <= 0.0000000001) by (clear - V H2; split; nra).
        assert (-0.0000000001 <= h2 * h <= 0.0000000001) by (clear - H2 H; split; nra). lra. }
      set (w := 3 * v * v * h + 3 * v * (h * h) + h * h * h) in *. clearbody w. apply Rabs_le. clear - W S0. split; nra. }
    assert (B5 : Rabs (s0 * r) <= 0.000000001) by (apply Rabs_le; clear - S0 RB; split; nra).
    assert (B6 : Rabs (q * sin p) <= 0.00000002) by (apply Rabs_le; set (w := sin p) in *; clearbody w; clear - Q SB; split; nra).
    pose proof (mulb _ _ _ _ B1 At) as B1'. assert (A3 : Rabs (t ^ 3) <= 1) by (apply Rabs_le; lra). pose proof (mulb _ _ _ _ B3 A3) as B3'.
    apply Rabs_le_inv in B1'. apply Rabs_le_inv in B2. apply Rabs_le_inv in B3'. apply Rabs_le_inv in B4. apply Rabs_le_inv in B5. apply Rabs_le_inv in B6.
    apply Rabs_le. lra.
  - destruct (cos_taylor4 p ltac:(lra)) as [R1 R2].
    assert (P4 : 0 <= p ^ 4 / 24 <= 0.00000002).
    { assert (Rabs p ^ 4 <= 0.0245 ^ 4) by (apply pow_incr; split; [apply Rabs_pos|exact PB]). rewrite RPow_abs in H0. pose proof (Rle_abs (p ^ 4)).
      assert (0 <= p ^ 4) by (replace (p ^ 4) with ((p * p) * (p * p)) by ring; apply Rle_0_sqr). lra. }
    set (r := cos p - (1 - p * p / 2)) in *. assert (RB : 0 <= r <= 0.00000002) by lra.
    assert (DB : -0.1 <= 0.05127 * t ^ 2 - 0.007726 * t ^ 3 - 0.02524 * t <= 0.1) by lra.
    assert (DD : -0.0000005 <= d <= 0.0000005).
    { rewrite ED. set (w := 0.05127 * t ^ 2 - 0.007726 * t ^ 3 - 0.02524 * t) in *. clearbody w. clear - K DB. split; nra. }
    assert (SD : Rabs (sin d - d) <= 0.000000001).
    { assert (D1 : Rabs d <= 0.001) by (apply Rabs_le; lra). pose proof (sin_t5 d ltac:(lra)) as R. pose proof (Rabs_pos d).
      assert (Rabs d ^ 5 <= 0.001 ^ 5) by (apply pow_incr; lra).
      assert (D3 : -0.0000000001 <= d ^ 3 <= 0.0000000001) by (replace (d ^ 3) with (d * (d * d)) by ring; clear - DD; assert (0 <= d * d <= 0.0000000001) by (split; nra); set (w := d * d) in *; clearbody w; split; nra).
      apply Rabs_le_inv in R. apply Rabs_le. lra. }
    assert (W : 0.36492 <= s0 * c0 <= 0.36498) by (clear - S0 C0; split; nra).
    assert (E : sin d - (s0 + q) * c0 * (1 - cos p) - (-22.4072747 * t ^ 2 + 0.00190059 * t ^ 3) * k
      = (sin d - d) + k * (0.05127 * t ^ 2 - 0.007726 * t ^ 3 - 0.02524 * t) + (k * 22.4072747 - s0 * c0 * (c * c) / 2) * t ^ 2 - k * 0.00190059 * t ^ 3
        - s0 * c0 * ((c * t) * h + h * h / 2) + s0 * c0 * r - q * (c0 * (1 - cos p))).
    { rewrite <- ED. replace (s0 * c0 * r) with (s0 * c0 * (cos p - (1 - (c * t + h) * (c * t + h) / 2))) by (unfold r; rewrite <- EP'; reflexivity). ring_simplify. lra. }
    rewrite E. clear E. 
    assert (CP : 0 <= 1 - cos p <= 0.01).
    { pose proof (COS_bound p). apply Rabs_le_inv in PB. assert (0 <= p * p <= 0.001) by (clear - PB; split; nra). unfold r in RB. lra. }
    clear EP EP' R1 R2. clearbody r.
    assert (B1 : Rabs (k * (22.4072747 + 0.05127) - s0 * c0 * (c * c) / 2) <= 0.00000006).
    { clearbody c. assert (C2 : 0.00059668 <= c * c <= 0.00059670) by (clear - C; split; nra). set (w := s0 * c0) in *. set (z := c * c) in *. clearbody w z.
      assert (0.00021774 <= w * z <= 0.00021779) by (clear - W C2; split; nra). apply Rabs_le. lra. }
    assert (B2 : Rabs (k * (- 0.007726 * t ^ 3 - 0.02524 * t - 0.00190059 * t ^ 3)) <= 0.0000002).
    { assert (V : -0.035 <= - 0.007726 * t ^ 3 - 0.02524 * t - 0.00190059 * t ^ 3 <= 0.035) by lra. set (v := - 0.007726 * t ^ 3 - 0.02524 * t - 0.00190059 * t ^ 3) in *. clearbody v.
      apply Rabs_le. clear - V K. split; nra. }
    assert (B3 : Rabs (s0 * c0 * ((c * t) * h + h * h / 2)) <= 0.00000006).
    { clearbody c h. assert (V : -0.0245 <= c * t <= 0.0245) by (clear - C Ht; split; nra). set (v := c * t) in *. clearbody v.
      assert (H2 : 0 <= h * h <= 0.0000000001) by (clear - H; split; nra). assert (VH : -0.00000014 <= v * h <= 0.00000014) by (clear - V H; split; nra).
      set (w := s0 * c0) in *. set (z := v * h + h * h / 2). assert (Z : -0.00000015 <= z <= 0.00000015) by (unfold z; lra). clearbody w z. apply Rabs_le. clear - W Z. split; nra. }
    assert (B4 : Rabs (s0 * c0 * r) <= 0.00000001) by (apply Rabs_le; set (w := s0 * c0) in *; clearbody w; clear - W RB; split; nra).
    assert (B5 : Rabs (q * (c0 * (1 - cos p))) <= 0.00000001).
    { set (w := 1 - cos p) in *. clearbody w. assert (V : 0 <= c0 * w <= 0.01) by (clear - C0 CP; split; nra). set (v := c0 * w) in *. clearbody v. apply Rabs_le. clear - Q V. split; nra. }
    assert (A2 : Rabs (t ^ 2) <= 1) by (apply Rabs_le; lra). pose proof (mulb _ _ _ _ B1 A2) as B1'.
    apply Rabs_le_inv in B1'. apply Rabs_le_inv in B2. apply Rabs_le_inv in B3. apply Rabs_le_inv in B4. apply Rabs_le_inv in B5. apply Rabs_le_inv in SD.
    apply Rabs_le. lra.
Qed.

Lemma one_cos_small : forall x b, Rabs x <= b -> 0 <= 1 - cos x <= b * b / 2.
Proof.
  intros x b H. pose proof (COS_bound x). pose proof (one_minus_cos x) as C. pose proof (mulb _ _ _ _ H H) as M. pose proof (Rle_abs (x * x)). lra.
Qed.
Lemma sin_small : forall x b, Rabs x <= b -> b <= 1 -> Rabs (sin x - x) <= b ^ 3 / 6 + b ^ 5 / 120.
Proof.
  intros x b H B. pose proof (sin_t5 x ltac:(lra)) as S. pose proof (Rabs_pos x). assert (Rabs x ^ 5 <= b ^ 5) by (apply pow_incr; lra).
  assert (Rabs x ^ 3 <= b ^ 3) by (apply pow_incr; lra). rewrite RPow_abs in H2. apply Rabs_le_inv in H2. apply Rabs_le_inv in S. apply Rabs_le. lra.
Qed.

(** Nutation alone. *)
Lemma n_low : forall t dp de, Rabs t <= 1 -> Rabs dp <= arcsec 19.475 -> Rabs de <= arcsec 10.0875 ->
  exists f0 f1 f2, act (N_matrix (eps_A t) dp de) e3 = V3 (A := realA) f0 f1 (1 + f2) /\
  Rabs (f0 - 0.39777 * dp) <= arcsec 0.01 /\ Rabs (f1 - de) <= arcsec 0.005 /\ nrm (V3 (A := realA) f0 f1 f2) <= arcsec 12.8.
Proof.
  intros t dp de Ht Hp He. rewrite n_act. pose proof PI_bounds as P. unfold arcsec in *. set (k := PI / 648000) in *.
  assert (K : 0.0000048481368 <= k <= 0.0000048481369) by (unfold k; lra).
  assert (Hp' : Rabs dp <= 0.0000944175) by lra. assert (He' : Rabs de <= 0.0000489056) by lra.
  pose proof (one_cos_small _ _ Hp') as CP. pose proof (one_cos_small _ _ He') as CE.
  pose proof (sin_small _ _ Hp' ltac:(lra)) as SP. pose proof (sin_small _ _ He' ltac:(lra)) as SE.
  destruct eps0_trig as [S0 C0].
  assert (D : Rabs (eps_A t + de - eps_0) <= 0.00028).
  { unfold eps_A, eps_1980, eps_0, arcsec. fold k. apply Rabs_le_inv in Ht. apply Rabs_le_inv in He'.
    match goal with |- Rabs ?x <= _ => replace x with (k * (- 46.8150 * t - 0.00059 * t ^ 2 + 0.001813 * t ^ 3 - 0.02524 * t) + de) by lra end.
    assert (T2 : 0 <= t ^ 2 <= 1) by nra. assert (T3 : -1 <= t ^ 3 <= 1) by (replace (t ^ 3) with (t * t ^ 2) by ring; split; nra).
    set (w := - 46.8150 * t - 0.00059 * t ^ 2 + 0.001813 * t ^ 3 - 0.02524 * t). assert (W : -47 <= w <= 47) by (unfold w; lra). clearbody w.
    apply Rabs_le. clear - W K He'. split; nra. }
  destruct (near_sin _ _ _ D) as (q & SQ & Q). rewrite SQ.
  assert (SA : 0.39748 <= sin eps_0 + q <= 0.39807) by lra. set (s := sin eps_0 + q) in *. clearbody s.
  set (c := cos (eps_A t)). set (s' := sin (eps_A t)).
  assert (C1 : -1 <= c <= 1) by apply COS_bound. assert (S1 : -1 <= s' <= 1) by apply SIN_bound. clearbody c s'.
  set (u := 1 - cos dp) in *. clearbody u.
  assert (B1 : Rabs (s * c * u) <= 0.000000005).
  { assert (-0.4 <= s * c <= 0.4) by (clear - SA C1; split; nra). set (w := s * c) in *. clearbody w. apply Rabs_le. clear - H CP. split; nra. }
  assert (B2 : Rabs (s * s' * u) <= 0.000000005).
  { assert (-0.4 <= s * s' <= 0.4) by (clear - SA S1; split; nra). set (w := s * s') in *. clearbody w. apply Rabs_le. clear - H CP. split; nra. }
  exists (s * sin dp), (sin de - s * c * u), (cos de - 1 - s * s' * u). split; [f_equal; ring|].
  apply Rabs_le_inv in Hp'. apply Rabs_le_inv in He'. apply Rabs_le_inv in SP. apply Rabs_le_inv in SE. apply Rabs_le_inv in B1. apply Rabs_le_inv in B2.
  assert (F0 : -0.00004 <= (s - 0.39777) * dp * 1000 <= 0.00004) by (clear - Hp' SA; split; nra).
  assert (F1 : -0.000000000001 <= s * (sin dp - dp) <= 0.000000000001) by (set (w := sin dp - dp) in *; clearbody w; clear - SP SA; split; nra).
  assert (F2 : -0.0000375862 <= s * dp <= 0.0000375862) by (clear - Hp' SA; split; nra).
  split; [|split].
  - replace (s * sin dp - 0.39777 * dp) with ((s - 0.39777) * dp + s * (sin dp - dp)) by ring. apply Rabs_le. lra.
  - replace (sin de - s * c * u - de) with ((sin de - de) - s * c * u) by ring. apply Rabs_le. lra.
  - apply nrm_le; [lra|]. unfold sprod, coord. cbn [vget v0 v1 v2]. change (num realA) with R in *.
    assert (X : -0.0000376 <= s * sin dp <= 0.0000376) by (replace (s * sin dp) with (s * dp + s * (sin dp - dp)) by ring; lra).
    assert (Y : -0.000049 <= sin de - s * c * u <= 0.000049) by lra. assert (Z : -0.00000001 <= cos de - 1 - s * s' * u <= 0.00000001) by lra.
    set (x := s * sin dp) in *. set (y := sin de - s * c * u) in *. set (z := cos de - 1 - s * s' * u) in *. clearbody x y z.
    assert (x * x <= 0.0000376 * 0.0000376) by (clear - X; nra). assert (y * y <= 0.000049 * 0.000049) by (clear - Y; nra). assert (z * z <= 0.00000001 * 0.00000001) by (clear - Z; nra).
    assert (0.0000620 * 0.0000620 <= (12.8 * k) * (12.8 * k)) by (clear - K; nra). lra.
Qed.

Lemma addv_sub : forall u v, addv v (sub u v) = u.
Proof. intros [a b c] [x y z]. vec_calc. f_equal; ring. Qed.
Lemma act_add : forall m u v, act m (addv u v) = addv (act m u) (act m v).
Proof.
  intros m [x0 x1 x2] [y0 y1 y2]. apply vec_ext. intros i.
  destruct i; unfold act, mapply, addv, vadd, coord; cbn [vget v0 v1 v2 mget mrow r0 r1 r2]; realA_ops; change (num realA) with R; ring.
Qed.
Lemma coord_le : forall v j, Rabs (coord v j) <= nrm v.
Proof. intros [x y z] j. destruct (comp_le x y z _ (Rle_refl _)) as (A & B & C). destruct j; assumption. Qed.
Lemma coord_sub : forall u v j, coord (sub u v) j = coord u j - coord v j.
Proof. intros [a b c] [x y z] j. destruct j; vec_calc; ring. Qed.
Lemma coord_add : forall u v j, coord (addv u v) j = coord u j + coord v j.
Proof. intros [a b c] [x y z] j. destruct j; vec_calc; ring. Qed.

(** C86.  Within a century of J2000.0 the pole of precession_nutation is that of
    the leading terms of the IERS series within an arcsecond. *)
Lemma C86_pole_pf : forall d, Rabs (centuries d) <= 1 -> exists m, precession_nutation (A := realA) d = Val m /\
  Rabs (entry m I2 I0 - arcsec (low_x (centuries d))) <= arcsec 1 /\ Rabs (entry m I2 I1 - arcsec (low_y (centuries d))) <= arcsec 1.
Proof.
  intros d H. destruct (nutation_bound d) as (dpsi & deps & EN & B1 & B2).
  destruct (C85_nutation_pf d H) as (dpsi' & deps' & EN' & L1 & L2). rewrite EN in EN'. injection EN' as <- <-.
  destruct C35_frames_proper_pf as (_ & _ & _ & PN & _). destruct (PN d) as (m & Em & Pm). exists m. split; [exact Em|].
  unfold precession_nutation, pn_from_tt in Em. rewrite EN in Em. cbn [bind] in Em.
  destruct (proj1 (proj2 (proj2 (proj2 C37_matrix_products_pf))) d dpsi deps) as (pn & E1 & _ & E2).
  rewrite E1 in Em. cbn [bind] in Em. assert (Em' : pn_rbpn (A := realA) pn = m) by congruence. clear Em. subst m.
  rewrite E2, product_3, <- !row3_act, !act_mm in *. clear E1 E2 EN PN Pm pn. set (t := centuries d) in *. clearbody t.
  assert (B1' : Rabs dpsi <= arcsec 19.475) by (eapply Rle_trans; [exact B1|apply arcsec_le; lra]).
  assert (B2' : Rabs deps <= arcsec 10.0875) by (eapply Rle_trans; [exact B2|apply arcsec_le; lra]).
  destruct (n_low t dpsi deps H B1' B2') as (f0 & f1 & f2 & EN & F0 & F1 & FN). rewrite EN.
  set (f := V3 (A := realA) f0 f1 f2) in *. replace (V3 (A := realA) f0 f1 (1 + f2)) with (addv e3 f) by (unfold f, e3; vec_calc; f_equal; ring).
  destruct (p_act t) as (z & EP). pose proof (p_low t H) as [PX PY].
  pose proof (near_precession t 1 ltac:(lra) H f) as NP.
  pose proof (near_bias (act (P_matrix t) (addv e3 f))) as NB.
  assert (PP : proper (P_matrix t)) by (rewrite <- rpRt_R; apply rpRt_proper).
  assert (NV : nrm (act (P_matrix t) (addv e3 f)) <= 1.0001).
  { rewrite act_nrm by exact PP. eapply Rle_trans; [apply nrm_triangle|]. assert (nrm e3 <= 1) by (apply nrm_le; [lra|unfold e3, sprod, coord; cbn [vget v0 v1 v2]; change (num realA) with R; lra]).
    unfold arcsec in FN. pose proof PI_bounds. lra. }
  set (v := act (P_matrix t) (addv e3 f)) in *.
  assert (V : forall j, coord v j = coord (act (P_matrix t) e3) j + coord f j + coord (sub (act (P_matrix t) f) f) j).
  { intros j. unfold v. rewrite act_add, coord_add, coord_sub. ring. }
  assert (W : forall j, coord (act B_matrix v) j = coord v j + coord (sub (act B_matrix v) v) j) by (intros j; rewrite coord_sub; ring).
  pose proof (coord_le (sub (act B_matrix v) v)) as X1. pose proof (coord_le (sub (act (P_matrix t) f) f)) as X2.
  pose proof PI_bounds as P. set (k := PI / 648000) in *. assert (K : 0.0000048481368 <= k <= 0.0000048481369) by (unfold k; lra).
  assert (Y1 : nrm (sub (act B_matrix v) v) <= k * 0.10001).
  { eapply Rle_trans; [exact NB|]. unfold arcsec. fold k. set (n := nrm v) in *. clearbody n. clear - NV K. nra. }
  assert (Y2 : nrm (sub (act (P_matrix t) f) f) <= k * 0.3136).
  { eapply Rle_trans; [exact NP|]. unfold arcsec in *. fold k in FN |- *. pose proof (nrm_pos f). set (n := nrm f) in *. clearbody n. clear - FN K H0. nra. }
  rewrite !W, !V, EP. specialize (X1 I0) as X10. specialize (X1 I1) as X11. specialize (X2 I0) as X20. specialize (X2 I1) as X21.
  set (a0 := coord (sub (act B_matrix v) v) I0) in *. set (a1 := coord (sub (act B_matrix v) v) I1) in *.
  set (b0 := coord (sub (act (P_matrix t) f) f) I0) in *. set (b1 := coord (sub (act (P_matrix t) f) f) I1) in *.
  unfold coord, f. cbn [vget v0 v1 v2]. change (num realA) with R in *. clearbody a0 a1 b0 b1.
  set (px := sin (omega_A t) * sin (psi_A t)) in *. set (py := sin (omega_A t - eps_0) - sin (omega_A t) * cos eps_0 * (1 - cos (psi_A t))) in *. clearbody px py.
  assert (D1 : Rabs (arcsec (2004.191898 * t - 0.4297829 * t ^ 2 - 0.19861834 * t ^ 3) + 0.39777 * arcsec (low_dpsi t) - arcsec (low_x t)) <= k * 0.18).
  { unfold arcsec. fold k. unfold low_dpsi, low_x. pose proof (SIN_bound (node t)). pose proof (SIN_bound (2 * sun_long t)). pose proof (SIN_bound (2 * moon_long t)). pose proof (SIN_bound (2 * node t)).
    set (x1 := sin (node t)) in *. set (x2 := sin (2 * sun_long t)) in *. set (x3 := sin (2 * moon_long t)) in *. set (x4 := sin (2 * node t)) in *. clearbody x1 x2 x3 x4.
    replace (_ - _) with (k * (0.39777 * (- 17.20 * x1 - 1.32 * x2 - 0.23 * x3 + 0.21 * x4) + 6.844318 * x1 + 0.523908 * x2)) by ring.
    rewrite Rabs_mult, (Rabs_pos_eq k) by lra. apply Rmult_le_compat_l; [lra|]. apply Rabs_le. lra. }
  assert (D2 : Rabs (arcsec (- 22.4072747 * t ^ 2 + 0.00190059 * t ^ 3) + arcsec (low_deps t) - arcsec (low_y t)) <= k * 0.2).
  { unfold arcsec. fold k. unfold low_deps, low_y. pose proof (COS_bound (node t)). pose proof (COS_bound (2 * sun_long t)). pose proof (COS_bound (2 * moon_long t)). pose proof (COS_bound (2 * node t)).
    set (x1 := cos (node t)) in *. set (x2 := cos (2 * sun_long t)) in *. set (x3 := cos (2 * moon_long t)) in *. set (x4 := cos (2 * node t)) in *. clearbody x1 x2 x3 x4.
    replace (_ - _) with (k * (9.20 * x1 + 0.57 * x2 + 0.10 * x3 - 0.09 * x4 - 9.205236 * x1 - 0.573033 * x2)) by ring.
    rewrite Rabs_mult, (Rabs_pos_eq k) by lra. apply Rmult_le_compat_l; [lra|]. apply Rabs_le. lra. }
  set (w1 := arcsec (2004.191898 * t - 0.4297829 * t ^ 2 - 0.19861834 * t ^ 3)) in *. set (w2 := arcsec (- 22.4072747 * t ^ 2 + 0.00190059 * t ^ 3)) in *.
  set (g1 := arcsec (low_dpsi t)) in *. set (g2 := arcsec (low_deps t)) in *. set (h1 := arcsec (low_x t)) in *. set (h2 := arcsec (low_y t)) in *. clearbody w1 w2 g1 g2 h1 h2.
  unfold arcsec in *. fold k in PX, PY, L1, L2, F0, F1 |- *. clearbody k. apply Rabs_le_inv in PX. apply Rabs_le_inv in PY. apply Rabs_le_inv in L1. apply Rabs_le_inv in L2.
  apply Rabs_le_inv in F0. apply Rabs_le_inv in F1. apply Rabs_le_inv in D1. apply Rabs_le_inv in D2.
  assert (A : Rabs a0 <= k * 0.10001 /\ Rabs a1 <= k * 0.10001 /\ Rabs b0 <= k * 0.3136 /\ Rabs b1 <= k * 0.3136) by (repeat split; eapply Rle_trans; eassumption).
  destruct A as (A0 & A1 & A2 & A3). apply Rabs_le_inv in A0. apply Rabs_le_inv in A1. apply Rabs_le_inv in A2. apply Rabs_le_inv in A3.
  split; apply Rabs_le; lra.
Qed.

(** When the node is at 90 degrees (662 days after J2000.0)
    the nutation in longitude is near its minimum. *)
Example C85_example_pf : let d := MkTT (A := realA) 2451545 (36525 * (35.04452 / 1934.136261)) in
  node (centuries d) = PI / 2 /\ exists dpsi deps, nutation (A := realA) d = Val (dpsi, deps) /\ arcsec (-19.3) <= dpsi <= arcsec (-15.1) /\ Rabs deps <= arcsec 0.91.
Proof.
  cbv zeta. set (d := MkTT _ _). assert (C : centuries d = 35.04452 / 1934.136261) by (unfold centuries, d; cbn [tt_1 tt_2]; change (num realA) with R; lra).
  assert (N : node (centuries d) = PI / 2) by (rewrite C; unfold node, degrees; lra). split; [exact N|].
  assert (H : Rabs (centuries d) <= 1) by (rewrite C; apply Rabs_le; lra).
  destruct (C85_nutation_pf d H) as (dpsi & deps & E & B1 & B2). exists dpsi, deps. split; [exact E|].
  unfold low_dpsi, low_deps in *. replace (2 * node (centuries d)) with PI in * by (rewrite N; field). rewrite N, sin_PI2, sin_PI in B1. rewrite N, cos_PI2, cos_PI in B2.
  pose proof (SIN_bound (2 * sun_long (centuries d))). pose proof (SIN_bound (2 * moon_long (centuries d))). pose proof (COS_bound (2 * sun_long (centuries d))). pose proof (COS_bound (2 * moon_long (centuries d))).
  set (x1 := sin (2 * sun_long _)) in *. set (x2 := sin (2 * moon_long _)) in *. set (x3 := cos (2 * sun_long _)) in *. set (x4 := cos (2 * moon_long _)) in *. clearbody x1 x2 x3 x4.
  unfold arcsec in *. assert (K : 0 < PI / 648000) by (pose proof PI_bounds; lra). set (k := PI / 648000) in *. clearbody k. apply Rabs_le_inv in B1. apply Rabs_le_inv in B2.
  assert (Q : forall x, -1 <= x <= 1 -> - k <= k * x <= k) by (intros x Hx; split; nra).
  pose proof (Q x1 H0). pose proof (Q x2 H1). pose proof (Q x3 H2). pose proof (Q x4 H3). split; [split; lra|apply Rabs_le; lra].
Qed.

(** A century after J2000.0 the pole has moved by 2004 arcseconds less the nutation. *)
Example C86_example_pf : let d := MkTT (A := realA) 2451545 36525 in centuries d = 1 /\ exists m, precession_nutation (A := realA) d = Val m /\
  arcsec 1995 <= entry m I2 I0 <= arcsec 2012 /\ arcsec (-34) <= entry m I2 I1 <= arcsec (-11).
Proof.
  cbv zeta. set (d := MkTT _ _). assert (C : centuries d = 1) by (unfold centuries, d; cbn [tt_1 tt_2]; change (num realA) with R; lra). split; [exact C|].
  assert (H : Rabs (centuries d) <= 1) by (rewrite C; apply Rabs_le; lra).
  destruct (C86_pole_pf d H) as (m & E & B1 & B2). exists m. split; [exact E|]. unfold low_x, low_y in *. rewrite C in *. clearbody d.
  pose proof (SIN_bound (node 1)). pose proof (SIN_bound (2 * sun_long 1)). pose proof (COS_bound (node 1)). pose proof (COS_bound (2 * sun_long 1)).
  set (x1 := sin (node 1)) in *. set (x2 := sin (2 * sun_long 1)) in *. set (x3 := cos (node 1)) in *. set (x4 := cos (2 * sun_long 1)) in *. clearbody x1 x2 x3 x4.
  unfold arcsec in *. assert (K : 0 < PI / 648000) by (pose proof PI_bounds; lra). set (k := PI / 648000) in *. clearbody k. apply Rabs_le_inv in B1. apply Rabs_le_inv in B2.
  assert (Q : forall x, -1 <= x <= 1 -> - k <= k * x <= k) by (intros x Hx; split; nra).
  pose proof (Q x1 H0). pose proof (Q x2 H1). pose proof (Q x3 H2). pose proof (Q x4 H3). split; split; lra.
Qed.
