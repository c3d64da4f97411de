(** * Kepler's equation: existence and expansion of the elliptic motion *)

From Coq Require Import ZArith Reals Lra Lia Ranalysis.
From Flocq Require Import Core.
From Verif Require Import L_Pi L_Epv.
Open Scope R_scope.

Lemma sin_taylor3 : forall x, Rabs x <= 1 -> Rabs (sin x - x) <= Rabs x ^ 3 / 6.
Proof.
  assert (P : forall x, 0 <= x <= 1 -> - (x ^ 3 / 6) <= sin x - x <= 0).
  { intros x Hx. destruct (pre_sin_bound x 0 ltac:(lra) ltac:(lra)) as [L _].
    unfold sin_approx, sin_term in L. cbn in L. split; [lra|].
    destruct (Req_dec x 0) as [->|N]; [rewrite sin_0; lra|]. pose proof (sin_lt_x x ltac:(lra)). lra. }
  intros x Hx. destruct (Rle_dec 0 x) as [H|H].
  - rewrite (Rabs_pos_eq x) in * by exact H. specialize (P x ltac:(lra)). assert (0 <= x ^ 3) by (apply pow_le; lra).
    apply Rabs_le. lra.
  - rewrite (Rabs_left x) in * by lra. specialize (P (- x) ltac:(lra)). rewrite sin_neg in P.
    assert (0 <= (- x) ^ 3) by (apply pow_le; lra). apply Rabs_le. lra.
Qed.

Lemma cos_taylor4 : forall x, Rabs x <= 1 -> 0 <= cos x - (1 - x * x / 2) <= x ^ 4 / 24.
Proof.
  intros x Hx. apply Rabs_le_inv in Hx. destruct (pre_cos_bound x 0 ltac:(lra) ltac:(lra)) as [L U].
  unfold cos_approx, cos_term in L, U. cbn in L, U. split; [lra|].
  replace (x ^ 4) with (x * (x * (x * x))) by ring. lra.
Qed.

Lemma sin_taylor5 : forall x, 0 <= x <= 1 -> x - x ^ 3 / 6 <= sin x <= x - x ^ 3 / 6 + x ^ 5 / 120.
Proof.
  intros x Hx. destruct (pre_sin_bound x 0 ltac:(lra) ltac:(lra)) as [L U].
  unfold sin_approx, sin_term in L, U. cbn in L, U. cbn [pow]. split; lra.
Qed.
Lemma cos_taylor6 : forall x, 0 <= x <= 1 ->
  1 - x ^ 2 / 2 + x ^ 4 / 24 - x ^ 6 / 720 <= cos x <= 1 - x ^ 2 / 2 + x ^ 4 / 24.
Proof.
  intros x Hx. destruct (pre_cos_bound x 1 ltac:(lra) ltac:(lra)) as [L _]. destruct (pre_cos_bound x 0 ltac:(lra) ltac:(lra)) as [_ U].
  unfold cos_approx, cos_term in L, U. cbn in L, U. cbn [pow]. split; lra.
Qed.

(** Kepler's equation has a solution. *)
Lemma kepler_exists : forall e m, 0 <= e < 1 -> exists u, u - e * sin u = m.
Proof.
  intros e m He.
  assert (C : continuity (fun u => u - e * sin u - m)).
  { intros u. apply derivable_continuous_pt. exists (1 - e * cos u - 0).
    apply (derivable_pt_lim_minus (fun u => u - e * sin u) (fct_cte m)); [|apply derivable_pt_lim_const].
    apply (derivable_pt_lim_minus id (fun u => e * sin u)); [apply derivable_pt_lim_id|].
    apply (derivable_pt_lim_scal sin e). apply derivable_pt_lim_sin. }
  destruct (IVT (fun u => u - e * sin u - m) (m - 2) (m + 2) C ltac:(lra)) as [u [_ U]].
  - pose proof (SIN_bound (m - 2)). nra.
  - pose proof (SIN_bound (m + 2)). nra.
  - exists u. lra.
Qed.

(** Second-order expansion in the eccentricity. *)
Lemma kepler_expand : forall e u, 0 <= e <= 0.02 -> let m := u - e * sin u in
  Rabs (cos u - e - ((1 - 3 / 8 * (e * e)) * cos m - 3 / 2 * e + e / 2 * cos (2 * m) + 3 / 8 * (e * e) * cos (3 * m))) <= 3 * (e * e * e) /\
  Rabs ((1 - e * e / 2) * sin u - ((1 - 5 / 8 * (e * e)) * sin m + e / 2 * sin (2 * m) + 3 / 8 * (e * e) * sin (3 * m))) <= 3 * (e * e * e).
Proof.
  intros e u He m. pose proof (SIN_bound u) as SB. pose proof (COS_bound u) as CB. pose proof (sin2_cos2 u) as SC. unfold Rsqr in SC.
  set (d := e * sin u). 
  assert (Hd : Rabs d <= e).
  { unfold d. rewrite Rabs_mult, (Rabs_pos_eq e) by lra. assert (Rabs (sin u) <= 1) by (apply Rabs_le; lra). nra. }
  assert (D1 : Rabs d <= 1) by lra.
  assert (DD : d * d <= e * e) by (pose proof (Rabs_pos d); assert (d * d = Rabs d * Rabs d) by (rewrite <- Rabs_mult, Rabs_pos_eq by nra; reflexivity); nra).
  assert (S3 := sin_taylor3 d D1). assert (C4 := cos_taylor4 d D1).
  assert (S3' : Rabs d ^ 3 <= e * e * e).
  { pose proof (Rabs_pos d). replace (e * e * e) with (e ^ 3) by ring. apply pow_incr. lra. }
  assert (C4' : d ^ 4 <= e * e * e * e).
  { replace (d ^ 4) with ((d * d) * (d * d)) by ring. assert (0 <= d * d) by nra. nra. }
  assert (R1 : exists r, cos d = 1 - d * d / 2 + r /\ Rabs r <= e * e * e / 24).
  { exists (cos d - (1 - d * d / 2)). split; [ring|]. assert (0 <= e * e * e) by (repeat apply Rmult_le_pos; lra). apply Rabs_le. nra. }
  assert (R2 : exists r, sin d = d + r /\ Rabs r <= e * e * e / 6).
  { exists (sin d - d). split; [ring|]. lra. }
  destruct R1 as (r1 & E1 & B1). destruct R2 as (r2 & E2 & B2).
  (* double angle: cos 2m, sin 2m to second order *)
  assert (Q1 : exists q, cos (2 * d) = 1 + q /\ Rabs q <= 2 * (e * e)).
  { exists (cos (2 * d) - 1). split; [ring|].
    destruct (cos_taylor4 (2 * d)) as [L _].
    - rewrite Rabs_mult, (Rabs_pos_eq 2) by lra. lra.
    - pose proof (COS_bound (2 * d)). apply Rabs_le. nra. }
  assert (Q2 : exists q, sin (2 * d) = 2 * d + q /\ Rabs q <= 4 / 3 * (e * e * e)).
  { exists (sin (2 * d) - 2 * d). split; [ring|]. 
    assert (T := sin_taylor3 (2 * d)). rewrite Rabs_mult, (Rabs_pos_eq 2) in T by lra. specialize (T ltac:(lra)).
    replace ((2 * Rabs d) ^ 3) with (8 * Rabs d ^ 3) in T by ring. lra. }
  destruct Q1 as (q1 & F1 & G1). destruct Q2 as (q2 & F2 & G2).
  assert (T1 : exists q, cos (3 * m) = cos (3 * u) + q /\ Rabs q <= 3 * e).
  { exists (cos (3 * m) - cos (3 * u)). split; [ring|]. rewrite !cos_sin. eapply Rle_trans; [apply sin_lip|].
    replace (PI / 2 + 3 * m - (PI / 2 + 3 * u)) with (- (3 * d)) by (unfold m, d; ring). rewrite Rabs_Ropp, Rabs_mult, (Rabs_pos_eq 3) by lra. lra. }
  assert (T2 : exists q, sin (3 * m) = sin (3 * u) + q /\ Rabs q <= 3 * e).
  { exists (sin (3 * m) - sin (3 * u)). split; [ring|]. eapply Rle_trans; [apply sin_lip|].
    replace (3 * m - 3 * u) with (- (3 * d)) by (unfold m, d; ring). rewrite Rabs_Ropp, Rabs_mult, (Rabs_pos_eq 3) by lra. lra. }
  destruct T1 as (t1 & H1 & I1). destruct T2 as (t2 & H2 & I2).
  assert (C3 : cos (3 * u) = cos u * (1 - 4 * (sin u * sin u))).
  { replace (3 * u) with (2 * u + u) by ring. rewrite cos_plus, cos_2a, sin_2a. replace (cos u * cos u) with (1 - sin u * sin u) by lra. ring. }
  assert (S3u : sin (3 * u) = sin u * (3 - 4 * (sin u * sin u))).
  { replace (3 * u) with (2 * u + u) by ring. rewrite sin_plus, cos_2a, sin_2a.
    transitivity (2 * sin u * (cos u * cos u) + (cos u * cos u - sin u * sin u) * sin u); [ring|].
    replace (cos u * cos u) with (1 - sin u * sin u) by lra. ring. }
  assert (Cm : cos m = cos u * cos d + sin u * sin d) by (unfold m; fold d; apply cos_minus).
  assert (Sm : sin m = sin u * cos d - cos u * sin d) by (unfold m; fold d; apply sin_minus).
  assert (C2m : cos (2 * m) = cos (2 * u) * cos (2 * d) + sin (2 * u) * sin (2 * d)).
  { replace (2 * m) with (2 * u - 2 * d) by (unfold m, d; ring). apply cos_minus. }
  assert (S2m : sin (2 * m) = sin (2 * u) * cos (2 * d) - cos (2 * u) * sin (2 * d)).
  { replace (2 * m) with (2 * u - 2 * d) by (unfold m, d; ring). apply sin_minus. }
  assert (Cc : cos (2 * u) = 1 - 2 * (sin u * sin u)) by (rewrite cos_2a; lra).
  pose proof (COS_bound (2 * u)) as CB2. pose proof (SIN_bound (2 * u)) as SB2.
  rewrite C2m, S2m, Cm, Sm, H1, H2, E1, E2, F1, F2, C3, S3u.
  (* errors: each is bounded by a multiple of e^3 *)
  assert (EE : 0 <= e * e) by nra. assert (EEE : 0 <= e * e * e) by nra. assert (E3 : e * e * e <= 0.0004 * e) by nra.
  assert (E4 : e * e * e * e <= 0.02 * (e * e * e)) by nra.
  assert (M : forall a b x y, Rabs a <= x -> Rabs b <= y -> Rabs (a * b) <= x * y).
  { intros a b x y Ha Hb. rewrite Rabs_mult. apply Rmult_le_compat; (apply Rabs_pos || assumption). }
  assert (cB : Rabs (cos u) <= 1) by (apply Rabs_le; lra). assert (sB : Rabs (sin u) <= 1) by (apply Rabs_le; lra).
  assert (c2B : Rabs (cos (2 * u)) <= 1) by (apply Rabs_le; lra). assert (s2B : Rabs (sin (2 * u)) <= 1) by (apply Rabs_le; lra).
  assert (kB : Rabs (1 - 3 / 8 * (e * e)) <= 1) by (apply Rabs_le; nra). assert (kB' : Rabs (1 - 5 / 8 * (e * e)) <= 1) by (apply Rabs_le; nra).
  assert (hB : Rabs (e / 2) <= e / 2) by (apply Rabs_le; lra).
  assert (gB : Rabs (3 / 8 * (e * e)) <= 3 / 8 * (e * e)) by (apply Rabs_le; lra).
  assert (eB : Rabs (e * e * e) <= e * e * e) by (apply Rabs_le; lra).
  assert (s2 : Rabs (sin u * sin u) <= 1 * 1) by (apply M; assumption).
  assert (e4B : Rabs (e * e * e * e) <= 0.02 * (e * e * e)) by (apply Rabs_le; split; nra).
  split.
  - match goal with |- Rabs ?g <= _ =>
      replace g with (- ((1 - 3 / 8 * (e * e)) * (cos u * r1)) - ((1 - 3 / 8 * (e * e)) * (sin u * r2))
        - e / 2 * (cos (2 * u) * q1) - e / 2 * (sin (2 * u) * q2) - 3 / 8 * (e * e) * t1
        + 3 / 8 * (e * e * e * (sin u * sin u)) - 3 / 16 * (e * e * e * e * (cos u * (sin u * sin u)))) by
        (unfold d; rewrite Cc, (sin_2a u); field) end.
    pose proof (M _ _ _ _ kB (M _ _ _ _ cB B1)) as Z1. pose proof (M _ _ _ _ kB (M _ _ _ _ sB B2)) as Z2.
    pose proof (M _ _ _ _ hB (M _ _ _ _ c2B G1)) as Z3. pose proof (M _ _ _ _ hB (M _ _ _ _ s2B G2)) as Z4.
    pose proof (M _ _ _ _ gB I1) as Z5. pose proof (M _ _ _ _ eB s2) as Z6. pose proof (M _ _ _ _ e4B (M _ _ _ _ cB s2)) as Z7.
    apply Rabs_le_inv in Z1. apply Rabs_le_inv in Z2. apply Rabs_le_inv in Z3. apply Rabs_le_inv in Z4. apply Rabs_le_inv in Z5.
    apply Rabs_le_inv in Z6. apply Rabs_le_inv in Z7. apply Rabs_le.
    repeat match type of Z1 with _ <= ?x <= _ => set (z1 := x) in *; clearbody z1 end.
    set (x2 := _ * (sin u * r2)) in *. set (x3 := e / 2 * (cos (2 * u) * q1)) in *. set (x4 := e / 2 * (sin (2 * u) * q2)) in *.
    set (x5 := 3 / 8 * (e * e) * t1) in *. set (x6 := e * e * e * (sin u * sin u)) in *. set (x7 := e * e * e * e * _) in *.
    clearbody x2 x3 x4 x5 x6 x7. assert (e / 2 * (1 * (4 / 3 * (e * e * e))) <= 0.02 * (e * e * e)) by nra.
    replace (e / 2 * (1 * (2 * (e * e)))) with (e * e * e) in Z3 by field. 
    replace (3 / 8 * (e * e) * (3 * e)) with (9 / 8 * (e * e * e)) in Z5 by field. lra.
  - match goal with |- Rabs ?g <= _ =>
      replace g with (- ((1 - 5 / 8 * (e * e)) * (sin u * r1)) + ((1 - 5 / 8 * (e * e)) * (cos u * r2))
        - e / 2 * (sin (2 * u) * q1) + e / 2 * (cos (2 * u) * q2) - 3 / 8 * (e * e) * t2
        - 5 / 8 * (e * e * e * (cos u * sin u)) - 5 / 16 * (e * e * e * e * (sin u * (sin u * sin u)))) by
        (unfold d; rewrite Cc, (sin_2a u); field) end.
    pose proof (M _ _ _ _ kB' (M _ _ _ _ sB B1)) as Z1. pose proof (M _ _ _ _ kB' (M _ _ _ _ cB B2)) as Z2.
    pose proof (M _ _ _ _ hB (M _ _ _ _ s2B G1)) as Z3. pose proof (M _ _ _ _ hB (M _ _ _ _ c2B G2)) as Z4.
    pose proof (M _ _ _ _ gB I2) as Z5. pose proof (M _ _ _ _ eB (M _ _ _ _ cB sB)) as Z6. pose proof (M _ _ _ _ e4B (M _ _ _ _ sB s2)) as Z7.
    apply Rabs_le_inv in Z1. apply Rabs_le_inv in Z2. apply Rabs_le_inv in Z3. apply Rabs_le_inv in Z4. apply Rabs_le_inv in Z5.
    apply Rabs_le_inv in Z6. apply Rabs_le_inv in Z7. apply Rabs_le.
    set (x1 := _ * (sin u * r1)) in *. set (x2 := _ * (cos u * r2)) in *. set (x3 := e / 2 * (sin (2 * u) * q1)) in *. set (x4 := e / 2 * (cos (2 * u) * q2)) in *.
    set (x5 := 3 / 8 * (e * e) * t2) in *. set (x6 := e * e * e * (cos u * sin u)) in *. set (x7 := e * e * e * e * _) in *.
    clearbody x1 x2 x3 x4 x5 x6 x7. assert (e / 2 * (1 * (4 / 3 * (e * e * e))) <= 0.02 * (e * e * e)) by nra.
    replace (e / 2 * (1 * (2 * (e * e)))) with (e * e * e) in Z3 by field. 
    replace (3 / 8 * (e * e) * (3 * e)) with (9 / 8 * (e * e * e)) in Z5 by field. lra.
Qed.
