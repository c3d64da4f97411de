(** * Proofs of the frame properties C35-C38 *)

From Coq Require Import ZArith Reals Lra Lia Bool List.
From Flocq Require Import Core.
From Verif Require Import Outcome Arith ArithR M_Common M_Time M_Earth M_Locator M_Frames Spec_Matrix Spec_Frames.
From Verif Require Import L_ArithR L_Matrix L_PMatrix L_Frames L_Near L_Series L_SeriesR L_Pi.
Import ListNotations.
Open Scope R_scope.

Lemma centuries_R : forall d, tt_centuries (A := realA) d = centuries d.
Proof. intros [d1 d2]. unfold tt_centuries, centuries, DJ00, DJC. cbn [tt_1 tt_2]. realA_ops. rlit_in_goal. lra. Qed.

Lemma product_3 : forall a b c, product [a; b; c] = mm (mm a b) c.
Proof. intros. cbn [product]. rewrite !mul3_compose, unit3_identity, compose_id_r. unfold mm. rewrite compose_assoc. reflexivity. Qed.
Lemma product_4 : forall a b c d, product [a; b; c; d] = mm (mm (mm a b) c) d.
Proof. intros. cbn [product]. rewrite !mul3_compose, unit3_identity, compose_id_r. unfold mm. rewrite !compose_assoc. reflexivity. Qed.
Lemma product_2 : forall a b, product [a; b] = mm a b.
Proof. intros. cbn [product]. rewrite !mul3_compose, unit3_identity, compose_id_r. reflexivity. Qed.

Lemma EPS0_R : EPS0 (A := realA) = eps_0.
Proof. unfold EPS0, eps_0, arcsec. realA_ops. unfold Rlit. change (Z.pow_pos 10 3) with 1000%Z. lra. Qed.

Lemma psia_R : forall t, psiaR t = psi_A t.
Proof.
  intros t. unfold psiaR, psi_A, psia77, arcsec. realA_ops. unfold Rlit.
  change (Z.pow_pos 10 4) with 10000%Z. change (Z.pow_pos 10 5) with 100000%Z. change (Z.pow_pos 10 6) with 1000000%Z. 
  lra.
Qed.
Lemma oma_R : forall t, omaR t = omega_A t.
Proof.
  intros t. unfold omaR, omega_A, oma77. rewrite EPS0_R. unfold eps_0, arcsec. realA_ops. unfold Rlit.
  change (Z.pow_pos 10 4) with 10000%Z. change (Z.pow_pos 10 5) with 100000%Z. change (Z.pow_pos 10 6) with 1000000%Z. 
  lra.
Qed.
Lemma chia_R : forall t, chiaR t = chi_A t.
Proof.
  intros t. unfold chiaR, chi_A, chia, arcsec. realA_ops. unfold Rlit.
  change (Z.pow_pos 10 4) with 10000%Z. change (Z.pow_pos 10 5) with 100000%Z. change (Z.pow_pos 10 6) with 1000000%Z. 
  lra.
Qed.
Lemma rbR_R : rbR = B_matrix.
Proof.
  unfold rbR, B_matrix. rewrite product_3. unfold frame_bias, R1, R2, R3, arcsec. cbn [fst snd]. rewrite EPS0_R.
  realA_ops. unfold Rlit.
  change (Z.pow_pos 10 6) with 1000000%Z. change (Z.pow_pos 10 7) with 10000000%Z. change (Z.pow_pos 10 4) with 10000%Z.
  f_equal; [f_equal|]; f_equal; lra.
Qed.
Lemma rpRt_R : forall t, rpRt t = P_matrix t.
Proof. intros t. unfold rpRt, rpR, P_matrix. rewrite product_4, EPS0_R, psia_R, oma_R, chia_R. reflexivity. Qed.

(** C37.  The matrices are the textbook products of elementary rotations:
    polar motion, nutation, bias, precession, and celestial-to-terrestrial. *)
Lemma C37_matrix_products_pf :
  (forall xp yp sp, polar_motion_matrix (A := realA) xp yp sp = Val (W_matrix xp yp sp)) /\
  (forall e dpsi deps, nutation_matrix (A := realA) e dpsi deps = Val (N_matrix e dpsi deps)) /\
  (forall d, bias_and_precession (A := realA) d =
     Val (B_matrix, P_matrix (centuries d), product [P_matrix (centuries d); B_matrix])) /\
  (forall d dpsi deps, exists pn, pn_from_tt_with_nutation (A := realA) d dpsi deps = Val pn /\
     pn_epsa (A := realA) pn = eps_A (centuries d) /\
     pn_rbpn (A := realA) pn = product [N_matrix (eps_A (centuries d)) dpsi deps; P_matrix (centuries d); B_matrix]) /\
  (forall q era w, c2t_from_cio (A := realA) q era w = Val (product [w; R3 era; q])).
Proof.
  split; [|split; [|split; [|split]]].
  - intros. rewrite polar_motion_R. unfold W_matrix. rewrite product_3. reflexivity.
  - intros. rewrite nutation_matrix_R. unfold N_matrix. rewrite product_3. reflexivity.
  - intros d. rewrite bias_precession_R, rbR_R, rpRt_R, centuries_R, product_2. reflexivity.
  - intros d dpsi deps. unfold pn_from_tt_with_nutation, precession_rate. 
    rewrite bias_precession_R. cbn [bind]. rewrite nutation_matrix_R. cbn [bind].
    assert (E : add realA (mean_obliquity (A := realA) d) (mul realA (mul realA (neg realA (lit realA 2524 (-5))) (c_as2r realA)) (tt_centuries (A := realA) d))
       = eps_A (centuries d)).
    { unfold mean_obliquity. rewrite centuries_R. generalize (centuries d). intros t. unfold eps_A, eps_1980, arcsec. realA_ops. unfold Rlit.
      change (Z.pow_pos 10 3) with 1000%Z. change (Z.pow_pos 10 4) with 10000%Z. change (Z.pow_pos 10 5) with 100000%Z. change (Z.pow_pos 10 6) with 1000000%Z. 
      lra. }
    rewrite E. eexists. split; [reflexivity|]. cbn [pn_epsa pn_rbpn]. split; [reflexivity|].
    rewrite rbR_R, rpRt_R, centuries_R. unfold N_matrix. rewrite !product_3. unfold mm. rewrite !compose_assoc. reflexivity.
  - intros. rewrite c2t_from_cio_R, product_3, mm_assoc. reflexivity.
Qed.

(** C37.  celestial_to_terrestrial is W(xp,yp,0) R3(ERA) Q with Q the
    celestial-to-intermediate matrix of the date. *)
Lemma C37_celestial_to_terrestrial_pf : forall d u xp yp q,
  celestial_to_intermediate (A := realA) d = Val q ->
  celestial_to_terrestrial (A := realA) d u xp yp =
    Val (product [W_matrix xp yp 0; R3 (rotation_angle (A := realA) u); q]).
Proof.
  intros d u xp yp q H. unfold celestial_to_terrestrial. rewrite H. cbn [bind].
  destruct C37_matrix_products_pf as (W & _ & _ & _ & T).
  rewrite W. cbn [bind]. rewrite T. realA_ops. rlit_in_goal. reflexivity.
Qed.

(** C37.  Degenerate arguments give the identity. *)
Lemma C37_degenerate_pf :
  (forall e, nutation_matrix (A := realA) e 0 0 = Val unit3) /\
  polar_motion_matrix (A := realA) 0 0 0 = Val unit3 /\
  (forall d1 d2, d1 + d2 = 2451545 -> exists rb,
     bias_and_precession (A := realA) (MkTT (A := realA) d1 d2) = Val (rb, unit3, rb)).
Proof.
  rewrite unit3_identity. split; [|split].
  - intros e. rewrite nutation_matrix_R. replace (- (e + 0)) with (- e) by ring. rewrite Ropp_0, rot3_0.
    unfold mm. rewrite compose_id_r, rot3_add. replace (- e + e) with 0 by ring. rewrite rot3_0. reflexivity.
  - rewrite polar_motion_R. rewrite Ropp_0, !rot3_0. unfold mm. rewrite !compose_id_r. reflexivity.
  - intros d1 d2 E. rewrite bias_precession_R, centuries_R. unfold centuries. cbn [tt_1 tt_2].
    replace ((d1 + d2 - 2451545) / 36525) with 0 by lra.
    assert (P : rpRt 0 = midentity (A := realA)).
    { rewrite rpRt_R. unfold P_matrix. rewrite product_4. unfold chi_A, psi_A, omega_A, arcsec, R1, R3, mm.
      replace ((10.5526 * 0 - 2.38064 * 0 ^ 2 - 0.001125 * 0 ^ 3) * (PI / 648000)) with 0 by ring.
      replace (- ((5038.7784 * 0 - 1.07259 * 0 ^ 2 - 0.001147 * 0 ^ 3 - 0.29965 * 0) * (PI / 648000))) with 0 by ring.
      rewrite !rot3_0, compose_id_l, compose_id_r, rot3_add.
      replace (- _ + eps_0) with 0 by (unfold eps_0, arcsec; ring). apply rot3_0. }
    rewrite P. exists rbR. unfold mm. rewrite compose_id_l. reflexivity.
Qed.


(** A pole displaced by a quarter turn in x, another in y: the matrices are
    R2(-xp) and R1(-yp) as in the IERS Conventions. *)
Example C37_example_pf :
  polar_motion_matrix (A := realA) (PI / 2) 0 0 =
    Val (M3 (A := realA) (V3 (A := realA) 0 0 1) (V3 (A := realA) 0 1 0) (V3 (A := realA) (-1) 0 0)) /\
  polar_motion_matrix (A := realA) 0 (PI / 2) 0 =
    Val (M3 (A := realA) (V3 (A := realA) 1 0 0) (V3 (A := realA) 0 0 (-1)) (V3 (A := realA) 0 1 0)).
Proof.
  rewrite !polar_motion_R, !Ropp_0, !rot3_0. unfold mm. rewrite !compose_id_r, !compose_id_l.
  unfold rot3. rewrite cos_neg, sin_neg, sin_PI2, cos_PI2. realA_ops.
  rewrite !Ropp_involutive, ?Ropp_0. split; reflexivity.
Qed.

(** C35.  Every frame matrix is a proper rotation, for all dates, angles and
    pole coordinates. *)
Lemma C35_frames_proper_pf :
  (forall xp yp sp, exists m, polar_motion_matrix (A := realA) xp yp sp = Val m /\ proper m) /\
  (forall e dpsi deps, exists m, nutation_matrix (A := realA) e dpsi deps = Val m /\ proper m) /\
  (forall d, exists rb rp rbp, bias_and_precession (A := realA) d = Val (rb, rp, rbp) /\ proper rb /\ proper rp /\ proper rbp) /\
  (forall d, exists m, precession_nutation (A := realA) d = Val m /\ proper m) /\
  (forall x y s, exists m, c2i_from_xys (A := realA) x y s = Val m /\ proper m) /\
  (forall d, exists m, celestial_to_intermediate (A := realA) d = Val m /\ proper m) /\
  (forall d u xp yp, exists m, celestial_to_terrestrial (A := realA) d u xp yp = Val m /\ proper m).
Proof.
  assert (PN : forall d, exists m, precession_nutation (A := realA) d = Val m /\ proper m).
  { intros d. unfold precession_nutation, pn_from_tt. rewrite nutation_val. cbn [bind].
    match goal with |- context [pn_from_tt_with_nutation ?d ?a ?b] => 
      destruct (proj1 (proj2 (proj2 (proj2 C37_matrix_products_pf))) d a b) as (pn & -> & _ & E) end.
    cbn [bind]. eexists. split; [reflexivity|]. rewrite E. unfold N_matrix, P_matrix, B_matrix, R1, R2, R3.
    rewrite !product_3, product_4. prove_proper. }
  assert (XY : forall x y s, exists m, c2i_from_xys (A := realA) x y s = Val m /\ proper m).
  { intros. rewrite c2i_from_xys_R. eexists. split; [reflexivity|]. prove_proper. }
  assert (CI : forall d, exists m, celestial_to_intermediate (A := realA) d = Val m /\ proper m).
  { intros d. unfold celestial_to_intermediate. destruct (PN d) as (b & -> & _). cbn [bind].
    unfold c2i_with_bpn, xy_from_bpn, c2i_with_xy. rewrite cio_val. cbn [bind]. apply XY. }
  split; [|split; [|split; [|split; [exact PN|split; [exact XY|split; [exact CI|]]]]]].
  - intros. rewrite polar_motion_R. eexists. split; [reflexivity|]. prove_proper.
  - intros. rewrite nutation_matrix_R. eexists. split; [reflexivity|]. prove_proper.
  - intros d. rewrite bias_precession_R. do 3 eexists. split; [reflexivity|].
    split; [apply rbR_proper|]. split; [apply rpRt_proper|]. apply proper_mm; [apply rpRt_proper|apply rbR_proper].
  - intros d u xp yp. destruct (CI d) as (q & E & Pq). rewrite (C37_celestial_to_terrestrial_pf d u xp yp q E).
    eexists. split; [reflexivity|]. unfold W_matrix, R1, R2, R3. rewrite !product_3. prove_proper.
Qed.

(** A polar motion of a quarter turn about x is a proper rotation, a reflection is not. *)
Example C35_example_pf :
  (exists m, polar_motion_matrix (A := realA) 0 (PI / 2) 0 = Val m /\ proper m /\ entry m I1 I2 = -1) /\
  ~ proper (M3 (A := realA) (V3 (A := realA) 1 0 0) (V3 (A := realA) 0 1 0) (V3 (A := realA) 0 0 (-1))).
Proof.
  split.
  - destruct C35_frames_proper_pf as (W & _). destruct (W 0 (PI / 2) 0) as (m & E & P). exists m. split; [exact E|]. split; [exact P|].
    rewrite (proj2 C37_example_pf) in E. assert (F : m = M3 (A := realA) (V3 (A := realA) 1 0 0) (V3 (A := realA) 0 0 (-1)) (V3 (A := realA) 0 1 0)) by congruence.
    rewrite F. reflexivity.
  - intros [_ D]. unfold det, entry, mget, mrow, vget in D. cbn [r0 r1 r2 v0 v1 v2] in D. change (num realA) with R in *. lra.
Qed.

(** C36.  For a pole inside the unit disc the matrix is the one of the IERS
    Conventions, and its third row is the pole. *)
Lemma C36_pole_matrix_pf : forall x y s, x * x + y * y < 1 ->
  c2i_from_xys (A := realA) x y s = Val (Q_matrix x y s) /\
  entry (Q_matrix x y s) I2 I0 = x /\ entry (Q_matrix x y s) I2 I1 = y /\
  entry (Q_matrix x y s) I2 I2 = R_sqrt.sqrt (1 - (x * x + y * y)).
Proof.
  intros x y s H. split.
  - rewrite c2i_from_xys_R. f_equal. unfold Q_matrix. cbv zeta. rewrite mul3_compose.
    set (r2 := x * x + y * y) in *.
    assert (H0 : 0 <= r2) by (unfold r2; nra).
    destruct (c2i_angle_d r2 ltac:(lra)) as [C S].
    set (d := atan (R_sqrt.sqrt (r2 / (1 - r2)))) in *.
    set (z := R_sqrt.sqrt (1 - r2)) in *.
    assert (Z0 : 0 < z) by (apply sqrt_lt_R0; lra).
    assert (ZZ : z * z = 1 - r2) by (apply sqrt_def; lra).
    set (e := if Rlt_bool 0 r2 then Ratan2 y x else 0).
    assert (SPLIT : rot3 I2 (- (e + s)) = mm (rot3 I2 (- s)) (rot3 I2 (- e))) by (rewrite mm_rot; f_equal; ring).
    rewrite SPLIT, !mm_assoc. change (mcompose (A := realA)) with mm. unfold R3. f_equal.
    rewrite <- mm_assoc.
    assert (T : exists ce se, cos e = ce /\ sin e = se /\ ce * R_sqrt.sqrt r2 = x /\ se * R_sqrt.sqrt r2 = y /\ ce * ce + se * se = 1).
    { exists (cos e), (sin e). split; [reflexivity|]. split; [reflexivity|].
      pose proof (sin2_cos2 e) as U. unfold Rsqr in U.
      assert (V : cos e * R_sqrt.sqrt r2 = x /\ sin e * R_sqrt.sqrt r2 = y); [|split; [tauto|split; [tauto|lra]]].
      unfold e. destruct (Rlt_bool_spec 0 r2) as [L|L].
      - assert (Q0 : 0 < R_sqrt.sqrt r2) by (apply sqrt_lt_R0; exact L).
        destruct (cos_atan2 x y (R_sqrt.sqrt r2) Q0 (sqrt_def r2 H0)) as [-> ->].
        split; field; lra.
      - assert (r2 = 0) by lra. assert (x = 0 /\ y = 0) as [-> ->] by (unfold r2 in *; nra).
        replace r2 with 0. rewrite sqrt_0. split; ring. }
    destruct T as (ce & se & Ece & Ese & Ex & Ey & Ecs).
    assert (RR : R_sqrt.sqrt r2 * R_sqrt.sqrt r2 = r2) by (apply sqrt_def; lra).
    set (r := R_sqrt.sqrt r2) in *. set (a := / (1 + z)).
    assert (AZ : a * (r * r) = 1 - z) by (rewrite RR; unfold a; replace r2 with (1 - z * z) by lra; field; lra).
    assert (AX : a * x * x = ce * ce * (1 - z)) by (rewrite <- AZ, <- Ex; ring).
    assert (AY : a * y * y = se * se * (1 - z)) by (rewrite <- AZ, <- Ey; ring).
    assert (AXY : - a * x * y = - (ce * se * (1 - z))) by (rewrite <- AZ, <- Ex, <- Ey; ring).
    apply mat_ext. intros i j. unfold mm. use_product.
    unfold entry, rot3. destruct i, j; cbn [mget mrow vget M_Common.r0 M_Common.r1 M_Common.r2 v0 v1 v2];
      rewrite ?cos_neg, ?sin_neg, ?C, ?S, ?Ece, ?Ese, ?AX, ?AY, ?AXY; try lra;
      rewrite <- ?Ex, <- ?Ey; ring.
  - unfold Q_matrix. cbv zeta. rewrite mul3_compose. use_product. unfold entry, R3, rot3. cbn [mget mrow vget M_Common.r0 M_Common.r1 M_Common.r2 v0 v1 v2].
    realA_ops. split; [ring|]. split; ring.
Qed.

(** A pole displaced along x by 3/5 and s = 0. *)
Example C36_example_pf : c2i_from_xys (A := realA) (3/5) 0 0 =
  Val (M3 (A := realA) (V3 (A := realA) (4/5) 0 (-3/5)) (V3 (A := realA) 0 1 0) (V3 (A := realA) (3/5) 0 (4/5))).
Proof.
  rewrite (proj1 (C36_pole_matrix_pf (3/5) 0 0 ltac:(lra))). unfold Q_matrix, R3. cbv zeta. rewrite mul3_compose, Ropp_0, rot3_0, compose_id_l.
  replace (1 - (3 / 5 * (3 / 5) + 0 * 0)) with (4/5 * (4/5)) by lra. rewrite sqrt_square by lra.
  f_equal. f_equal; f_equal; realA_ops; lra.
Qed.

(** Size of the pole displacement. *)
Lemma arcsec_abs : forall x, Rabs (arcsec x) = arcsec (Rabs x).
Proof. intros x. unfold arcsec. rewrite Rabs_mult. rewrite (Rabs_pos_eq (PI / 648000)); [reflexivity|]. pose proof PI_bounds. lra. Qed.
Lemma arcsec_le : forall x y, x <= y -> arcsec x <= arcsec y.
Proof. intros x y H. unfold arcsec. pose proof PI_bounds. apply Rmult_le_compat_r; lra. Qed.

(** C58.  Nutation in longitude and obliquity, for any date. *)
Lemma nutation_bound : forall d, exists dpsi deps, nutation (A := realA) d = Val (dpsi, deps) /\
  Rabs dpsi <= arcsec (19.456 + 0.0184 * Rabs (centuries d)) /\
  Rabs deps <= arcsec (10.086 + 0.0015 * Rabs (centuries d)).
Proof.
  intros d. rewrite nutation_val. do 2 eexists. split; [reflexivity|].
  destruct (nut_sum_bound (tt_centuries (A := realA) d)) as [B1 B2].
  destruct sumcls_values as (V0 & V1 & V2 & V3 & V4 & V5). rewrite V0, V1, V2 in B1. rewrite V3, V4, V5 in B2.
  rewrite centuries_R in *. set (t := centuries d) in *. set (ns := nut_sum realA t) in *.
  unfold U2R, DPPLAN, DEPLAN, MAS2R. realA_ops. unfold Rlit, arcsec.
  change (Z.pow_pos 10 3) with 1000%Z. change (10 ^ 7)%Z with 10000000%Z. change (10 ^ 3)%Z with 1000%Z. rewrite !Z.mul_1_l.
  pose proof (Rabs_pos t). pose proof PI_bounds as P. set (k := PI / 648000) in *. assert (K : 0 < k) by (unfold k; lra).
  apply Rabs_le_inv in B1. apply Rabs_le_inv in B2.
  split; apply Rabs_le; nra.
Qed.

Lemma near_mono3 : forall a b x y z, near a x -> near b y -> proper b -> x + y <= z -> near (mm a b) z.
Proof. intros. eapply near_le; [apply near_mm; eassumption|assumption]. Qed.

Lemma near_bias : near B_matrix (arcsec 0.1).
Proof.
  unfold B_matrix. rewrite product_3.
  apply (near_le _ (arcsec 0.0068192 + arcsec 0.041775 + arcsec 0.0146)).
  - apply near_mm; [apply near_mm| |apply rot3_proper].
    + apply (near_le _ (Rabs (arcsec 0.0068192))); [apply near_rot|]. rewrite arcsec_abs, Rabs_pos_eq by lra. lra.
    + apply (near_le _ (Rabs (arcsec (-0.041775) * sin eps_0))); [apply near_rot|].
      rewrite Rabs_mult, arcsec_abs. rewrite Rabs_left by lra. pose proof (sin_abs eps_0).
      replace (- -0.041775) with 0.041775 by lra.
      assert (0 <= arcsec 0.041775) by (unfold arcsec; pose proof PI_bounds; lra).
      pose proof (Rabs_pos (sin eps_0)). nra.
    + apply rot3_proper.
    + apply (near_le _ (Rabs (arcsec (-0.0146)))); [apply near_rot|]. rewrite arcsec_abs, Rabs_left by lra. apply arcsec_le. lra.
  - unfold arcsec. pose proof PI_bounds. lra.
Qed.

Lemma near_precession : forall t c, 0 <= c -> Rabs t <= c ->
  near (P_matrix t) (arcsec ((5049.65661 * c + 3.5045 * c ^ 2 + 0.009998 * c ^ 3))).
Proof.
  intros t c Hc H. rewrite <- rpRt_R. unfold rpRt. eapply near_le; [apply near_rp|].
  rewrite EPS0_R, psia_R, oma_R, chia_R.
  assert (T1 : - c <= t <= c) by (apply Rabs_le_inv in H; lra).
  assert (T2 : 0 <= t ^ 2 <= c ^ 2) by (split; nra).
  assert (T3 : - c ^ 3 <= t ^ 3 <= c ^ 3).
  { replace (t ^ 3) with (t * t ^ 2) by ring. replace (c ^ 3) with (c * c ^ 2) by ring. split; nra. }
  unfold psi_A, omega_A, chi_A, eps_0.
  replace (arcsec (84381.448 + 0.05127 * t ^ 2 - 0.007726 * t ^ 3 - 0.02524 * t) - arcsec 84381.448)
    with (arcsec (0.05127 * t ^ 2 - 0.007726 * t ^ 3 - 0.02524 * t)) by (unfold arcsec; ring).
  rewrite !arcsec_abs.
  assert (B1 : Rabs (10.5526 * t - 2.38064 * t ^ 2 - 0.001125 * t ^ 3) <= 10.5526 * c + 2.38064 * c ^ 2 + 0.001125 * c ^ 3)
    by (apply Rabs_le; lra).
  assert (B2 : Rabs (5038.7784 * t - 1.07259 * t ^ 2 - 0.001147 * t ^ 3 - 0.29965 * t) <= 5039.07805 * c + 1.07259 * c ^ 2 + 0.001147 * c ^ 3)
    by (apply Rabs_le; lra).
  assert (B3 : Rabs (0.05127 * t ^ 2 - 0.007726 * t ^ 3 - 0.02524 * t) <= 0.02524 * c + 0.05127 * c ^ 2 + 0.007726 * c ^ 3)
    by (apply Rabs_le; lra).
  pose proof (arcsec_le _ _ B1) as C1. pose proof (arcsec_le _ _ B2) as C2. pose proof (arcsec_le _ _ B3) as C3.
  eapply Rle_trans; [apply Rplus_le_compat; [exact C1|apply Rplus_le_compat; [exact C2|exact C3]]|].
  replace (arcsec (10.5526 * c + 2.38064 * c ^ 2 + 0.001125 * c ^ 3) +
    (arcsec (5039.07805 * c + 1.07259 * c ^ 2 + 0.001147 * c ^ 3) + arcsec (0.02524 * c + 0.05127 * c ^ 2 + 0.007726 * c ^ 3)))
    with (arcsec (10.5526 * c + 2.38064 * c ^ 2 + 0.001125 * c ^ 3 + (5039.07805 * c + 1.07259 * c ^ 2 + 0.001147 * c ^ 3) + (0.02524 * c + 0.05127 * c ^ 2 + 0.007726 * c ^ 3)))
    by (unfold arcsec; ring).
  apply arcsec_le. nra.
Qed.

Lemma rbpn_near : forall d c, 0 <= c -> Rabs (centuries d) <= c -> exists m, precession_nutation (A := realA) d = Val m /\ proper m /\
  near m (arcsec (29.7 + 5049.7 * c + 3.5045 * c ^ 2 + 0.01 * c ^ 3)).
Proof.
  intros d c Hc H. destruct (nutation_bound d) as (dpsi & deps & EN & B1 & B2).
  destruct C35_frames_proper_pf as (_ & _ & _ & PN & _). destruct (PN d) as (m & Em & Pm). exists m. split; [exact Em|]. split; [exact Pm|].
  unfold precession_nutation, pn_from_tt in Em. rewrite EN in Em. cbn [bind] in Em.
  destruct (proj1 (proj2 (proj2 (proj2 C37_matrix_products_pf))) d dpsi deps) as (pn & E1 & _ & E2).
  rewrite E1 in Em. cbn [bind] in Em. assert (Em' : pn_rbpn (A := realA) pn = m) by congruence. clear Em. subst m.
  rewrite E2, product_3. unfold N_matrix. rewrite product_3. unfold R1, R3.
  eapply near_mono3; [eapply near_mm; [apply near_nutation|apply (near_precession _ c Hc H)|]|apply near_bias| |].
  - rewrite <- rpRt_R. apply rpRt_proper.
  - rewrite <- rbR_R. apply rbR_proper.
  - pose proof (Rabs_pos (centuries d)).
    assert (C1 : arcsec (19.456 + 0.0184 * Rabs (centuries d)) <= arcsec (19.456 + 0.0184 * c)) by (apply arcsec_le; lra).
    assert (C2 : arcsec (10.086 + 0.0015 * Rabs (centuries d)) <= arcsec (10.086 + 0.0015 * c)) by (apply arcsec_le; lra).
    apply (Rle_trans _ (arcsec (19.456 + 0.0184 * c) + arcsec (10.086 + 0.0015 * c) + arcsec (5049.65661 * c + 3.5045 * c ^ 2 + 0.009998 * c ^ 3) + arcsec 0.1)); [lra|].
    replace (arcsec (19.456 + 0.0184 * c) + arcsec (10.086 + 0.0015 * c) + arcsec (5049.65661 * c + 3.5045 * c ^ 2 + 0.009998 * c ^ 3) + arcsec 0.1)
      with (arcsec (19.456 + 0.0184 * c + (10.086 + 0.0015 * c) + (5049.65661 * c + 3.5045 * c ^ 2 + 0.009998 * c ^ 3) + 0.1)) by (unfold arcsec; ring).
    apply arcsec_le. assert (0 <= c ^ 3) by (apply pow_le; exact Hc). nra.
Qed.

Lemma pole_bound : forall d c e, 0 <= c -> Rabs (centuries d) <= c ->
  arcsec (29.7 + 5049.7 * c + 3.5045 * c ^ 2 + 0.01 * c ^ 3) <= e -> e * e < 2 ->
  exists m, precession_nutation (A := realA) d = Val m /\ entry m I2 I2 >= 1 - e * e / 2 /\
  entry m I2 I0 * entry m I2 I0 + entry m I2 I1 * entry m I2 I1 + entry m I2 I2 * entry m I2 I2 = 1.
Proof.
  intros d c e Hc H He He2. destruct (rbpn_near d c Hc H) as (m & Em & Pm & Nm). exists m. split; [exact Em|].
  apply near_row3; [exact Pm|eapply near_le; eassumption|exact He2].
Qed.

(** C38.  Within 50 Julian centuries of J2000.0 the pole is inside the unit disc
    (and in the northern hemisphere), so the square root and the division of
    celestial_to_intermediate are those of positive numbers. *)
Lemma C38_pole_inside_pf : forall d, Rabs (centuries d) <= 50 ->
  exists m, precession_nutation (A := realA) d = Val m /\
  let x := entry m I2 I0 in let y := entry m I2 I1 in
  0 < entry m I2 I2 /\ x * x + y * y < 1.
Proof.
  intros d H. destruct (pole_bound d 50 1.3) as (m & Em & Z & U); [lra|exact H| |lra|].
  - unfold arcsec. pose proof PI_bounds. lra.
  - exists m. split; [exact Em|]. cbv zeta. split; nra.
Qed.

(** C38.  Within 10 centuries it is within a quarter of the unit radius. *)
Lemma C38_pole_near_pf : forall d, Rabs (centuries d) <= 10 ->
  exists m, precession_nutation (A := realA) d = Val m /\
  let x := entry m I2 I0 in let y := entry m I2 I1 in x * x + y * y <= 1 / 16.
Proof.
  intros d H. destruct (pole_bound d 10 0.2468) as (m & Em & Z & U); [lra|exact H| |lra|].
  - unfold arcsec. pose proof PI_bounds. lra.
  - exists m. split; [exact Em|]. cbv zeta. nra.
Qed.

(** C38.  Hence the celestial-to-intermediate matrix has the pole of the
    precession-nutation matrix as its third row. *)
Lemma C38_intermediate_pole_pf : forall d, Rabs (centuries d) <= 50 ->
  exists m q, precession_nutation (A := realA) d = Val m /\ celestial_to_intermediate (A := realA) d = Val q /\
  forall j, entry q I2 j = entry m I2 j.
Proof.
  intros d H. destruct (pole_bound d 50 1.3) as (m & Em & Z & U); [lra|exact H| |lra|].
  { unfold arcsec. pose proof PI_bounds. lra. }
  exists m. unfold celestial_to_intermediate. rewrite Em. cbn [bind]. unfold c2i_with_bpn, xy_from_bpn, c2i_with_xy.
  rewrite cio_val. cbn [bind]. change (mget (A := realA) m I2 I0) with (entry m I2 I0). change (mget (A := realA) m I2 I1) with (entry m I2 I1).
  match goal with |- context [c2i_from_xys _ _ ?s] => destruct (C36_pole_matrix_pf (entry m I2 I0) (entry m I2 I1) s ltac:(nra)) as (E & E0 & E1 & E2) end.
  eexists. split; [reflexivity|]. split; [exact E|]. intros j. destruct j; [exact E0|exact E1|].
  rewrite E2. replace (1 - (entry m I2 I0 * entry m I2 I0 + entry m I2 I1 * entry m I2 I1)) with (entry m I2 I2 * entry m I2 I2) by lra.
  apply sqrt_square. lra.
Qed.

(** The interval of C38 reaches from 3001 BC to AD 6999. *)
Example C38_example_pf : centuries (MkTT (A := realA) 625295 0) = -50 /\ centuries (MkTT (A := realA) 4277795 0) = 50 /\
  exists m, precession_nutation (A := realA) (MkTT (A := realA) 625295 0) = Val m /\ 0 < entry m I2 I2.
Proof.
  assert (E : centuries (MkTT (A := realA) 625295 0) = -50) by (unfold centuries; cbn [tt_1 tt_2]; lra).
  split; [exact E|]. split; [unfold centuries; cbn [tt_1 tt_2]; lra|].
  destruct (C38_pole_inside_pf (MkTT (A := realA) 625295 0)) as (m & Em & Z & _); [rewrite E; rewrite Rabs_left; lra|].
  exists m. split; assumption.
Qed.
