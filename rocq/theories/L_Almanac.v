(** * Lemmas for the comparison with the almanac: rotations of columns, sidereal
    angle, Sun of date *)

From Coq Require Import ZArith Reals Lra Lia Bool List Psatz.
From Flocq Require Import Core.
From Verif Require L_ApxC2i.
From Verif Require Import Outcome Arith ArithR M_Common M_Time M_Frames Spec_Matrix Spec_Frames Spec_Series Spec_C2t Spec_Sun Spec_Pole Spec_Orbit Spec_Almanac.
From Verif Require Import L_ArithR L_Matrix L_PMatrix L_Frames L_Near L_Pi L_PFrames L_Kepler L_Orbit L_POrbit L_PPole L_CioLow.
Import ListNotations.
Open Scope R_scope.

(** ** Columns *)

Definition tr (m : mat3 realA) : mat3 realA := mtranspose (A := realA) m.
Definition col (m : mat3 realA) (v : vec3 realA) : vec3 realA := act (tr m) v.

Lemma tr_mm : forall a b, tr (mm a b) = mm (tr b) (tr a).
Proof. intros a b. apply (C31_matrix_laws_pf a b a). Qed.
Lemma tr_proper : forall a, proper a -> proper (tr a).
Proof. exact proper_transpose. Qed.
Lemma col_mm : forall a b v, col (mm a b) v = col a (col b v).
Proof. intros. unfold col. rewrite tr_mm, act_mm. reflexivity. Qed.
Lemma col_nrm : forall m v, proper m -> nrm (col m v) = nrm v.
Proof. intros. apply act_nrm, tr_proper. assumption. Qed.
Lemma col_sub : forall m u v, col m (sub u v) = sub (col m u) (col m v).
Proof. intros. apply act_sub. Qed.
Lemma act_id : forall v, act (midentity (A := realA)) v = v.
Proof. intros v. apply (C32_apply_row_partial_pf (midentity (A := realA)) (midentity (A := realA)) v). Qed.
Lemma col_act : forall m v, proper m -> act m (col m v) = v.
Proof. intros m v P. unfold col. rewrite <- act_mm. unfold mm, tr. rewrite (proj2 (proper_inverse m P)). apply act_id. Qed.
Lemma nrm_sym : forall u v, nrm (sub u v) = nrm (sub v u).
Proof. intros [a b c] [x y z]. unfold nrm. f_equal. vec_calc. ring. Qed.
Lemma col_near : forall m d v, proper m -> near m d -> nrm (sub (col m v) v) <= d * nrm v.
Proof.
  intros m d v P N. rewrite <- (act_nrm m _ P), act_sub, (col_act m v P), nrm_sym. apply N.
Qed.
Lemma col_image : forall m x, is_column_image m x (col m x).
Proof.
  intros m x i. unfold col, act. rewrite (proj1 (C32_apply_row_partial_pf (tr m) m x) i). unfold tr. rewrite !mtranspose_entry. ring.
Qed.

Lemma col_R1 : forall x a b c, col (R1 x) (V3 (A := realA) a b c) = V3 (A := realA) a (b * cos x + c * sin x) (c * cos x - b * sin x).
Proof. intros. unfold col, tr, R1. rewrite rot3_neg, act_R1, sin_neg, cos_neg. f_equal; ring. Qed.
Lemma col_R3 : forall x a b c, col (R3 x) (V3 (A := realA) a b c) = V3 (A := realA) (a * cos x + b * sin x) (b * cos x - a * sin x) c.
Proof. intros. unfold col, tr, R3. rewrite rot3_neg, act_R3, sin_neg, cos_neg. f_equal; ring. Qed.

(** Distances along a chain. *)
Lemma dist_tri : forall u v w, nrm (sub u w) <= nrm (sub u v) + nrm (sub v w).
Proof.
  intros u v w. replace (sub u w) with (addv (sub u v) (sub v w)); [apply nrm_triangle|].
  destruct u, v, w. vec_calc. f_equal; ring.
Qed.
Lemma dist_col : forall m u v, proper m -> nrm (sub (col m u) (col m v)) = nrm (sub u v).
Proof. intros. rewrite <- col_sub, col_nrm by assumption. reflexivity. Qed.

Definition scl (r : R) (v : vec3 realA) : vec3 realA := V3 (A := realA) (r * coord v I0) (r * coord v I1) (r * coord v I2).
Lemma scl_nrm : forall r v, 0 <= r -> nrm (scl r v) = r * nrm v.
Proof.
  intros r v Hr. unfold nrm. replace (sprod (scl r v) (scl r v)) with (r * r * sprod v v).
  - rewrite sqrt_mult_alt by nra. rewrite sqrt_square by exact Hr. reflexivity.
  - unfold sprod, scl, coord. cbn [vget v0 v1 v2]. change (num realA) with R. ring.
Qed.
Lemma scl_sub : forall r u v, sub (scl r u) (scl r v) = scl r (sub u v).
Proof. intros r [a b c] [x y z]. unfold scl. vec_calc. f_equal; ring. Qed.
Lemma col_scl : forall m r v, col m (scl r v) = scl r (col m v).
Proof.
  intros m r v. apply vec_ext. intros i. rewrite (col_image m (scl r v) i).
  replace (coord (scl r (col m v)) i) with (r * coord (col m v) i) by (destruct i; reflexivity).
  rewrite (col_image m v i). unfold scl, coord. cbn [vget v0 v1 v2]. change (num realA) with R. ring.
Qed.
Lemma nrm_unit : forall a b c, a * a + b * b + c * c = 1 -> nrm (V3 (A := realA) a b c) = 1.
Proof. intros a b c H. unfold nrm, sprod, coord. cbn [vget v0 v1 v2]. change (num realA) with R in *. rewrite H. apply sqrt_1. Qed.

(** Sun at longitude [l] on an ecliptic inclined by [e]. *)
Definition ecl (l e : R) : vec3 realA := V3 (A := realA) (cos l) (cos e * sin l) (sin e * sin l).
Lemma ecl_nrm : forall l e, nrm (ecl l e) = 1.
Proof.
  intros l e. apply nrm_unit. pose proof (sin2_cos2 l) as A. pose proof (sin2_cos2 e) as B. unfold Rsqr in *. 
  replace (cos l * cos l + cos e * sin l * (cos e * sin l) + sin e * sin l * (sin e * sin l)) with (cos l * cos l + sin l * sin l * (sin e * sin e + cos e * cos e)) by ring.
  rewrite B. lra.
Qed.
Lemma abs_sq : forall x, Rabs x * Rabs x = x * x.
Proof. intros x. rewrite <- Rabs_mult. apply Rabs_pos_eq. apply Rle_0_sqr. Qed.
Lemma sin_half : forall x, 2 * (1 - cos x) <= x * x.
Proof. exact one_minus_cos. Qed.
Lemma ecl_obl : forall l e e', nrm (sub (ecl l e) (ecl l e')) <= Rabs (e - e').
Proof.
  intros l e e'. apply nrm_le; [apply Rabs_pos|]. rewrite abs_sq. eapply Rle_trans; [|apply (sin_half (e - e'))].
  unfold ecl. vec_calc. rewrite cos_minus. pose proof (sin2_cos2 l) as A. pose proof (sin2_cos2 e) as B. pose proof (sin2_cos2 e') as C. unfold Rsqr in *.
  replace (_ + _ + _) with (sin l * sin l * ((sin e * sin e + cos e * cos e) + (sin e' * sin e' + cos e' * cos e') - 2 * (cos e * cos e' + sin e * sin e'))) by ring.
  rewrite B, C. assert (D : cos e * cos e' + sin e * sin e' <= 1) by (rewrite <- cos_minus; apply COS_bound).
  set (w := cos e * cos e' + sin e * sin e') in *. clearbody w. assert (0 <= sin l * sin l <= 1) by (split; nra). set (q := sin l * sin l) in *. clearbody q. nra.
Qed.
Lemma ecl_long : forall l l' e, nrm (sub (ecl l e) (ecl l' e)) <= Rabs (l - l').
Proof.
  intros l l' e. apply nrm_le; [apply Rabs_pos|]. rewrite abs_sq. eapply Rle_trans; [|apply (sin_half (l - l'))].
  unfold ecl. vec_calc. rewrite cos_minus. pose proof (sin2_cos2 l) as A. pose proof (sin2_cos2 l') as C. pose proof (sin2_cos2 e) as B. unfold Rsqr in *.
  replace (_ + _ + _) with ((cos l - cos l') * (cos l - cos l') + (sin l - sin l') * (sin l - sin l') * (sin e * sin e + cos e * cos e)) by ring.
  rewrite B. replace (_ + _) with ((sin l * sin l + cos l * cos l) + (sin l' * sin l' + cos l' * cos l') - 2 * (cos l * cos l' + sin l * sin l')) by ring. lra.
Qed.

(** Precession of a point of the ecliptic of J2000.0: the longitude grows by psi,
    but for the small planetary precession chi. *)
Lemma col_P_ecl : forall t l, nrm (sub (col (P_matrix t) (ecl l eps_0)) (ecl (l + psi_A t) (omega_A t))) <= Rabs (chi_A t).
Proof.
  intros t l. unfold P_matrix. rewrite product_4, !col_mm.
  assert (E : col (R1 (- omega_A t)) (col (R3 (- psi_A t)) (col (R1 eps_0) (ecl l eps_0))) = ecl (l + psi_A t) (omega_A t)).
  { unfold ecl. rewrite col_R1, col_R3, col_R1, !sin_neg, !cos_neg, sin_plus, cos_plus. pose proof (sin2_cos2 eps_0) as B. unfold Rsqr in B.
    assert (E1 : cos eps_0 * sin l * cos eps_0 + sin eps_0 * sin l * sin eps_0 = sin l) by (transitivity (sin l * (sin eps_0 * sin eps_0 + cos eps_0 * cos eps_0)); [ring|rewrite B; ring]).
    rewrite E1. f_equal; ring. }
  rewrite E. replace (Rabs (chi_A t)) with (Rabs (chi_A t) * nrm (ecl (l + psi_A t) (omega_A t))) by (rewrite ecl_nrm; ring).
  apply col_near; [apply rot3_proper|apply near_rot].
Qed.

(** ** From the equinox to the intermediate origin *)

(** A rotation that leaves the third axis in place. *)
Lemma z_rotation : forall a, proper a -> (forall j, entry a I2 j = kron I2 j) -> exists c s, c * c + s * s = 1 /\
  a = M3 (A := realA) (V3 (A := realA) c s 0) (V3 (A := realA) (- s) c 0) (V3 (A := realA) 0 0 1).
Proof.
  intros a [O D] Z. pose proof (O I0 I2) as O02. pose proof (O I1 I2) as O12. pose proof (O I0 I0) as O00. pose proof (O I1 I1) as O11. pose proof (O I0 I1) as O01. clear O.
  unfold det in D. rewrite !Z in *. unfold kron in *. exists (entry a I0 I0), (entry a I0 I1).
  assert (Z0 : entry a I0 I2 = 0) by lra. assert (Z1 : entry a I1 I2 = 0) by lra. rewrite Z0, Z1 in *. split; [lra|].
  apply mat_ext. intros i j. 
  assert (E1 : entry a I1 I0 = - entry a I0 I1 /\ entry a I1 I1 = entry a I0 I0).
  { set (p := entry a I0 I0) in *. set (q := entry a I0 I1) in *. set (r := entry a I1 I0) in *. set (t := entry a I1 I1) in *. clearbody p q r t. change (num realA) with R in *.
    assert (S : (r + q) * (r + q) + (t - p) * (t - p) = 0) by lra. destruct (Rplus_sqr_eq_0 (r + q) (t - p)) as [X Y]; [unfold Rsqr; exact S|]. split; lra. }
  destruct E1 as [E1 E2]. destruct i, j; try (rewrite Z; unfold kron; reflexivity); unfold entry at 2; cbn [mget mrow vget r0 r1 r2 v0 v1 v2]; try assumption; reflexivity.
Qed.

(** Two rotations with the same third row differ by such a rotation, which is
    found from their first columns. *)
Lemma same_pole : forall q m, proper q -> proper m -> (forall j, entry q I2 j = entry m I2 j) -> exists c s, c * c + s * s = 1 /\
  (forall v, col q v = let w := col m v in V3 (A := realA) (c * coord w I0 + s * coord w I1) (c * coord w I1 - s * coord w I0) (coord w I2)) /\
  c * entry q I0 I0 - s * entry q I1 I0 = entry m I0 I0 /\ s * entry q I0 I0 + c * entry q I1 I0 = entry m I1 I0.
Proof.
  intros q m Pq Pm H. set (a := mm q (tr m)). assert (Pa : proper a) by (apply proper_mm; [exact Pq|apply tr_proper; exact Pm]).
  assert (Q : q = mm a m). { unfold a. rewrite mm_assoc. unfold mm at 2, tr. rewrite (proj2 (proper_inverse m Pm)). symmetry. apply compose_id_r. }
  assert (Z : forall j, entry a I2 j = kron I2 j).
  { intros j. unfold a, mm. rewrite (mcompose_product q (tr m) I2 j). unfold tr. rewrite !mtranspose_entry, !H.
    destruct Pm as [Om _]. specialize (Om I2 j). destruct j; exact Om. }
  destruct (z_rotation a Pa Z) as (c & s & CS & E). exists c, s. split; [exact CS|].
  assert (V : forall v, col q v = let w := col m v in V3 (A := realA) (c * coord w I0 + s * coord w I1) (c * coord w I1 - s * coord w I0) (coord w I2)).
  { intros v. rewrite Q, col_mm. cbv zeta. set (w := col m v). apply vec_ext. intros i. rewrite (col_image a w i), E. unfold entry. cbn [mget mrow vget r0 r1 r2 v0 v1 v2].
    destruct i; cbn [mget mrow vget r0 r1 r2 v0 v1 v2]; unfold coord at 4; cbn [vget v0 v1 v2]; change (num realA) with R; ring. }
  split; [exact V|]. 
  assert (F : forall i, entry q i I0 = entry a i I0 * entry m I0 I0 + entry a i I1 * entry m I1 I0 + entry a i I2 * entry m I2 I0) by (intros i; rewrite Q at 1; apply (mcompose_product a m i I0)).
  pose proof (F I0) as F0. pose proof (F I1) as F1. rewrite E in F0, F1. unfold entry at 2 4 6 in F0. unfold entry at 2 4 6 in F1. cbn [mget mrow vget r0 r1 r2 v0 v1 v2] in F0, F1. change (num realA) with R in *.
  rewrite F0, F1. set (x := entry m I0 I0) in *. set (y := entry m I1 I0) in *. clearbody x y.
  split; [transitivity ((c * c + s * s) * x)|transitivity ((c * c + s * s) * y)]; try ring; rewrite CS; ring.
Qed.

Lemma nut_bounds : forall t, Rabs t <= 1 -> Rabs (nut_dpsi t) <= arcsec 19.475 /\ Rabs (nut_deps t) <= arcsec 10.0875.
Proof.
  intros t Ht. set (d := MkTT (A := realA) 2451545 (36525 * t)). assert (C : centuries d = t) by (unfold centuries, d; cbn [tt_1 tt_2]; change (num realA) with R; field).
  destruct (nutation_bound d) as (dpsi & deps & E & B1 & B2). rewrite L_PSeries.C60_nutation_series_pf in E. injection E as <- <-. rewrite C in *.
  split; (eapply Rle_trans; [eassumption|apply arcsec_le; lra]).
Qed.
Lemma N_proper : forall e p q, proper (N_matrix e p q).
Proof. intros. unfold N_matrix, R1, R3. rewrite product_3. prove_proper. Qed.
Lemma P_proper : forall t, proper (P_matrix t).
Proof. intros. rewrite <- rpRt_R. apply rpRt_proper. Qed.
Lemma B_proper : proper B_matrix.
Proof. rewrite <- rbR_R. apply rbR_proper. Qed.
Lemma NPB_proper : forall t, proper (NPB t).
Proof. intros. unfold NPB. rewrite product_3. apply proper_mm; [apply proper_mm|]; [apply N_proper|apply P_proper|apply B_proper]. Qed.

Lemma npb_col : forall t v w, Rabs t <= 1 -> nrm (sub (col (NPB t) v) (col (P_matrix t) w)) <= nrm (sub v w) + arcsec 29.6626 * nrm v.
Proof.
  intros t v w Ht. unfold NPB. rewrite product_3, !col_mm. destruct (nut_bounds t Ht) as [B1 B2].
  set (y := col (P_matrix t) (col B_matrix v)).
  assert (Ny : nrm y = nrm v) by (unfold y; rewrite col_nrm by apply P_proper; apply col_nrm, B_proper).
  assert (S1 : nrm (sub (col (N_matrix (eps_A t) (nut_dpsi t) (nut_deps t)) y) y) <= (Rabs (nut_dpsi t) + Rabs (nut_deps t)) * nrm y).
  { apply col_near; [apply N_proper|]. unfold N_matrix, R1, R3. rewrite product_3. apply near_nutation. }
  assert (S2 : nrm (sub y (col (P_matrix t) w)) = nrm (sub (col B_matrix v) w)) by (apply dist_col, P_proper).
  pose proof (col_near B_matrix _ v B_proper near_bias) as S3. pose proof (dist_tri (col B_matrix v) v w) as S4.
  eapply Rle_trans; [apply (dist_tri _ y)|]. rewrite S2. rewrite Ny in S1. pose proof (nrm_pos v) as Pv.
  replace (arcsec 29.6626) with (arcsec 19.475 + arcsec 10.0875 + arcsec 0.1001) by (unfold arcsec; lra).
  assert (arcsec 0.1 <= arcsec 0.1001) by (apply arcsec_le; lra).
  set (x1 := arcsec 19.475) in *. set (x2 := arcsec 10.0875) in *. set (x3 := arcsec 0.1) in *. set (x4 := arcsec 0.1001) in *. clearbody x1 x2 x3 x4.
  assert ((Rabs (nut_dpsi t) + Rabs (nut_deps t)) * nrm v <= (x1 + x2) * nrm v) by (apply Rmult_le_compat_r; lra).
  assert (x3 * nrm v <= x4 * nrm v) by (apply Rmult_le_compat_r; lra). lra.
Qed.

Lemma angles_1 : forall t, Rabs t <= 1 -> Rabs (chi_A t) <= arcsec 12.935 /\ Rabs (psi_A t) <= arcsec 5039.56 /\ Rabs (omega_A t - eps_0) <= arcsec 0.09.
Proof.
  intros t Ht. apply Rabs_le_inv in Ht. assert (T2 : 0 <= t ^ 2 <= 1) by nra. assert (T3 : -1 <= t ^ 3 <= 1) by (replace (t ^ 3) with (t * t ^ 2) by ring; split; nra).
  unfold chi_A, psi_A, omega_A, eps_0.
  replace (arcsec (84381.448 + 0.05127 * t ^ 2 - 0.007726 * t ^ 3 - 0.02524 * t) - arcsec 84381.448)
    with (arcsec (0.05127 * t ^ 2 - 0.007726 * t ^ 3 - 0.02524 * t)) by (unfold arcsec; ring).
  rewrite !arcsec_abs. repeat split; apply arcsec_le; apply Rabs_le; lra.
Qed.

(** The first column of nutation x precession x bias. *)
Lemma npb_first : forall t, Rabs t <= 1 -> Rabs (entry (NPB t) I0 I0 - cos (psi_A t)) <= arcsec 42.6 /\
  Rabs (entry (NPB t) I1 I0 - sin (psi_A t) * cos (omega_A t)) <= arcsec 42.6.
Proof.
  intros t Ht. set (e1 := ecl 0 eps_0). destruct (angles_1 t Ht) as (X & _ & _).
  pose proof (npb_col t e1 e1 Ht) as A. pose proof (col_P_ecl t 0) as B. fold e1 in B.
  pose proof (dist_tri (col (NPB t) e1) (col (P_matrix t) e1) (ecl (0 + psi_A t) (omega_A t))) as C.
  assert (Z : nrm (sub e1 e1) = 0). { unfold nrm. replace (sprod _ _) with 0; [apply sqrt_0|]. destruct e1. vec_calc. ring. }
  assert (N1 : nrm e1 = 1) by apply ecl_nrm. rewrite N1, Z in A. rewrite Rplus_0_l in C, B.
  assert (D : nrm (sub (col (NPB t) e1) (ecl (psi_A t) (omega_A t))) <= arcsec 42.6) by (replace (arcsec 42.6) with (arcsec 29.6626 + arcsec 12.9374) by (unfold arcsec; lra); assert (arcsec 12.935 <= arcsec 12.9374) by (apply arcsec_le; lra); lra).
  assert (E : forall i, coord (col (NPB t) e1) i = entry (NPB t) i I0).
  { intros i. rewrite (col_image (NPB t) e1 i). unfold e1, ecl, coord. cbn [vget v0 v1 v2]. rewrite cos_0, sin_0. ring. }
  pose proof (coord_le (sub (col (NPB t) e1) (ecl (psi_A t) (omega_A t))) I0) as C0. pose proof (coord_le (sub (col (NPB t) e1) (ecl (psi_A t) (omega_A t))) I1) as C1.
  rewrite coord_sub, E in C0, C1. unfold ecl, coord in C0, C1. cbn [vget v0 v1 v2] in C0, C1. rewrite (Rmult_comm (sin (psi_A t))). split; (eapply Rle_trans; [eassumption|exact D]).
Qed.

Lemma rbpn_NPB : forall d, precession_nutation (A := realA) d = Val (NPB (centuries d)).
Proof.
  intros d. unfold precession_nutation, pn_from_tt. rewrite L_PSeries.C60_nutation_series_pf. cbn [bind].
  destruct (proj1 (proj2 (proj2 (proj2 C37_matrix_products_pf))) d (nut_dpsi (centuries d)) (nut_deps (centuries d))) as (pn & E1 & _ & E2).
  rewrite E1. cbn [bind]. rewrite E2. reflexivity.
Qed.

Lemma pole_small : forall t, Rabs t <= 1 -> Rabs (pole_x t) <= 0.00977 /\ Rabs (pole_y t) <= 0.00017 /\ 0 < entry (NPB t) I2 I2.
Proof.
  intros t Ht. set (d := MkTT (A := realA) 2451545 (36525 * t)). assert (C : centuries d = t) by (unfold centuries, d; cbn [tt_1 tt_2]; change (num realA) with R; field).
  destruct (C86_pole_pf d) as (m & E & B1 & B2); [rewrite C; exact Ht|]. destruct (C38_pole_inside_pf d) as (m' & E' & Z); [rewrite C; lra|].
  rewrite rbpn_NPB, C in E, E'. injection E as <-. injection E' as <-. rewrite C in *. clearbody d. cbv zeta in Z. split; [|split; [|apply Z]].
  - unfold pole_x. clear Z B2. set (x := entry _ _ _) in *. clearbody x. unfold low_x in B1. pose proof (SIN_bound (node t)). pose proof (SIN_bound (2 * sun_long t)).
    set (a := sin (node t)) in *. set (b := sin (2 * sun_long t)) in *. clearbody a b. apply Rabs_le_inv in Ht.
    assert (T2 : 0 <= t ^ 2 <= 1) by nra. assert (T3 : -1 <= t ^ 3 <= 1) by (replace (t ^ 3) with (t * t ^ 2) by ring; split; nra).
    unfold arcsec in B1. set (w := 2004.191898 * t - _ - _ - _ - _) in *. assert (W : -2012.2 <= w <= 2012.2) by (unfold w; lra). clearbody w. pose proof PI_bounds.
    set (k := PI / 648000) in *. assert (K : 0.0000048481368 <= k <= 0.0000048481369) by (unfold k; lra). clearbody k. apply Rabs_le_inv in B1. apply Rabs_le. split; nra.
  - unfold pole_y. clear Z B1. set (x := entry _ _ _) in *. clearbody x. unfold low_y in B2. pose proof (COS_bound (node t)). pose proof (COS_bound (2 * sun_long t)).
    set (a := cos (node t)) in *. set (b := cos (2 * sun_long t)) in *. clearbody a b. apply Rabs_le_inv in Ht.
    assert (T2 : 0 <= t ^ 2 <= 1) by nra. assert (T3 : -1 <= t ^ 3 <= 1) by (replace (t ^ 3) with (t * t ^ 2) by ring; split; nra).
    unfold arcsec in B2. set (w := -22.4072747 * t ^ 2 + _ + _ + _) in *. assert (W : -32.3 <= w <= 32.3) by (unfold w; lra). clearbody w. pose proof PI_bounds.
    set (k := PI / 648000) in *. assert (K : 0.0000048481368 <= k <= 0.0000048481369) by (unfold k; lra). clearbody k. apply Rabs_le_inv in B2. apply Rabs_le. split; nra.
Qed.

Lemma cio_small : forall t, Rabs t <= 1 -> Rabs (cio_s t) <= 0.0000013.
Proof.
  intros t Ht. destruct (pole_small t Ht) as (X & Y & _). pose proof (cio_low t Ht) as L. unfold cio_s.
  pose proof (mulb _ _ _ _ X Y) as M. unfold low_s, arcsec in L. pose proof (SIN_bound (node t)). pose proof (SIN_bound (2 * node t)).
  set (a := sin (node t)) in *. set (b := sin (2 * node t)) in *. clearbody a b. set (p := pole_x t * pole_y t) in *. clearbody p. apply Rabs_le_inv in Ht.
  assert (T2 : 0 <= t ^ 2 <= 1) by nra. assert (T3 : -1 <= t ^ 3 <= 1) by (replace (t ^ 3) with (t * t ^ 2) by ring; split; nra).
  set (w := 0.000094 + _ - _ - _ - _ - _) in *. assert (W : -0.08 <= w <= 0.08) by (unfold w; lra). clearbody w. pose proof PI_bounds.
  set (k := PI / 648000) in *. assert (K : 0.0000048481368 <= k <= 0.0000048481369) by (unfold k; lra). clearbody k. set (c := cio_sxy2 t) in *. clearbody c.
  apply Rabs_le_inv in L. apply Rabs_le_inv in M. apply Rabs_le. split; nra.
Qed.

(** The celestial-to-intermediate matrix: same third row, first column near (1, 0). *)
Lemma C2I_facts : forall t, Rabs t <= 1 -> proper (C2I t) /\ (forall j, entry (C2I t) I2 j = entry (NPB t) I2 j) /\
  Rabs (1 - entry (C2I t) I0 I0) <= 0.00005 /\ Rabs (entry (C2I t) I1 I0) <= 0.000003.
Proof.
  intros t Ht. destruct (pole_small t Ht) as (X & Y & Z). pose proof (cio_small t Ht) as S.
  assert (O : entry (NPB t) I2 I0 * entry (NPB t) I2 I0 + entry (NPB t) I2 I1 * entry (NPB t) I2 I1 + entry (NPB t) I2 I2 * entry (NPB t) I2 I2 = 1) by (apply (proj1 (NPB_proper t) I2 I2)).
  unfold C2I. fold (pole_x t) (pole_y t) in O.
  assert (SQ : R_sqrt.sqrt (1 - (pole_x t * pole_x t + pole_y t * pole_y t)) = entry (NPB t) I2 I2).
  { replace (1 - (pole_x t * pole_x t + pole_y t * pole_y t)) with (entry (NPB t) I2 I2 * entry (NPB t) I2 I2) by (rewrite <- O; ring). apply sqrt_square. lra. }
  assert (IN : pole_x t * pole_x t + pole_y t * pole_y t < 1) by nra.
  destruct (C36_pole_matrix_pf (pole_x t) (pole_y t) (cio_s t) IN) as (_ & Q20 & Q21 & Q22). rewrite SQ in Q22.
  split; [apply L_ApxC2i.Q_proper; exact IN|]. split; [intros [| |]; assumption|]. clear Q20 Q21 Q22 IN.
  unfold Q_matrix. cbv zeta. rewrite SQ, mul3_compose. clear SQ.
  set (z := entry (NPB t) I2 I2) in *. set (x := pole_x t) in *. set (y := pole_y t) in *. set (s := cio_s t) in *. clearbody x y z s.
  use_product. unfold entry, R3, rot3. cbn [mget mrow vget M_Common.r0 M_Common.r1 M_Common.r2 v0 v1 v2]. rewrite ?cos_neg, ?sin_neg. realA_ops.
  assert (ZZ : 0.999 <= z) by (apply Rabs_le_inv in X; apply Rabs_le_inv in Y; nra).
  assert (A : 0 <= / (1 + z) <= 0.5003).
  { split; [left; apply Rinv_0_lt_compat; lra|]. apply (Rmult_le_reg_l (1 + z)); [lra|]. rewrite Rinv_r by lra. lra. }
  set (a := / (1 + z)) in *. clearbody a.
  assert (XX : 0 <= x * x <= 0.0000955) by (apply Rabs_le_inv in X; split; nra). pose proof (mulb _ _ _ _ X Y) as XY.
  assert (A1 : 0 <= a * (x * x) <= 0.000048) by (split; nra).
  assert (A2 : Rabs (a * (x * y)) <= 0.00000084).
  { apply Rle_trans with (0.5003 * (0.00977 * 0.00017)); [|lra]. apply mulb; [apply Rabs_le; lra|exact XY]. }
  pose proof (one_cos_small _ _ S) as CS. destruct (L_POrbit.near_sin s 0 0.0000013 ltac:(rewrite Rminus_0_r; exact S)) as (q0 & SQ & SB0). rewrite sin_0, Rplus_0_l in SQ.
  assert (SB : - (0.0000013) <= sin s <= 0.0000013) by (rewrite SQ; lra). clear SQ SB0 q0. apply Rabs_le_inv in A2.
  set (p := a * (x * x)) in *. set (q := a * (x * y)) in *.
  split.
  - match goal with |- Rabs ?e <= _ => replace e with ((1 - cos s) + p * cos s - q * sin s) by (unfold p, q; ring) end.
    clearbody p q. apply Rabs_le. split; nra.
  - match goal with |- Rabs ?e <= _ => replace e with (sin s * (1 - p) - q * cos s) by (unfold p, q; ring) end.
    clearbody p q. apply Rabs_le. split; nra.
Qed.

(** The sidereal angle less the Earth rotation angle: general precession in right
    ascension. *)
Lemma sidereal_chord : forall t x c s, Rabs t <= 1 -> Rabs (x - arcsec (4612.9 * t)) <= arcsec 4 ->
  c * c + s * s = 1 ->
  c * entry (C2I t) I0 I0 - s * entry (C2I t) I1 I0 = entry (NPB t) I0 I0 -> s * entry (C2I t) I0 I0 + c * entry (C2I t) I1 I0 = entry (NPB t) I1 I0 ->
  Rabs (c - cos x) <= 0.00032 /\ Rabs (s - sin x) <= 0.00031.
Proof.
  intros t x c s Ht Hx U E0 E1. destruct (C2I_facts t Ht) as (_ & _ & Q0 & Q1). destruct (npb_first t Ht) as (M0 & M1).
  set (q0 := entry (C2I t) I0 I0) in *. set (q1 := entry (C2I t) I1 I0) in *. set (m0 := entry (NPB t) I0 I0) in *. set (m1 := entry (NPB t) I1 I0) in *. clearbody q0 q1 m0 m1.
  destruct (angles_1 t Ht) as (_ & PB & WB). destruct eps0_trig as (_ & CE).
  assert (K : 0.0000048481368 <= PI / 648000 <= 0.0000048481369) by (pose proof PI_bounds; lra).
  assert (PS : Rabs (psi_A t - arcsec (5038.47875 * t)) <= arcsec 1.074).
  { unfold psi_A. replace (arcsec (5038.7784 * t - 1.07259 * t ^ 2 - 0.001147 * t ^ 3 - 0.29965 * t) - arcsec (5038.47875 * t)) with (arcsec (- 1.07259 * t ^ 2 - 0.001147 * t ^ 3)) by (unfold arcsec; lra).
    rewrite arcsec_abs. apply arcsec_le. apply Rabs_le_inv in Ht. assert (T2 : 0 <= t ^ 2 <= 1) by nra. assert (T3 : -1 <= t ^ 3 <= 1) by (replace (t ^ 3) with (t * t ^ 2) by ring; split; nra). apply Rabs_le. lra. }
  destruct (L_Orbit.near_cos (omega_A t) eps_0 (arcsec 0.09) WB) as (w & EW & WW). set (co := cos (omega_A t)) in *. clearbody co.
  set (ps := psi_A t) in *. clearbody ps. set (ce := cos eps_0) in *. clearbody ce. clear WB.
  unfold arcsec in *. set (k := PI / 648000) in *. clearbody k.
  assert (HX : Rabs x <= 0.02239) by (apply Rabs_le_inv in Hx; apply Rabs_le_inv in Ht; apply Rabs_le; split; nra).
  assert (HP : Rabs ps <= 0.02444) by (apply Rabs_le_inv in PB; apply Rabs_le; split; nra).
  pose proof (sin_small _ _ HX ltac:(lra)) as SX. pose proof (sin_small _ _ HP ltac:(lra)) as SP.
  destruct (cos_taylor4 x ltac:(lra)) as [CX1 CX2]. destruct (cos_taylor4 ps ltac:(lra)) as [CP1 CP2].
  assert (P4 : forall z b, Rabs z <= b -> z ^ 4 <= b ^ 4).
  { intros z b Hz. replace (z ^ 4) with (Rabs z ^ 4). { apply pow_incr. split; [apply Rabs_pos|exact Hz]. }
    rewrite RPow_abs. apply Rabs_pos_eq. replace (z ^ 4) with ((z * z) * (z * z)) by ring. nra. }
  pose proof (P4 _ _ HX) as X4. pose proof (P4 _ _ HP) as PS4. clear P4.
  assert (CC : Rabs (cos ps - cos x) <= 0.000049).
  { assert (D : Rabs (x - ps) <= 0.0020885) by (apply Rabs_le_inv in Hx; apply Rabs_le_inv in PS; apply Rabs_le_inv in Ht; apply Rabs_le; assert (- k <= t * k <= k) by (clear - K Ht; split; nra); rewrite !Rmult_assoc in Hx, PS; set (tk := t * k) in *; split; lra).
    assert (S2 : Rabs (x + ps) <= 0.04683) by (apply Rabs_le_inv in HX; apply Rabs_le_inv in HP; apply Rabs_le; lra).
    pose proof (mulb _ _ _ _ D S2) as M. replace ((x - ps) * (x + ps)) with (x * x - ps * ps) in M by ring. apply Rabs_le_inv in M.
    set (xx := x * x) in *. set (pp := ps * ps) in *. clearbody xx pp. apply Rabs_le. split; lra. }
  assert (MM : Rabs (m1 - sin x) <= 0.000284).
  { assert (D : Rabs (ps * co - x) <= 0.0000725).
    { rewrite EW. replace (ps * (ce + w) - x) with ((ps - 5038.47875 * t * k) * (ce + w) + t * (k * (5038.47875 * (ce + w) - 4612.9)) - (x - 4612.9 * t * k)) by ring.
      assert (W1 : 0.917473 <= ce + w <= 0.917491) by (split; lra).
      assert (A1 : Rabs ((ps - 5038.47875 * t * k) * (ce + w)) <= 1.074 * k * 0.917491) by (apply mulb; [exact PS|apply Rabs_le; lra]).
      assert (A2 : Rabs (t * (k * (5038.47875 * (ce + w) - 4612.9))) <= 1 * (k * 9.9)).
      { apply mulb; [exact Ht|]. rewrite Rabs_mult, (Rabs_pos_eq k) by lra. apply Rmult_le_compat_l; [lra|]. apply Rabs_le. lra. }
      apply Rabs_le_inv in A1. apply Rabs_le_inv in A2. apply Rabs_le_inv in Hx. apply Rabs_le. split; lra. }
    assert (CO : Rabs co <= 1) by (rewrite EW; apply Rabs_le; split; lra).
    pose proof (mulb _ _ _ _ SP CO) as SC. replace ((sin ps - ps) * co) with (sin ps * co - ps * co) in SC by ring.
    set (a := sin ps * co) in *. set (b := ps * co) in *. clearbody a b. apply Rabs_le_inv in SC. apply Rabs_le_inv in D. apply Rabs_le_inv in M1. apply Rabs_le_inv in SX.
    apply Rabs_le. split; lra. }
  assert (MC : Rabs (m0 - cos x) <= 0.000256) by (apply Rabs_le_inv in M0; apply Rabs_le_inv in CC; apply Rabs_le; split; lra).
  assert (CB : Rabs c <= 1) by (clear - U; apply Rabs_le; split; nra). assert (SB : Rabs s <= 1) by (clear - U; apply Rabs_le; split; nra).
  assert (SB2 : Rabs s <= 0.1).
  { pose proof (mulb _ _ _ _ CB Q1) as G1. pose proof (mulb _ _ _ _ SB Q0) as G2. replace (s * (1 - q0)) with (s - (m1 - c * q1)) in G2 by (rewrite <- E1; ring).
    set (g := c * q1) in *. clearbody g. apply Rabs_le_inv in G1. apply Rabs_le_inv in G2. apply Rabs_le_inv in MM. apply Rabs_le_inv in SX. apply Rabs_le_inv in HX. apply Rabs_le. split; lra. }
  pose proof (mulb _ _ _ _ CB Q0) as B1. pose proof (mulb _ _ _ _ SB2 Q0) as B2. pose proof (mulb _ _ _ _ SB Q1) as B3. pose proof (mulb _ _ _ _ CB Q1) as B4.
  replace (c * (1 - q0)) with (c - (m0 + s * q1)) in B1 by (rewrite <- E0; ring). replace (s * (1 - q0)) with (s - (m1 - c * q1)) in B2 by (rewrite <- E1; ring).
  set (g := c * q1) in *. set (h := s * q1) in *. clearbody g h.
  apply Rabs_le_inv in B1. apply Rabs_le_inv in B2. apply Rabs_le_inv in B3. apply Rabs_le_inv in B4. apply Rabs_le_inv in MM. apply Rabs_le_inv in MC.
  split; apply Rabs_le; split; lra.
Qed.
