(** * Proofs of C82-C84 and of the sharper form of C43 *)

From Coq Require Import ZArith Reals Lra Lia Bool List.
From Flocq Require Import Core.
From Verif Require Import Outcome Arith ArithR M_Common M_Time M_Earth Spec_Matrix Spec_Frames Spec_Series Spec_Orbit.
From Verif Require Import L_ArithR L_Series L_SeriesR L_Matrix L_Pi L_Epv L_Kepler L_Orbit L_OrbitV L_Near L_PSeries.
Import ListNotations.
Open Scope R_scope.

Lemma nrm_rev : forall u v, nrm u - nrm v <= nrm (addv u v).
Proof.
  intros u v. pose proof (nrm_triangle (addv u v) (sub (V3 (A := realA) 0 0 0) v)) as T.
  assert (E1 : addv (addv u v) (sub (V3 (A := realA) 0 0 0) v) = u).
  { destruct u as [u0 u1 u2], v as [w0 w1 w2]. unfold addv, sub, vadd, vsub, coord. cbn [vget v0 v1 v2]. realA_ops. change (num realA) with R in *. f_equal; ring. }
  assert (E2 : nrm (sub (V3 (A := realA) 0 0 0) v) = nrm v).
  { unfold nrm. f_equal. destruct v as [w0 w1 w2]. vec_calc. ring. }
  rewrite E1, E2 in T. lra.
Qed.

Lemma nrm_box : forall x y z b, 0 <= b -> Rabs x <= b -> Rabs y <= b -> Rabs z <= b -> nrm (V3 (A := realA) x y z) <= 1.7321 * b.
Proof.
  intros x y z b Hb Hx Hy Hz. apply nrm_le; [lra|]. unfold sprod, coord. cbn [vget v0 v1 v2]. change (num realA) with R in *.
  assert (S : forall a, Rabs a <= b -> a * a <= b * b).
  { intros a Ha. replace (a * a) with (Rabs a * Rabs a) by (rewrite <- Rabs_mult; apply Rabs_pos_eq; nra). pose proof (Rabs_pos a). nra. }
  pose proof (S _ Hx). pose proof (S _ Hy). pose proof (S _ Hz). assert (0 <= b * b) by nra. lra.
Qed.

Definition orbv (u : R) : vec3 realA := V3 (A := realA) (orbit_pos u I0) (orbit_pos u I1) (orbit_pos u I2).

Lemma orbit_radius2 : forall u, orbit_x u * orbit_x u + orbit_y u * orbit_y u = (orbit_a * (1 - orbit_e * cos u)) * (orbit_a * (1 - orbit_e * cos u)).
Proof.
  intros u. pose proof (sin2_cos2 orbit_peri) as P. unfold Rsqr in P.
  transitivity (orbit_xi u * orbit_xi u + orbit_eta u * orbit_eta u).
  { unfold orbit_x, orbit_y. 
    transitivity ((orbit_xi u * orbit_xi u + orbit_eta u * orbit_eta u) * (sin orbit_peri * sin orbit_peri + cos orbit_peri * cos orbit_peri)); [ring|rewrite P; ring]. }
  unfold orbit_xi, orbit_eta. assert (L : 0 <= 1 - orbit_e * orbit_e) by (unfold orbit_e; lra). pose proof (sqrt_def _ L) as D.
  set (s := R_sqrt.sqrt _) in *. clearbody s. pose proof (sin2_cos2 u) as U. unfold Rsqr in U.
  transitivity (orbit_a * orbit_a * ((cos u - orbit_e) * (cos u - orbit_e) + (s * s) * (sin u * sin u))); [ring|].
  rewrite D. replace (sin u * sin u) with (1 - cos u * cos u) by lra. ring.
Qed.

Lemma orbv_radius : forall u, nrm (orbv u) = orbit_a * (1 - orbit_e * cos u).
Proof.
  intros u. unfold nrm. pose proof (sin2_cos2 orbit_obl) as P. unfold Rsqr in P. pose proof (orbit_radius2 u) as R2.
  assert (S : sprod (orbv u) (orbv u) = (orbit_a * (1 - orbit_e * cos u)) * (orbit_a * (1 - orbit_e * cos u))).
  { unfold orbv, sprod, coord, orbit_pos. cbn [vget v0 v1 v2]. change (num realA) with R in *. rewrite <- R2.
    transitivity (orbit_x u * orbit_x u + (sin orbit_obl * sin orbit_obl + cos orbit_obl * cos orbit_obl) * (orbit_y u * orbit_y u)); [ring|rewrite P; ring]. }
  rewrite S. apply sqrt_square. pose proof (COS_bound u). unfold orbit_a, orbit_e. lra.
Qed.

Lemma orbit_xy_small : forall u, Rabs (orbit_x u) <= 1.02 /\ Rabs (orbit_y u) <= 1.02.
Proof.
  intros u. pose proof (orbit_radius2 u) as R2. pose proof (COS_bound u) as C.
  assert (Q : 0 <= orbit_a * (1 - orbit_e * cos u) <= 1.02) by (unfold orbit_a, orbit_e; lra). set (q := orbit_a * _) in *. clearbody q.
  set (x := orbit_x u) in *. set (y := orbit_y u) in *. clearbody x y. assert (q * q <= 1.02 * 1.02) by nra.
  split; apply Rabs_le; split; nra.
Qed.

Lemma helio_vec : forall d, pv_p (A := realA) (heliocentric (A := realA) (epv_val realA d)) =
  ecl_to_icrf (A := realA) (fst (helio_st realA 0 (years d))) (fst (helio_st realA 1 (years d))) (fst (helio_st realA 2 (years d))).
Proof. intros d. unfold epv_val. cbn [heliocentric pv_p]. cbv zeta. rewrite years_R. reflexivity. Qed.

Lemma icrf_orbit : forall x y z u, Rabs (x - orbit_x u) <= 0.00058 -> Rabs (y - orbit_y u) <= 0.00056 -> Rabs z <= 0.00026 ->
  forall i, Rabs (coord (ecl_to_icrf (A := realA) x y z) i - orbit_pos u i) <= 0.00065.
Proof.
  intros x y z u Hx Hy Hz. destruct (orbit_xy_small u) as [X Y]. destruct obl_trig as [C S].
  apply Rabs_le_inv in Hx. apply Rabs_le_inv in Hy. apply Rabs_le_inv in Hz. apply Rabs_le_inv in X. apply Rabs_le_inv in Y.
  assert (C' : -0.0000082 <= 0.917482137087 - cos orbit_obl <= 0.0000082) by lra.
  assert (S' : -0.000098 <= 0.397776982902 - sin orbit_obl <= 0.000098) by lra.
  set (c := cos orbit_obl) in *. set (s := sin orbit_obl) in *.
  assert (PC : -0.00001 <= (0.917482137087 - c) * orbit_y u <= 0.00001) by (split; nra).
  assert (PS : -0.0001 <= (0.397776982902 - s) * orbit_y u <= 0.0001) by (split; nra).
  intros i. unfold ecl_to_icrf, coord, AM12, AM13, AM21, AM22, AM23, AM32, AM33, orbit_pos. fold c s.
  destruct i; cbn [vget v0 v1 v2]; realA_ops; unfold Rlit; change (Z.pow_pos 10 12) with 1000000000000%Z;
  set (ox := orbit_x u) in *; set (oy := orbit_y u) in *; clearbody ox oy c s; change (num realA) with R in *; apply Rabs_le; split; lra.
Qed.

(** C82.  From 1900 to 2100 the heliocentric position of the Earth is that of
    an ellipse with the published mean elements, solved by Kepler's equation,
    within 0.00065 AU in each equatorial coordinate. *)
Lemma C82_kepler_pf : forall d, Rabs (years d) <= 100 -> exists r u, earth_pos_vel (A := realA) d = Val r /\ kepler u (years d) /\
  forall i, Rabs (coord (pv_p (A := realA) (heliocentric (A := realA) r)) i - orbit_pos u i) <= 0.00065.
Proof.
  intros d H. destruct (kepler_exists orbit_e (mean_anomaly (years d))) as [u K]; [unfold orbit_e; lra|].
  exists (epv_val realA d), u. split; [apply earth_pos_vel_val|]. split; [exact K|].
  destruct (orbit_ecliptic (years d) u H K) as [Bx By]. destruct (helio_main (years d) H) as (_ & _ & Bz).
  rewrite helio_vec. apply icrf_orbit; assumption.
Qed.

Lemma kepler_nrm : forall d, Rabs (years d) <= 100 -> exists r u, earth_pos_vel (A := realA) d = Val r /\ kepler u (years d) /\
  let p := pv_p (A := realA) (heliocentric (A := realA) r) in
  (forall i, Rabs (coord p i - orbit_pos u i) <= 0.00065) /\
  orbit_a * (1 - orbit_e * cos u) - 0.00113 <= nrm p <= orbit_a * (1 - orbit_e * cos u) + 0.00113.
Proof.
  intros d H. destruct (C82_kepler_pf d H) as (r & u & E & K & B). exists r, u. split; [exact E|]. split; [exact K|]. cbv zeta.
  set (p := pv_p _) in *. split; [exact B|].
  assert (P : p = addv (orbv u) (V3 (A := realA) (coord p I0 - orbit_pos u I0) (coord p I1 - orbit_pos u I1) (coord p I2 - orbit_pos u I2))).
  { clear. clearbody p. destruct p as [p0 p1 p2]. unfold addv, vadd, orbv, coord. cbn [vget v0 v1 v2]. realA_ops. change (num realA) with R in *.
    f_equal; ring. }
  pose proof (nrm_box _ _ _ 0.00065 ltac:(lra) (B I0) (B I1) (B I2)) as N.
  set (e := V3 (A := realA) _ _ _) in *. rewrite P. clearbody e.
  pose proof (nrm_triangle (orbv u) e) as T1. pose proof (nrm_rev (orbv u) e) as T2. rewrite orbv_radius in T1, T2. lra.
Qed.

(** C43.  Earth-Sun distance, 1900-2100, within 0.0012 AU of the range of the
    ellipse. *)
Lemma C43_distance_range_pf : forall d, Rabs (years d) <= 100 -> exists r, earth_pos_vel (A := realA) d = Val r /\
  let p := pv_p (A := realA) (heliocentric (A := realA) r) in
  0.982 <= R_sqrt.sqrt (sprod p p) <= 1.018.
Proof.
  intros d H. destruct (kepler_nrm d H) as (r & u & E & _ & _ & N). exists r. split; [exact E|]. cbv zeta in *. unfold nrm in N.
  pose proof (COS_bound u). unfold orbit_a, orbit_e in N. lra.
Qed.

(** C82.  The distance is a(1 - e cos u) within 0.00113 AU, and the sine of the
    declination of the Sun is at most 0.399 (declination below 23.52 degrees). *)
Lemma C82_distance_declination_pf : forall d, Rabs (years d) <= 100 -> exists r u, earth_pos_vel (A := realA) d = Val r /\ kepler u (years d) /\
  let p := pv_p (A := realA) (heliocentric (A := realA) r) in
  let dist := R_sqrt.sqrt (sprod p p) in
  Rabs (dist - orbit_a * (1 - orbit_e * cos u)) <= 0.00113 /\ Rabs (coord p I2) <= 0.399 * dist.
Proof.
  intros d H. destruct (kepler_nrm d H) as (r & u & E & K & B & N). exists r, u. split; [exact E|]. split; [exact K|]. cbv zeta in *. unfold nrm in N.
  set (p := pv_p _) in *. set (s := R_sqrt.sqrt _) in *.
  split; [apply Rabs_le; lra|].
  specialize (B I2). cbn [orbit_pos] in B. destruct obl_trig as [_ S]. pose proof (orbit_radius2 u) as R2. pose proof (COS_bound u) as C.
  assert (Q : 0.9832 <= orbit_a * (1 - orbit_e * cos u)) by (unfold orbit_a, orbit_e; lra).
  set (q := orbit_a * _) in *. clearbody q. set (x := orbit_x u) in *. set (y := orbit_y u) in *. clearbody x y.
  assert (Y : - q <= y <= q) by (split; nra). set (o := sin orbit_obl) in *. clearbody o s. apply Rabs_le_inv in B.
  assert (OY : - (0.39778 * q) <= o * y <= 0.39778 * q) by (split; nra).
  apply Rabs_le. change (num realA) with R in *. lra.
Qed.

(** The perihelion of early January 2000: there the eccentric anomaly is 0 and
    the distance from the Sun is 0.98329 AU. *)
Example C82_example_pf : kepler 0 ((1.796595647 - 1.753470314) / 6.283075849991) /\
  Rabs (orbit_a * (1 - orbit_e * cos 0) - 0.983292) <= 0.000001 /\
  Rabs ((1.796595647 - 1.753470314) / 6.283075849991 * 365.25 - 2.507) <= 0.001.
Proof.
  unfold kepler, mean_anomaly, iers_e, orbit_peri, orbit_a, orbit_e. rewrite sin_0, cos_0.
  split; [lra|]. split; apply Rabs_le; lra.
Qed.

(** ** Velocity *)

Lemma near_sin : forall x y d, Rabs (x - y) <= d -> exists q, sin x = sin y + q /\ - d <= q <= d.
Proof.
  intros x y d H. exists (sin x - sin y). split; [ring|]. apply Rabs_le_inv. eapply Rle_trans; [apply sin_lip|exact H].
Qed.
Lemma near_sin_cos : forall x y d, Rabs (x + PI / 2 - y) <= d -> exists q, sin x = - cos y + q /\ - d <= q <= d.
Proof.
  intros x y d H. exists (sin x + cos y). split; [ring|]. apply Rabs_le_inv.
  replace (sin x + cos y) with (cos y - cos (x + PI / 2)).
  - eapply Rle_trans; [apply cos_lip|]. rewrite Rabs_minus_sym. exact H.
  - rewrite cos_plus, cos_PI2, sin_PI2. ring.
Qed.

Lemma circle_nrm : forall a x, 0 <= a -> nrm (V3 (A := realA) (- (a * sin x)) (a * cos x) 0) = a.
Proof.
  intros a x Ha. unfold nrm. replace (sprod _ _) with (a * a); [apply sqrt_square; exact Ha|].
  unfold sprod, coord. cbn [vget v0 v1 v2]. change (num realA) with R in *. pose proof (sin2_cos2 x) as S. unfold Rsqr in S.
  transitivity (a * a * (sin x * sin x + cos x * cos x)); [rewrite S; ring|ring].
Qed.

Lemma helio_speed : forall t, Rabs t <= 100 ->
  6.16 <= nrm (V3 (A := realA) (snd (helio_st realA 0 t)) (snd (helio_st realA 1 t)) (snd (helio_st realA 2 t))) <= 6.405.
Proof.
  intros t Ht. destruct (helio_vmain t Ht) as (B0 & B1 & B2).
  set (ph := 1.753485171504 + 6.283075850446 * t) in *. set (th := 1.710344404582 + 12.56615170089 * t) in *.
  pose proof PI_bounds as P.
  destruct (near_sin_cos (0.1826583913846 + 6.283075850446 * t) ph 0.000031) as (q1 & Q1 & D1); [unfold ph; apply Rabs_le; lra|].
  destruct (near_sin_cos (0.139527799868 + 12.56615170089 * t) th 0.000031) as (q2 & Q2 & D2); [unfold th; apply Rabs_le; lra|].
  rewrite Q1, Q2 in B1.
  set (x := snd (helio_st realA 0 t)) in *. set (y := snd (helio_st realA 1 t)) in *. set (z := snd (helio_st realA 2 t)) in *.
  change (num realA) with R in *.
  set (u1 := V3 (A := realA) (- (6.282 * sin ph)) (6.282 * cos ph) 0). set (u2 := V3 (A := realA) (- (0.10496 * sin th)) (0.10496 * cos th) 0).
  assert (N1 : nrm u1 = 6.282) by (apply circle_nrm; lra). assert (N2 : nrm u2 = 0.10496) by (apply circle_nrm; lra).
  set (rx := x + 6.282 * sin ph + 0.10496 * sin th). set (ry := y - 6.282 * cos ph - 0.10496 * cos th).
  assert (E : V3 (A := realA) x y z = addv u1 (addv u2 (V3 (A := realA) rx ry z))).
  { unfold addv, vadd, u1, u2, coord, rx, ry. cbn [vget v0 v1 v2]. realA_ops. change (num realA) with R in *. f_equal; ring. }
  pose proof (SIN_bound ph). pose proof (COS_bound ph). pose proof (SIN_bound th). pose proof (COS_bound th).
  assert (RX : Rabs rx <= 0.0076).
  { unfold rx. clear - B0 H H0 H1 H2. set (a := sin ph) in *. set (b := sin th) in *. clearbody x a b. apply Rabs_le_inv in B0. apply Rabs_le. lra. }
  assert (RY : Rabs ry <= 0.0076).
  { unfold ry. clear - B1 H H0 H1 H2 D1 D2. set (a := cos ph) in *. set (b := cos th) in *. clearbody y a b. apply Rabs_le_inv in B1. apply Rabs_le. lra. }
  assert (N3 : nrm (V3 (A := realA) rx ry z) <= 1.7321 * 0.0076) by (apply nrm_box; lra).
  rewrite E. set (v := V3 (A := realA) rx ry z) in *.
  pose proof (nrm_triangle u1 (addv u2 v)) as T1. pose proof (nrm_rev u1 (addv u2 v)) as T2. pose proof (nrm_triangle u2 v) as T3.
  rewrite N1 in T1, T2. rewrite N2 in T3. lra.
Qed.

Lemma djy_365 : DJY (A := realA) = 365.25.
Proof. rewrite djy_R. lra. Qed.

Lemma nrm_scale : forall x y z c, 0 < c -> nrm (V3 (A := realA) (x / c) (y / c) (z / c)) = nrm (V3 (A := realA) x y z) / c.
Proof.
  intros x y z c Hc. unfold nrm. replace (sprod _ _) with (sprod (V3 (A := realA) x y z) (V3 (A := realA) x y z) / (c * c)).
  - rewrite sqrt_div_alt by nra. rewrite sqrt_square by lra. reflexivity.
  - unfold sprod, coord. cbn [vget v0 v1 v2]. change (num realA) with R in *. field. lra.
Qed.

(** The rotation to equatorial axes changes lengths by at most 2e-5. *)
Lemma nrm_icrf : forall x y z, Rabs x <= 2 -> Rabs y <= 2 -> Rabs z <= 2 -> 0.0001 <= nrm (V3 (A := realA) x y z) ->
  Rabs (nrm (ecl_to_icrf (A := realA) x y z) - nrm (V3 (A := realA) x y z)) <= 0.00001.
Proof.
  intros x y z Hx Hy Hz L. pose proof (ecl_to_icrf_norm x y z Hx Hy Hz) as E. rewrite <- nrm_sq in E.
  pose proof (nrm_sq (V3 (A := realA) x y z)) as N. unfold sprod at 1, coord in N. cbn [vget v0 v1 v2] in N. change (num realA) with R in *.
  rewrite <- N in E. pose proof (nrm_pos (ecl_to_icrf (A := realA) x y z)) as P. set (a := nrm (ecl_to_icrf (A := realA) x y z)) in *. set (b := nrm (V3 (A := realA) x y z)) in *.
  clearbody a b. apply Rabs_le_inv in E. apply Rabs_le. split; apply Rnot_lt_le; intros K; nra.
Qed.
Lemma nrm_icrf_le : forall x y z b, Rabs x <= 2 -> Rabs y <= 2 -> Rabs z <= 2 -> 0.0001 <= b -> nrm (V3 (A := realA) x y z) <= b ->
  nrm (ecl_to_icrf (A := realA) x y z) <= b + 0.00001.
Proof.
  intros x y z b Hx Hy Hz Hb L. pose proof (ecl_to_icrf_norm x y z Hx Hy Hz) as E. rewrite <- nrm_sq in E.
  pose proof (nrm_sq (V3 (A := realA) x y z)) as N. unfold sprod at 1, coord in N. cbn [vget v0 v1 v2] in N. change (num realA) with R in *.
  rewrite <- N in E. pose proof (nrm_pos (ecl_to_icrf (A := realA) x y z)) as P. pose proof (nrm_pos (V3 (A := realA) x y z)) as P'.
  set (a := nrm (ecl_to_icrf (A := realA) x y z)) in *. set (c := nrm (V3 (A := realA) x y z)) in *.
  clearbody a c. apply Rabs_le_inv in E. apply Rnot_lt_le; intros K; nra.
Qed.

Lemma comp_le : forall x y z b, nrm (V3 (A := realA) x y z) <= b -> Rabs x <= b /\ Rabs y <= b /\ Rabs z <= b.
Proof.
  intros x y z b H. pose proof (nrm_pos (V3 (A := realA) x y z)) as P. pose proof (nrm_sq (V3 (A := realA) x y z)) as N. unfold sprod, coord in N. cbn [vget v0 v1 v2] in N.
  change (num realA) with R in *. set (a := nrm _) in *. clearbody a.
  split; [|split]; apply Rabs_le; split; apply Rnot_lt_le; intros K; nra.
Qed.

(** C83.  From 1900 to 2100 the Earth's speed, relative to the Sun as well as
    to the barycentre, lies between 0.0168 and 0.0176 AU per day (29.1 and
    30.5 km/s). *)
Lemma C83_speed_pf : forall d, Rabs (years d) <= 100 -> exists r, earth_pos_vel (A := realA) d = Val r /\
  let v := pv_v (A := realA) (heliocentric (A := realA) r) in
  let w := pv_v (A := realA) (barycentric (A := realA) r) in
  0.0168 <= R_sqrt.sqrt (sprod v v) <= 0.0176 /\ 0.0168 <= R_sqrt.sqrt (sprod w w) <= 0.0176.
Proof.
  intros d H. exists (epv_val realA d). split; [apply earth_pos_vel_val|]. cbv zeta.
  unfold epv_val. cbn [heliocentric barycentric pv_v]. cbv zeta. rewrite years_R, djy_365. change (div realA) with Rdiv.
  set (t := years d) in *. clearbody t. pose proof (helio_speed t H) as S.
  destruct (sun_small t H) as (_ & Q0 & Q1 & Q2).
  set (x := snd (helio_st realA 0 t)) in *. set (y := snd (helio_st realA 1 t)) in *. set (z := snd (helio_st realA 2 t)) in *.
  set (bx := snd (bary_st realA 0 t)) in *. set (by_ := snd (bary_st realA 1 t)) in *. set (bz := snd (bary_st realA 2 t)) in *.
  clearbody x y z bx by_ bz.
  assert (SB : 6.15 <= nrm (V3 (A := realA) bx by_ bz) <= 6.415).
  { assert (E : V3 (A := realA) bx by_ bz = addv (V3 (A := realA) x y z) (V3 (A := realA) (bx - x) (by_ - y) (bz - z))).
    { unfold addv, vadd, coord. cbn [vget v0 v1 v2]. realA_ops. change (num realA) with R in *. f_equal; ring. }
    assert (N : nrm (V3 (A := realA) (bx - x) (by_ - y) (bz - z)) <= 1.7321 * 0.00359) by (apply nrm_box; lra).
    rewrite E. set (e := V3 (A := realA) (bx - x) (by_ - y) (bz - z)) in *. set (h := V3 (A := realA) x y z) in *.
    pose proof (nrm_triangle h e). pose proof (nrm_rev h e). lra. }
  assert (G : forall x y z, 6.15 <= nrm (V3 (A := realA) x y z) <= 6.415 ->
    0.0168 <= nrm (ecl_to_icrf (A := realA) (x / 365.25) (y / 365.25) (z / 365.25)) <= 0.0176).
  { clear. intros x y z S. pose proof (nrm_scale x y z 365.25 ltac:(lra)) as E.
    assert (S' : 0.01683 <= nrm (V3 (A := realA) (x / 365.25) (y / 365.25) (z / 365.25)) <= 0.01757) by (rewrite E; lra).
    destruct (comp_le _ _ _ 0.01757 (proj2 S')) as (X & Y & Z).
    pose proof (nrm_icrf (x / 365.25) (y / 365.25) (z / 365.25) ltac:(lra) ltac:(lra) ltac:(lra) ltac:(lra)) as I. apply Rabs_le_inv in I. lra. }
  split; [apply (G x y z)|apply (G bx by_ bz)]; lra.
Qed.

(** The mean speed, one circumference of radius 1 AU in a Julian year, lies in
    that range; a speed 5 percent off does not. *)
Example C83_example_pf : 0.0168 <= 2 * PI / 365.25 <= 0.0176 /\ 1.05 * (2 * PI / 365.25) > 0.0176 /\ 0.95 * (2 * PI / 365.25) < 0.0168.
Proof. pose proof PI_bounds. lra. Qed.

(** C84.  The Sun stays within 0.016 AU (3.5 solar radii) of the barycentre
    and moves relative to it by at most 0.000015 AU per day. *)
Lemma C84_barycentre_pf : forall d, Rabs (years d) <= 100 -> exists r, earth_pos_vel (A := realA) d = Val r /\
  let s i := coord (pv_p (A := realA) (barycentric (A := realA) r)) i - coord (pv_p (A := realA) (heliocentric (A := realA) r)) i in
  let w i := coord (pv_v (A := realA) (barycentric (A := realA) r)) i - coord (pv_v (A := realA) (heliocentric (A := realA) r)) i in
  R_sqrt.sqrt (s I0 * s I0 + s I1 * s I1 + s I2 * s I2) <= 0.016 /\
  R_sqrt.sqrt (w I0 * w I0 + w I1 * w I1 + w I2 * w I2) <= 0.000015.
Proof.
  intros d H. exists (epv_val realA d). split; [apply earth_pos_vel_val|]. cbv zeta.
  unfold epv_val. cbn [heliocentric barycentric pv_p pv_v]. cbv zeta. rewrite years_R, djy_365. change (div realA) with Rdiv.
  set (t := years d) in *. clearbody t. destruct (sun_small t H) as ((P0 & P1 & P2) & Q0 & Q1 & Q2).
  set (x := snd (helio_st realA 0 t)) in *. set (y := snd (helio_st realA 1 t)) in *. set (z := snd (helio_st realA 2 t)) in *.
  set (bx := snd (bary_st realA 0 t)) in *. set (by_ := snd (bary_st realA 1 t)) in *. set (bz := snd (bary_st realA 2 t)) in *.
  set (px := fst (helio_st realA 0 t)) in *. set (py := fst (helio_st realA 1 t)) in *. set (pz := fst (helio_st realA 2 t)) in *.
  set (qx := fst (bary_st realA 0 t)) in *. set (qy := fst (bary_st realA 1 t)) in *. set (qz := fst (bary_st realA 2 t)) in *.
  clearbody x y z bx by_ bz px py pz qx qy qz. change (num realA) with R in *.
  unfold ecl_to_icrf, coord, AM12, AM13, AM21, AM22, AM23, AM32, AM33. cbn [vget v0 v1 v2]. realA_ops; unfold Rlit; change (Z.pow_pos 10 12) with 1000000000000%Z.
  assert (G : forall x y z a b, 0 <= b -> Rabs x <= a -> Rabs y <= a -> Rabs z <= a / 25 -> a * 1.42 <= b ->
    forall s0 s1 s2, s0 = x + 211284 / 1000000000000 * y + -91603 / 1000000000000 * z ->
    s1 = -230286 / 1000000000000 * x + 917482137087 / 1000000000000 * y + -397776982902 / 1000000000000 * z ->
    s2 = 397776982902 / 1000000000000 * y + 917482137087 / 1000000000000 * z ->
    R_sqrt.sqrt (s0 * s0 + s1 * s1 + s2 * s2) <= b).
  { clear. intros x y z a b Hb Hx Hy Hz Hab s0 s1 s2 -> -> ->.
    rewrite <- (sqrt_square b) by exact Hb. apply sqrt_le_1_alt.
    assert (A0 : 0 <= a) by (pose proof (Rabs_pos x); lra).
    apply Rabs_le_inv in Hx. apply Rabs_le_inv in Hy. apply Rabs_le_inv in Hz.
    assert (XX : 0 <= x * x <= a * a) by nra. assert (YY : 0 <= y * y <= a * a) by nra. assert (ZZ : 0 <= z * z <= a * a / 625) by nra.
    assert (XY : - (a * a) <= x * y <= a * a) by (split; nra). assert (XZ : - (a * a) <= x * z <= a * a) by (split; nra). assert (YZ : - (a * a) <= y * z <= a * a) by (split; nra).
    assert (BB : a * 1.42 * (a * 1.42) <= b * b) by nra. lra. }
  split.
  - apply (G (qx - px) (qy - py) (qz - pz) 0.01078); try lra; field.
  - apply (G ((bx - x) / 365.25) ((by_ - y) / 365.25) ((bz - z) / 365.25) (0.00359 / 365.25)); try lra.
    + unfold Rdiv. rewrite Rabs_mult, (Rabs_pos_eq (/ 365.25)) by lra. lra.
    + unfold Rdiv. rewrite Rabs_mult, (Rabs_pos_eq (/ 365.25)) by lra. lra.
    + unfold Rdiv at 1. rewrite Rabs_mult, (Rabs_pos_eq (/ 365.25)) by lra. lra.
Qed.

(** J2000.0. *)
Example C84_example_pf : let d := MkTDB (A := realA) 2451545 0 in years d = 0 /\ exists r, earth_pos_vel (A := realA) d = Val r /\
  Rabs (coord (pv_p (A := realA) (barycentric (A := realA) r)) I2 - coord (pv_p (A := realA) (heliocentric (A := realA) r)) I2) <= 0.016.
Proof.
  cbv zeta. assert (Y : years (MkTDB (A := realA) 2451545 0) = 0) by (unfold years; cbn [tdb_1 tdb_2]; lra). split; [exact Y|].
  destruct (C84_barycentre_pf (MkTDB (A := realA) 2451545 0)) as (r & E & S & _); [rewrite Y, Rabs_R0; lra|].
  exists r. split; [exact E|]. cbv zeta in S. set (a := _ - _) in S at 1 2. set (b := _ - _) in S at 1 2. set (c := _ - _) in S at 1 2.
  set (c' := _ - _). change c' with c. clearbody a b c.
  assert (Q : c * c <= 0.016 * 0.016).
  { assert (L : 0 <= a * a + b * b + c * c) by nra. pose proof (sqrt_pos (a * a + b * b + c * c)) as P. pose proof (sqrt_def _ L) as D.
    set (s := R_sqrt.sqrt _) in *. clearbody s. nra. }
  apply Rabs_le. split; apply Rnot_lt_le; intros K; nra.
Qed.
