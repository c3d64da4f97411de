(** * The Kepler ellipse against the almanac's longitude of the Sun *)

From Coq Require Import ZArith Reals Lra Lia Bool List Psatz.
From Flocq Require Import Core.
From Verif Require Import Outcome Arith ArithR M_Common M_Time M_Frames Spec_Matrix Spec_Frames Spec_Series Spec_C2t Spec_Sun Spec_Pole Spec_Orbit Spec_Almanac.
From Verif Require Import L_ArithR L_Matrix L_PMatrix L_Frames L_Near L_Pi L_PFrames L_Kepler L_Orbit L_POrbit L_PPole L_CioLow L_Almanac.
Import ListNotations.
Open Scope R_scope.

(** ** Radius and equation of the centre *)

Definition rad_of (m : R) : R := orbit_a * (1 - orbit_e * cos m + orbit_e * orbit_e * (sin m * sin m)).
Definition centre_of (m : R) : R := 2 * orbit_e * sin m + 5 / 4 * (orbit_e * orbit_e) * sin (2 * m).

Lemma rad_range : forall m, 0.983 <= rad_of m <= 1.0171.
Proof.
  intros m. unfold rad_of, orbit_a, orbit_e. pose proof (COS_bound m). pose proof (SIN_bound m). assert (0 <= sin m * sin m <= 1) by (split; nra).
  set (q := sin m * sin m) in *. lra.
Qed.

Lemma pow_1 : forall c n, Rabs c <= 1 -> - 1 <= c ^ n <= 1.
Proof. intros c n H. apply Rabs_le_inv. rewrite <- RPow_abs. rewrite <- (pow1 n). apply pow_incr. split; [apply Rabs_pos|exact H]. Qed.

Lemma centre_polar : forall m, let c := cos m in let s := sin m in let e := orbit_e in
  Rabs (c - e - e * (s * s) - 3 / 2 * (e * e) * c * (s * s) - (1 - e * c + e * e * (s * s)) * cos (m + centre_of m)) <= 0.0000181 /\
  Rabs ((1 - 5 / 8 * (e * e)) * s + e * s * c + 3 / 8 * (e * e) * (3 * s - 4 * (s * s * s)) - (1 - e * c + e * e * (s * s)) * sin (m + centre_of m)) <= 0.0000201.
Proof.
  intros m c s e. unfold centre_of. fold e. rewrite sin_2a. fold c s.
  set (d := 2 * e * s + 5 / 4 * (e * e) * (2 * s * c)). rewrite cos_plus, sin_plus. fold c s.
  assert (C1 : Rabs c <= 1) by (unfold c; pose proof (COS_bound m); apply Rabs_le; lra).
  assert (S1 : Rabs s <= 1) by (unfold s; pose proof (SIN_bound m); apply Rabs_le; lra).
  assert (SC : s * s = 1 - c * c) by (pose proof (sin2_cos2 m) as U; unfold Rsqr in U; fold c s in U; lra).
  assert (D : Rabs d <= 0.03412).
  { pose proof (mulb _ _ _ _ S1 C1) as M. unfold d, e, orbit_e. set (q := s * c) in *. replace (2 * s * c) with (2 * q) by (unfold q; ring). clearbody q. clearbody s c.
    apply Rabs_le_inv in M. apply Rabs_le_inv in S1. apply Rabs_le. lra. }
  pose proof (sin_small _ _ D ltac:(lra)) as SD. destruct (cos_taylor4 d ltac:(lra)) as [CD1 CD2].
  assert (D4 : d ^ 4 <= 0.03412 ^ 4).
  { replace (d ^ 4) with (Rabs d ^ 4). { apply pow_incr. split; [apply Rabs_pos|exact D]. }
    rewrite RPow_abs. apply Rabs_pos_eq. replace (d ^ 4) with ((d * d) * (d * d)) by ring. nra. }
  set (cd := cos d) in *. set (sd := sin d) in *. clearbody cd sd.
  set (p := cd - (1 - d * d / 2)) in *. set (q := sd - d) in *.
  assert (P : Rabs p <= 0.00000006) by (apply Rabs_le; lra). assert (Q : Rabs q <= 0.000006621) by (apply Rabs_le_inv in SD; apply Rabs_le; lra).
  replace cd with (p + (1 - d * d / 2)) by (unfold p; ring). replace sd with (q + d) by (unfold q; ring). clearbody p q. clear SD CD1 CD2 D4 cd sd D.
  pose proof (mulb _ _ _ _ C1 P) as CP. pose proof (mulb _ _ _ _ S1 P) as SP. pose proof (mulb _ _ _ _ C1 Q) as CQ. pose proof (mulb _ _ _ _ S1 Q) as SQ.
  assert (R0 : Rabs (1 - e * c + e * e * (s * s)) <= 1.0171).
  { unfold e, orbit_e. apply Rabs_le_inv in C1. apply Rabs_le_inv in S1. assert (0 <= s * s <= 1) by (split; nra). set (ss := s * s) in *. clearbody ss. apply Rabs_le. lra. }
  pose proof (pow_1 c 2 C1) as K2. pose proof (pow_1 c 3 C1) as K3. pose proof (pow_1 c 4 C1) as K4. pose proof (pow_1 c 5 C1) as K5. pose proof (pow_1 c 6 C1) as K6. pose proof (pow_1 c 7 C1) as K7.
  assert (RX : Rabs ((1 - e * c + e * e * (s * s)) * (c * p - s * q)) <= 1.0171 * 0.000006681).
  { apply mulb; [exact R0|]. apply Rabs_le_inv in CP. apply Rabs_le_inv in SQ. apply Rabs_le. lra. }
  assert (RY : Rabs ((1 - e * c + e * e * (s * s)) * (s * p + c * q)) <= 1.0171 * 0.000006681).
  { apply mulb; [exact R0|]. apply Rabs_le_inv in SP. apply Rabs_le_inv in CQ. apply Rabs_le. lra. }
  split.
  - assert (GX : Rabs (e ^ 3 * ((1 - c ^ 2) * (3 / 2 * c ^ 2 - 2)) + e ^ 4 * (- 9 / 2 * c + 87 / 8 * c ^ 3 - 51 / 8 * c ^ 5) + e ^ 5 * (- 5 * c ^ 2 + 105 / 8 * c ^ 4 - 65 / 8 * c ^ 6)
       + e ^ 6 * (- 25 / 8 * c ^ 3 + 25 / 4 * c ^ 5 - 25 / 8 * c ^ 7)) <= 0.0000112).
    { apply Rabs_le_inv in C1. assert (0 <= c ^ 2) by nra. assert (Z : -2 <= (1 - c ^ 2) * (3 / 2 * c ^ 2 - 2) <= 0) by (split; nra).
      set (z := (1 - c ^ 2) * _) in *. clearbody z. unfold e, orbit_e. set (c2 := c ^ 2) in *. set (c3 := c ^ 3) in *. set (c4 := c ^ 4) in *. set (c5 := c ^ 5) in *. set (c6 := c ^ 6) in *. set (c7 := c ^ 7) in *.
      clearbody c2 c3 c4 c5 c6 c7. clear - Z C1 K2 K3 K4 K5 K6 K7. clearbody c. apply Rabs_le. split; lra. }
    match goal with |- Rabs ?x <= _ => replace x with (- (e ^ 3 * ((1 - c ^ 2) * (3 / 2 * c ^ 2 - 2)) + e ^ 4 * (- 9 / 2 * c + 87 / 8 * c ^ 3 - 51 / 8 * c ^ 5) + e ^ 5 * (- 5 * c ^ 2 + 105 / 8 * c ^ 4 - 65 / 8 * c ^ 6)
       + e ^ 6 * (- 25 / 8 * c ^ 3 + 25 / 4 * c ^ 5 - 25 / 8 * c ^ 7)) - (1 - e * c + e * e * (s * s)) * (c * p - s * q)) end.
    + apply Rabs_le_inv in GX. apply Rabs_le_inv in RX. set (g := e ^ 3 * _ + _ + _ + _) in *. set (r := _ * (c * p - s * q)) in *. clearbody g r. apply Rabs_le. lra.
    + unfold d. replace ((2 * e * s + 5 / 4 * (e * e) * (2 * s * c)) * (2 * e * s + 5 / 4 * (e * e) * (2 * s * c)) / 2) with ((s * s) * ((2 * e + 5 / 2 * (e * e) * c) * (2 * e + 5 / 2 * (e * e) * c)) / 2) by field.
      replace (s * (q + (2 * e * s + 5 / 4 * (e * e) * (2 * s * c)))) with (s * q + (s * s) * (2 * e + 5 / 2 * (e * e) * c)) by field.
      rewrite SC. clearbody e c s. field.
  - assert (GY : Rabs (s * (e ^ 3 * (- c - 3 / 2 * c ^ 3) + e ^ 4 * (- 2 + 67 / 8 * c ^ 2 - 51 / 8 * c ^ 4) + e ^ 5 * (- 5 * c + 105 / 8 * c ^ 3 - 65 / 8 * c ^ 5)
       + e ^ 6 * (- 25 / 8 * c ^ 2 + 25 / 4 * c ^ 4 - 25 / 8 * c ^ 6))) <= 1 * 0.00001305).
    { apply mulb; [exact S1|]. apply Rabs_le_inv in C1.
      unfold e, orbit_e. set (c2 := c ^ 2) in *. set (c3 := c ^ 3) in *. set (c4 := c ^ 4) in *. set (c5 := c ^ 5) in *. set (c6 := c ^ 6) in *. set (c7 := c ^ 7) in *.
      clearbody c2 c3 c4 c5 c6 c7. clear - C1 K2 K3 K4 K5 K6 K7. clearbody c. apply Rabs_le. split; lra. }
    match goal with |- Rabs ?x <= _ => replace x with (- (s * (e ^ 3 * (- c - 3 / 2 * c ^ 3) + e ^ 4 * (- 2 + 67 / 8 * c ^ 2 - 51 / 8 * c ^ 4) + e ^ 5 * (- 5 * c + 105 / 8 * c ^ 3 - 65 / 8 * c ^ 5)
       + e ^ 6 * (- 25 / 8 * c ^ 2 + 25 / 4 * c ^ 4 - 25 / 8 * c ^ 6))) - (1 - e * c + e * e * (s * s)) * (s * p + c * q)) end.
    + apply Rabs_le_inv in GY. apply Rabs_le_inv in RY. set (g := s * (e ^ 3 * _ + _ + _ + _)) in *. set (r := _ * (s * p + c * q)) in *. clearbody g r. apply Rabs_le. lra.
    + unfold d. replace ((2 * e * s + 5 / 4 * (e * e) * (2 * s * c)) * (2 * e * s + 5 / 4 * (e * e) * (2 * s * c)) / 2) with ((s * s) * ((2 * e + 5 / 2 * (e * e) * c) * (2 * e + 5 / 2 * (e * e) * c)) / 2) by field.
      rewrite SC. clearbody e c s. field.
Qed.

(** Minus the orbital position is the vector to the Sun: longitude m + centre +
    perihelion + 180 degrees. *)
Lemma orbit_sun : forall u t, kepler u t -> let m := mean_anomaly t in
  nrm (sub (scl (-1) (orbv u)) (scl (rad_of m) (ecl (m + centre_of m + orbit_peri + PI) orbit_obl))) <= 0.00005.
Proof.
  intros u t K m. destruct (orbit_expand u) as (e1 & e2 & R1 & R2 & X & Y). unfold kepler in K. rewrite K in X, Y. fold m in X, Y.
  destruct (centre_polar m) as [CX CY]. cbv zeta in CX, CY. clear K.
  set (nu := m + centre_of m) in *.
  assert (T2 : cos (2 * m) = 1 - 2 * (sin m * sin m)) by (rewrite cos_2a_sin; ring).
  assert (U : cos m * cos m = 1 - sin m * sin m) by (pose proof (sin2_cos2 m) as V; unfold Rsqr in V; lra).
  assert (T3 : cos (3 * m) = cos m - 4 * (cos m * (sin m * sin m))).
  { replace (3 * m) with (m + 2 * m) by ring. rewrite cos_plus, T2, sin_2a. ring. }
  assert (T4 : sin (3 * m) = 3 * sin m - 4 * (sin m * sin m * sin m)).
  { replace (3 * m) with (m + 2 * m) by ring. rewrite sin_plus, T2, sin_2a. replace (cos m * (2 * sin m * cos m)) with (2 * sin m * (cos m * cos m)) by ring. rewrite U. ring. }
  rewrite T2, T3 in X. rewrite T4, sin_2a in Y. clear T2 T3 T4.
  assert (DX : Rabs (orbit_xi u - rad_of m * cos nu) <= 0.0000323).
  { rewrite X. unfold rad_of. match goal with |- Rabs ?x <= _ => replace x with (orbit_a * (cos m - orbit_e - orbit_e * (sin m * sin m) - 3 / 2 * (orbit_e * orbit_e) * cos m * (sin m * sin m)
       - (1 - orbit_e * cos m + orbit_e * orbit_e * (sin m * sin m)) * cos nu + e1)) by field end.
    set (z := _ - _ * cos nu) in *. clearbody z. apply Rabs_le_inv in CX. unfold orbit_a. apply Rabs_le. lra. }
  assert (DY : Rabs (orbit_eta u - rad_of m * sin nu) <= 0.0000344).
  { rewrite Y. unfold rad_of. match goal with |- Rabs ?x <= _ => replace x with (orbit_a * ((1 - 5 / 8 * (orbit_e * orbit_e)) * sin m + orbit_e * sin m * cos m + 3 / 8 * (orbit_e * orbit_e) * (3 * sin m - 4 * (sin m * sin m * sin m))
       - (1 - orbit_e * cos m + orbit_e * orbit_e * (sin m * sin m)) * sin nu + e2)) by field end.
    set (z := _ - _ * sin nu) in *. clearbody z. apply Rabs_le_inv in CY. unfold orbit_a. apply Rabs_le. lra. }
  clear X Y CX CY U R1 R2 e1 e2. set (r := rad_of m) in *. clearbody r nu.
  set (dx := orbit_xi u - r * cos nu) in *. set (dy := orbit_eta u - r * sin nu) in *.
  assert (E : sprod (sub (scl (-1) (orbv u)) (scl r (ecl (nu + orbit_peri + PI) orbit_obl))) (sub (scl (-1) (orbv u)) (scl r (ecl (nu + orbit_peri + PI) orbit_obl))) = dx * dx + dy * dy).
  { unfold scl, orbv, ecl, orbit_pos, orbit_x, orbit_y. vec_calc. rewrite neg_cos, neg_sin, cos_plus, sin_plus.
    replace (orbit_xi u) with (dx + r * cos nu) by (unfold dx; ring). replace (orbit_eta u) with (dy + r * sin nu) by (unfold dy; ring). clearbody dx dy.
    pose proof (sin2_cos2 orbit_peri) as A. pose proof (sin2_cos2 orbit_obl) as B. unfold Rsqr in A, B.
    set (cp := cos orbit_peri) in *. set (sp := sin orbit_peri) in *. set (co := cos orbit_obl) in *. set (so := sin orbit_obl) in *. set (cn := cos nu) in *. set (sn := sin nu) in *. clearbody cp sp co so cn sn.
    transitivity ((cp * dx - sp * dy) * (cp * dx - sp * dy) + (so * so + co * co) * ((sp * dx + cp * dy) * (sp * dx + cp * dy))); [ring|]. rewrite B.
    transitivity ((sp * sp + cp * cp) * (dx * dx + dy * dy)); [ring|]. rewrite A. ring. }
  apply nrm_le; [lra|]. rewrite E. clearbody dx dy. apply Rabs_le_inv in DX. apply Rabs_le_inv in DY. nra.
Qed.

(** ** The almanac's longitude *)

Lemma sin_near : forall x y d, Rabs (x - y) <= d -> Rabs (sin x - sin y) <= d.
Proof. intros x y d H. destruct (L_POrbit.near_sin x y d H) as (q & E & B). rewrite E. apply Rabs_le. lra. Qed.

Lemma sin_turn : forall x, sin x = sin (x - 2 * PI).
Proof. intros x. replace x with ((x - 2 * PI) + 2 * INR 1 * PI) at 1 by (cbn [INR]; ring). apply sin_period. Qed.

Ltac split_pi t z h := pose proof PI_bounds as HPI; set (h := PI - 3.14159265358) in *; assert (Hh : 0 <= h <= 0.00000000001) by (unfold h; lra);
  replace PI with (3.14159265358 + h) by (unfold h; ring); clearbody h; clear HPI;
  assert (Hth : - 0.00000000001 <= t * h <= 0.00000000001) by (split; nra); assert (Hzh : - 0.00000000001 <= z * h <= 0.00000000001) by (split; nra).

(** [n] UT days and [t] TT centuries of the same instant. *)
Lemma long_near : forall t n, Rabs t <= 1 -> 30 <= 86400 * (36525 * t - n) <= 73 -> let m := mean_anomaly (100 * t) in
  Rabs (alm_long n - psi_A t - (m + centre_of m + orbit_peri + PI)) <= 0.00036.
Proof.
  intros t n Ht Hn m.
  assert (M : m = 1.753470314 + 628.3075849991 * t - orbit_peri) by (unfold m, mean_anomaly, iers_e; lra).
  apply Rabs_le_inv in Ht. set (z := 36525 * t - n) in *. replace n with (36525 * t - z) by (unfold z; ring). clearbody z.
  assert (G : Rabs (alm_anomaly (36525 * t - z) - 2 * PI - m) <= 0.00567).
  { unfold alm_anomaly, degrees. rewrite M. unfold orbit_peri. clear M m. apply Rabs_le. split_pi t z h. lra. }
  assert (L : Rabs (alm_mean_long (36525 * t - z) - psi_A t - (m + orbit_peri + PI)) <= 0.0001475).
  { unfold alm_mean_long, psi_A, arcsec, degrees. rewrite M. unfold orbit_peri. clear M m G. apply Rabs_le.
    assert (T2 : 0 <= t ^ 2 <= 1) by nra. assert (T3 : -1 <= t ^ 3 <= 1) by (replace (t ^ 3) with (t * t ^ 2) by ring; split; nra).
    assert (K : 0 <= PI / 648000 <= 0.0000048481369) by (pose proof PI_bounds; lra).
    replace ((5038.7784 * t - 1.07259 * t ^ 2 - 0.001147 * t ^ 3 - 0.29965 * t) * (PI / 648000)) with (5038.47875 * t * (PI / 648000) - (1.07259 * t ^ 2 + 0.001147 * t ^ 3) * (PI / 648000)) by lra.
    assert (K2 : - 0.00000001 <= (1.07259 * t ^ 2 + 0.001147 * t ^ 3) * (PI / 648000) <= 0.0000053).
    { assert (-0.0012 <= 1.07259 * t ^ 2 + 0.001147 * t ^ 3 <= 1.0738) by lra. set (y := 1.07259 * t ^ 2 + 0.001147 * t ^ 3) in *. set (k := PI / 648000) in *. clearbody y k. split; nra. }
    set (y := (1.07259 * t ^ 2 + _) * _) in *. clearbody y. clear K T2 T3. split_pi t z h. lra. }
  unfold alm_long, centre_of. rewrite (sin_turn (alm_anomaly _)), (sin_turn (2 * alm_anomaly _)), (sin_turn (2 * alm_anomaly _ - _)).
  set (g := alm_anomaly _ - 2 * PI) in *. replace (2 * alm_anomaly (36525 * t - z) - 2 * PI - 2 * PI) with (2 * g) by (unfold g; ring). clearbody g.
  pose proof (sin_near g m _ G) as S1. assert (G2 : Rabs (2 * g - 2 * m) <= 0.01134) by (apply Rabs_le_inv in G; apply Rabs_le; lra).
  pose proof (sin_near (2 * g) (2 * m) _ G2) as S2. set (l := alm_mean_long _) in *. set (ps := psi_A t) in *. clearbody l ps.
  pose proof (SIN_bound m) as B1. pose proof (SIN_bound (2 * m)) as B2. clear M. clearbody m.
  set (s1 := sin g) in *. set (s2 := sin (2 * g)) in *. set (q1 := sin m) in *. set (q2 := sin (2 * m)) in *. clearbody s1 s2 q1 q2.
  assert (K : 0.01745329251 <= PI / 180 <= 0.01745329253) by (pose proof PI_bounds; lra).
  unfold degrees, orbit_e. apply Rabs_le_inv in L. apply Rabs_le_inv in S1. apply Rabs_le_inv in S2.
  assert (A1 : - 0.0000061 <= 1.915 * q1 * (PI / 180) - 2 * 0.0167086 * q1 <= 0.0000061) by (set (k := PI / 180) in *; clearbody k; split; nra).
  assert (A2 : - 0.0000002 <= 0.020 * q2 * (PI / 180) - 5 / 4 * (0.0167086 * 0.0167086) * q2 <= 0.0000002) by (set (k := PI / 180) in *; clearbody k; split; nra).
  assert (A3 : - 0.0001896 <= 1.915 * (s1 - q1) * (PI / 180) <= 0.0001896) by (set (k := PI / 180) in *; clearbody k; set (d := s1 - q1) in *; clearbody d; split; nra).
  assert (A4 : - 0.000004 <= 0.020 * (s2 - q2) * (PI / 180) <= 0.000004) by (set (k := PI / 180) in *; clearbody k; set (d := s2 - q2) in *; clearbody d; split; nra).
  replace (l + (1.915 * s1 + 0.020 * s2) * (PI / 180) - ps - (m + (2 * 0.0167086 * q1 + 5 / 4 * (0.0167086 * 0.0167086) * q2) + orbit_peri + PI))
    with ((l - ps - (m + orbit_peri + PI)) + (1.915 * q1 * (PI / 180) - 2 * 0.0167086 * q1) + (0.020 * q2 * (PI / 180) - 5 / 4 * (0.0167086 * 0.0167086) * q2)
       + 1.915 * (s1 - q1) * (PI / 180) + 0.020 * (s2 - q2) * (PI / 180)) by (set (k := PI / 180) in *; clearbody k; lra).
  apply Rabs_le. lra.
Qed.

(** ** The Sun in the true equator and equinox of date *)

Lemma nrm_neg : forall v, nrm (scl (-1) v) = nrm v.
Proof. intros [a b c]. unfold nrm. f_equal. unfold scl. vec_calc. ring. Qed.

Lemma nrm_close : forall u v d, nrm (sub u v) <= d -> nrm u <= nrm v + d.
Proof.
  intros u v d H. pose proof (nrm_triangle v (sub u v)) as T. replace (addv v (sub u v)) with u in T; [lra|].
  destruct u, v. vec_calc. f_equal; ring.
Qed.

Lemma obliquity_near : forall t n, Rabs t <= 1 -> 30 <= 86400 * (36525 * t - n) <= 73 -> Rabs (omega_A t - alm_obliquity n) <= 0.000263.
Proof.
  intros t n Ht Hn. destruct (angles_1 t Ht) as (_ & _ & W).
  assert (D : Rabs (eps_0 - alm_obliquity n) <= 0.0002605).
  { apply Rabs_le_inv in Ht. unfold eps_0, arcsec, alm_obliquity, degrees. pose proof PI_bounds. assert (-36525.1 <= n <= 36525.1) by lra.
    replace (84381.448 * (PI / 648000) - (23.439 - 0.0000004 * n) * (PI / 180)) with (PI * (84381.448 / 648000 - 23.439 / 180 + 0.0000004 / 180 * n)) by lra.
    assert (-0.0000796 <= 84381.448 / 648000 - 23.439 / 180 + 0.0000004 / 180 * n <= 0.0000829) by lra.
    set (z := 84381.448 / 648000 - _ + _) in *. clearbody z. apply Rabs_le. split; nra. }
  assert (A : arcsec 0.09 <= 0.0000005) by (unfold arcsec; pose proof PI_bounds; lra).
  apply Rabs_le_inv in W. apply Rabs_le_inv in D. apply Rabs_le. lra.
Qed.

Lemma sun_of_date : forall t n u p, Rabs t <= 1 -> 30 <= 86400 * (36525 * t - n) <= 73 -> kepler u (100 * t) ->
  (forall i, Rabs (coord p i - orbit_pos u i) <= 0.00065) ->
  let r := rad_of (mean_anomaly (100 * t)) in
  nrm (sub (col (NPB t) (scl (-1) p)) (scl r (ecl (alm_long n) (alm_obliquity n)))) <= 0.00203 * r /\ nrm p <= 1.0012 * r.
Proof.
  intros t n u p Ht Hn K B r.
  pose proof (rad_range (mean_anomaly (100 * t))) as RR. fold r in RR.
  pose proof (orbit_sun u (100 * t) K) as O. cbv zeta in O. fold r in O. pose proof (long_near t n Ht Hn) as L. cbv zeta in L.
  set (l0 := mean_anomaly (100 * t) + _ + _ + _) in *. clearbody l0. clearbody r.
  assert (V : nrm (sub (scl (-1) p) (scl (-1) (orbv u))) <= 0.001126).
  { replace (sub (scl (-1) p) (scl (-1) (orbv u))) with (scl (-1) (sub p (orbv u))) by (rewrite scl_sub; reflexivity). rewrite nrm_neg.
    pose proof (nrm_box _ _ _ 0.00065 ltac:(lra) (B I0) (B I1) (B I2)) as N.
    replace (sub p (orbv u)) with (V3 (A := realA) (coord p I0 - orbit_pos u I0) (coord p I1 - orbit_pos u I1) (coord p I2 - orbit_pos u I2)); [lra|].
    clear. destruct p. unfold orbv. vec_calc. f_equal; ring. }
  pose proof (dist_tri (scl (-1) p) (scl (-1) (orbv u)) (scl r (ecl l0 orbit_obl))) as D1.
  assert (N : nrm p <= 1.0012 * r).
  { rewrite <- nrm_neg. pose proof (nrm_close (scl (-1) p) (scl r (ecl l0 orbit_obl)) 0.001176 ltac:(lra)) as C. rewrite (scl_nrm r), ecl_nrm in C by lra. lra. }
  split; [|exact N].
  set (lj := alm_long n - psi_A t) in *.
  assert (D2 : nrm (sub (scl r (ecl l0 orbit_obl)) (scl r (ecl lj orbit_obl))) <= r * 0.00036).
  { rewrite scl_sub, scl_nrm by lra. apply Rmult_le_compat_l; [lra|]. eapply Rle_trans; [apply ecl_long|]. rewrite Rabs_minus_sym. exact L. }
  assert (D3 : nrm (sub (scl r (ecl lj orbit_obl)) (scl r (ecl lj eps_0))) <= r * 0.0000002).
  { rewrite scl_sub, scl_nrm by lra. apply Rmult_le_compat_l; [lra|]. eapply Rle_trans; [apply ecl_obl|]. unfold orbit_obl, eps_0.
    replace (arcsec 84381.409 - arcsec 84381.448) with (arcsec (-0.039)) by (unfold arcsec; lra). unfold arcsec. pose proof PI_bounds. apply Rabs_le. lra. }
  pose proof (dist_tri (scl (-1) p) (scl r (ecl l0 orbit_obl)) (scl r (ecl lj orbit_obl))) as T1.
  pose proof (dist_tri (scl (-1) p) (scl r (ecl lj orbit_obl)) (scl r (ecl lj eps_0))) as T2.
  assert (A : nrm (sub (scl (-1) p) (scl r (ecl lj eps_0))) <= 0.0011965 * r + r * 0.0003602) by lra.
  pose proof (npb_col t (scl (-1) p) (scl r (ecl lj eps_0)) Ht) as C1. rewrite nrm_neg in C1.
  assert (AS : arcsec 29.6626 <= 0.0001439) by (unfold arcsec; pose proof PI_bounds; lra).
  assert (C1' : nrm (sub (col (NPB t) (scl (-1) p)) (col (P_matrix t) (scl r (ecl lj eps_0)))) <= 0.0011965 * r + r * 0.0003602 + 0.0001439 * (1.0012 * r)).
  { pose proof (nrm_pos p). assert (arcsec 29.6626 * nrm p <= 0.0001439 * (1.0012 * r)).
    { apply Rmult_le_compat; [unfold arcsec; pose proof PI_bounds; lra|assumption|exact AS|exact N]. } lra. }
  destruct (angles_1 t Ht) as (X & _ & _). assert (X' : Rabs (chi_A t) <= 0.0000628) by (assert (arcsec 12.935 <= 0.0000628) by (unfold arcsec; pose proof PI_bounds; lra); lra).
  assert (C2 : nrm (sub (col (P_matrix t) (scl r (ecl lj eps_0))) (scl r (ecl (alm_long n) (omega_A t)))) <= r * 0.0000628).
  { rewrite col_scl, scl_sub, scl_nrm by lra. apply Rmult_le_compat_l; [lra|]. pose proof (col_P_ecl t lj) as Q. replace (lj + psi_A t) with (alm_long n) in Q by (unfold lj; ring). lra. }
  assert (C3 : nrm (sub (scl r (ecl (alm_long n) (omega_A t))) (scl r (ecl (alm_long n) (alm_obliquity n)))) <= r * 0.000263).
  { rewrite scl_sub, scl_nrm by lra. apply Rmult_le_compat_l; [lra|]. eapply Rle_trans; [apply ecl_obl|]. apply obliquity_near; assumption. }
  pose proof (dist_tri (col (NPB t) (scl (-1) p)) (col (P_matrix t) (scl r (ecl lj eps_0))) (scl r (ecl (alm_long n) (omega_A t)))) as T3.
  pose proof (dist_tri (col (NPB t) (scl (-1) p)) (scl r (ecl (alm_long n) (omega_A t))) (scl r (ecl (alm_long n) (alm_obliquity n)))) as T4.
  lra.
Qed.
