(** * The Sun in the terrestrial frame and the angle between close directions *)

From Coq Require Import ZArith Reals Lra Lia Bool List Psatz.
From Flocq Require Import Core.
From Verif Require Import Outcome Arith ArithR M_Common M_Time M_Ellipsoid M_Frames Spec_Matrix Spec_Frames Spec_Series Spec_C2t Spec_Sun Spec_Pole Spec_Orbit Spec_Almanac.
From Verif Require Import L_ArithR L_Matrix L_PMatrix L_Frames L_Near L_Pi L_PFrames L_Kepler L_Orbit L_POrbit L_PPole L_CioLow L_Almanac L_AlmanacSun.
Import ListNotations.
Open Scope R_scope.

(** ** Polar motion *)

Lemma W_proper : forall x y, proper (W_matrix x y 0).
Proof. intros. unfold W_matrix. rewrite product_3. unfold R1, R2, R3. prove_proper. Qed.

Lemma W_near : forall x y, near (W_matrix x y 0) (Rabs x + Rabs y).
Proof.
  intros x y. unfold W_matrix. rewrite product_3. unfold R1, R2, R3.
  apply near_le with ((Rabs (- y) + Rabs (- x)) + Rabs 0).
  - apply near_mm; [apply near_mm; [apply near_rot|apply near_rot|apply rot3_proper]|apply near_rot|apply rot3_proper].
  - rewrite !Rabs_Ropp, Rabs_R0. lra.
Qed.

(** ** Sidereal rotation *)

Definition turn (c s : R) (w : vec3 realA) : vec3 realA := V3 (A := realA) (c * coord w I0 + s * coord w I1) (c * coord w I1 - s * coord w I0) (coord w I2).

Lemma turn_dist : forall c s v w, c * c + s * s = 1 -> nrm (sub (turn c s v) (turn c s w)) = nrm (sub v w).
Proof.
  intros c s [a b d] [x y z] H. unfold nrm. f_equal. unfold turn. vec_calc.
  transitivity ((c * c + s * s) * ((a - x) * (a - x) + (b - y) * (b - y)) + (d - z) * (d - z)); [ring|]. rewrite H. ring.
Qed.

Lemma turn_chord : forall c s c' s' w, nrm (sub (turn c s w) (turn c' s' w)) <= R_sqrt.sqrt ((c - c') * (c - c') + (s - s') * (s - s')) * nrm w.
Proof.
  intros c s c' s' [a b d]. set (q := (c - c') * (c - c') + (s - s') * (s - s')).
  assert (Q : 0 <= q) by (unfold q; apply Rplus_le_le_0_compat; apply Rle_0_sqr). pose proof (sqrt_pos q) as SP. pose proof (sqrt_def q Q) as SD.
  pose proof (nrm_pos (V3 (A := realA) a b d)) as NP. pose proof (nrm_sq (V3 (A := realA) a b d)) as NS.
  apply nrm_le; [nra|]. set (n := nrm _) in *. clearbody n. revert NS. unfold turn. vec_calc. intros NS.
  apply Rle_trans with (q * (a * a + b * b)); [right; unfold q; ring|].
  replace (R_sqrt.sqrt q * n * (R_sqrt.sqrt q * n)) with ((R_sqrt.sqrt q * R_sqrt.sqrt q) * (n * n)) by ring. rewrite SD.
  apply Rmult_le_compat_l; [exact Q|]. change (num realA) with R in *. nra.
Qed.

Lemma turn_scl : forall c s r w, turn c s (scl r w) = scl r (turn c s w).
Proof. intros c s r [a b d]. unfold turn, scl. vec_calc. f_equal; ring. Qed.

Lemma turn_R3 : forall x c s w, col (R3 x) (turn c s w) = turn (cos x * c - sin x * s) (sin x * c + cos x * s) w.
Proof.
  intros x c s [a b d]. unfold turn at 1. rewrite col_R3. unfold turn. vec_calc. f_equal; ring.
Qed.

(** Direction of the almanac's Sun in the terrestrial frame. *)
Definition alm_dir (n : R) : vec3 realA := turn (cos (alm_gmst n)) (sin (alm_gmst n)) (ecl (alm_long n) (alm_obliquity n)).

Lemma alm_dir_unit : forall n, nrm (alm_dir n) = 1.
Proof.
  intros n. unfold alm_dir, ecl, turn. apply nrm_unit. unfold coord. cbn [vget v0 v1 v2].
  pose proof (sin2_cos2 (alm_gmst n)) as A. pose proof (sin2_cos2 (alm_obliquity n)) as B. pose proof (sin2_cos2 (alm_long n)) as C. unfold Rsqr in A, B, C.
  set (g := cos (alm_gmst n)) in *. set (h := sin (alm_gmst n)) in *. set (x := cos (alm_obliquity n)) in *. set (y := sin (alm_obliquity n)) in *.
  set (p := cos (alm_long n)) in *. set (q := sin (alm_long n)) in *. clearbody g h x y p q.
  transitivity ((h * h + g * g) * (p * p + x * x * (q * q)) + y * y * (q * q)); [ring|]. rewrite A.
  transitivity (p * p + (y * y + x * x) * (q * q)); [ring|]. rewrite B. lra.
Qed.

Lemma alm_dir_zenith : forall n pos, sprod (zenith_of pos) (alm_dir n) = alm_cos_zenith n (lat (A := realA) pos) (lon (A := realA) pos).
Proof.
  intros n pos. unfold zenith_of, alm_dir, alm_cos_zenith, turn, ecl. cbv zeta. rewrite cos_plus, sin_plus. vec_calc. ring.
Qed.

Lemma sun_terrestrial : forall t n u p era xp yp, Rabs t <= 1 -> 30 <= 86400 * (36525 * t - n) <= 73 -> kepler u (100 * t) ->
  (forall i, Rabs (coord p i - orbit_pos u i) <= 0.00065) -> Rabs (alm_gmst n - era - arcsec (4612.9 * t)) <= arcsec 4 ->
  Rabs xp + Rabs yp <= arcsec 0.52 ->
  let r := rad_of (mean_anomaly (100 * t)) in
  nrm (sub (col (C2T t era xp yp) (scl (-1) p)) (scl r (alm_dir n))) <= 0.00248 * r.
Proof.
  intros t n u p era xp yp Ht Hn K B G XY r. destruct (sun_of_date t n u p Ht Hn K B) as [D N]. fold r in D, N.
  pose proof (rad_range (mean_anomaly (100 * t))) as RR. fold r in RR. clearbody r.
  destruct (C2I_facts t Ht) as (QP & Q3 & _ & _).
  destruct (same_pole (C2I t) (NPB t) QP (NPB_proper t) Q3) as (c & s & U & CQ & E0 & E1).
  destruct (sidereal_chord t (alm_gmst n - era) c s Ht G U E0 E1) as [DC DS].
  unfold C2T. rewrite product_3, !col_mm. set (v := scl (-1) p) in *. set (w := col (NPB t) v) in *.
  assert (EQ : col (C2I t) v = turn c s w) by (rewrite CQ; reflexivity). rewrite EQ.
  set (S := ecl (alm_long n) (alm_obliquity n)) in *. set (x := alm_gmst n - era) in *.
  assert (C1 : nrm (sub (turn c s w) (turn c s (scl r S))) <= 0.00203 * r) by (rewrite turn_dist by exact U; exact D).
  assert (C2 : nrm (sub (turn c s (scl r S)) (turn (cos x) (sin x) (scl r S))) <= 0.000446 * r).
  { eapply Rle_trans; [apply turn_chord|]. rewrite scl_nrm by lra. unfold S. rewrite ecl_nrm, Rmult_1_r. apply Rmult_le_compat_r; [lra|].
    rewrite <- (sqrt_square 0.000446) by lra. apply sqrt_le_1_alt. apply Rabs_le_inv in DC. apply Rabs_le_inv in DS. set (a := c - cos x) in *. set (b := s - sin x) in *. clearbody a b. nra. }
  pose proof (dist_tri (turn c s w) (turn c s (scl r S)) (turn (cos x) (sin x) (scl r S))) as T1.
  assert (P3 : proper (R3 era)) by (unfold R3; apply rot3_proper).
  assert (C3 : nrm (sub (col (R3 era) (turn c s w)) (scl r (alm_dir n))) <= 0.002476 * r).
  { replace (scl r (alm_dir n)) with (col (R3 era) (turn (cos x) (sin x) (scl r S))); [rewrite dist_col by exact P3; lra|].
    rewrite turn_R3, turn_scl. unfold alm_dir. fold S. rewrite <- cos_plus. replace (sin era * cos x + cos era * sin x) with (sin (era + x)) by (rewrite sin_plus; ring).
    replace (era + x) with (alm_gmst n) by (unfold x; ring). reflexivity. }
  pose proof (col_near _ _ (col (R3 era) (turn c s w)) (W_proper xp yp) (W_near xp yp)) as C4.
  rewrite (col_nrm _ _ P3), <- EQ, (col_nrm _ _ QP) in C4. unfold v in C4 at 3. rewrite nrm_neg in C4. rewrite EQ in C4.
  assert (AS : arcsec 0.52 <= 0.0000026) by (unfold arcsec; pose proof PI_bounds; lra).
  assert (C5 : (Rabs xp + Rabs yp) * nrm p <= 0.0000026 * (1.0012 * r)).
  { pose proof (Rabs_pos xp). pose proof (Rabs_pos yp). apply Rmult_le_compat; [lra|apply nrm_pos|lra|exact N]. }
  pose proof (dist_tri (col (W_matrix xp yp 0) (col (R3 era) (turn c s w))) (col (R3 era) (turn c s w)) (scl r (alm_dir n))) as T2. lra.
Qed.
