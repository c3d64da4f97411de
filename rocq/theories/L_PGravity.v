(** * Proofs of C108 *)

From Coq Require Import ZArith Reals Lra Lia Bool List.
From Flocq Require Import Core.
From Verif Require Import Outcome Arith ArithR M_Common M_Time M_Earth T_Epv00 Spec_Matrix Spec_Frames Spec_Series Spec_Orbit Spec_Gravity.
From Verif Require Import L_ArithR L_Series L_SeriesR L_Matrix L_Pi L_Epv L_Kepler L_Orbit L_OrbitV L_Near L_PSeries L_POrbit L_Almanac L_Gravity L_GravityK.
Import ListNotations.
Open Scope R_scope.

(** ** The inverse square law is Lipschitz *)

Lemma scl_nrm_abs : forall r v, nrm (scl r v) = Rabs r * nrm v.
Proof.
  intros r v. unfold nrm. replace (sprod (scl r v) (scl r v)) with (r * r * sprod v v).
  - rewrite sqrt_mult_alt by nra. f_equal. apply sqrt_Rsqr_abs.
  - unfold sprod, scl, coord. cbn [vget v0 v1 v2]. change (num realA) with R. ring.
Qed.

Lemma addv_sub_nrm : forall u v, nrm u <= nrm v + nrm (sub u v).
Proof.
  intros u v. assert (E : u = addv v (sub u v)).
  { destruct u as [u0 u1 u2], v as [w0 w1 w2]. vec_calc. f_equal; ring. }
  rewrite E at 1. apply nrm_triangle.
Qed.
Lemma sub_nrm_sym : forall u v, nrm (sub u v) = nrm (sub v u).
Proof. intros. apply nrm_sym. Qed.

Lemma inversion : forall p q, 0 < nrm p -> 0 < nrm q ->
  nrm (sub (scl (/ (nrm p * nrm p)) p) (scl (/ (nrm q * nrm q)) q)) = nrm (sub p q) / (nrm p * nrm q).
Proof.
  intros p q Hp Hq. pose proof (nrm_sq p) as P. pose proof (nrm_sq q) as Q. pose proof (nrm_sq (sub p q)) as D. pose proof (nrm_pos (sub p q)) as D0.
  set (a := nrm p) in *. set (b := nrm q) in *. set (d := nrm (sub p q)) in *.
  assert (E : sprod (sub (scl (/ (a * a)) p) (scl (/ (b * b)) q)) (sub (scl (/ (a * a)) p) (scl (/ (b * b)) q)) = (d / (a * b)) * (d / (a * b))).
  { transitivity ((d * d) / (a * a * (b * b))); [|field; lra]. rewrite D.
    transitivity (/ (a * a) * / (a * a) * sprod p p - 2 * / (a * a) * / (b * b) * sprod p q + / (b * b) * / (b * b) * sprod q q).
    { destruct p as [p0 p1 p2], q as [q0 q1 q2]. unfold scl. vec_calc. ring. }
    assert (DS : sprod (sub p q) (sub p q) = sprod p p - 2 * sprod p q + sprod q q) by (destruct p as [p0 p1 p2], q as [q0 q1 q2]; vec_calc; ring).
    rewrite DS, <- P, <- Q. field. lra. }
  unfold nrm at 1. rewrite E. apply sqrt_square. apply Rmult_le_pos; [exact D0|]. left. apply Rinv_0_lt_compat. nra.
Qed.

Definition inv3 (v : vec3 realA) : vec3 realA := scl (/ nrm v ^ 3) v.

Lemma inv3_lip : forall p q r, 0 < r -> r <= nrm p -> r <= nrm q -> nrm (sub (inv3 p) (inv3 q)) <= 2 * nrm (sub p q) / (r * r * r).
Proof.
  intros p q r Hr Hp Hq. pose proof (inversion p q ltac:(lra) ltac:(lra)) as I.
  pose proof (addv_sub_nrm p q) as T1. pose proof (addv_sub_nrm q p) as T2. rewrite (sub_nrm_sym q p) in T2. pose proof (nrm_pos (sub p q)) as D0.
  set (d := nrm (sub p q)) in *.
  assert (E : sub (inv3 p) (inv3 q) = addv (scl (/ nrm p) (sub (scl (/ (nrm p * nrm p)) p) (scl (/ (nrm q * nrm q)) q))) (scl ((/ nrm p - / nrm q) * / (nrm q * nrm q)) q)).
  { unfold inv3. set (a := nrm p) in *. set (b := nrm q) in *. destruct p as [p0 p1 p2], q as [q0 q1 q2]. unfold scl. vec_calc. f_equal; field; lra. }
  rewrite E. eapply Rle_trans; [apply nrm_triangle|]. rewrite !scl_nrm_abs, I.
  set (a := nrm p) in *. set (b := nrm q) in *. clearbody a b d. clear E I.
  rewrite (Rabs_pos_eq (/ a)) by (left; apply Rinv_0_lt_compat; lra).
  assert (K : Rabs ((/ a - / b) * / (b * b)) * b <= d / (a * b * b)).
  { replace ((/ a - / b) * / (b * b)) with ((b - a) * / (a * b * b * b)) by (field; lra). rewrite Rabs_mult.
    assert (IP : 0 < / (a * b * b * b)) by (apply Rinv_0_lt_compat; repeat apply Rmult_lt_0_compat; lra).
    rewrite (Rabs_pos_eq (/ (a * b * b * b))) by lra.
    replace (d / (a * b * b)) with (d * / (a * b * b * b) * b) by (field; lra). apply Rmult_le_compat_r; [lra|]. apply Rmult_le_compat_r; [lra|]. apply Rabs_le. lra. }
  assert (X1 : / a * (d / (a * b)) <= d / (r * r * r)).
  { replace (/ a * (d / (a * b))) with (d * / (a * a * b)) by (field; lra). unfold Rdiv. apply Rmult_le_compat_l; [exact D0|].
    apply Rinv_le; [repeat apply Rmult_lt_0_compat; lra|]. repeat apply Rmult_le_compat; try lra; apply Rmult_le_pos; lra. }
  assert (X2 : d / (a * b * b) <= d / (r * r * r)).
  { unfold Rdiv. apply Rmult_le_compat_l; [exact D0|]. apply Rinv_le; [repeat apply Rmult_lt_0_compat; lra|]. repeat apply Rmult_le_compat; try lra; apply Rmult_le_pos; lra. }
  replace (2 * d / (r * r * r)) with (d / (r * r * r) + d / (r * r * r)) by (field; lra). lra.
Qed.

(** ** The Moon *)

Definition myear : R := moon_size * (365.25 * 365.25).
Lemma myear_val : 0.22088 <= myear <= 0.22089.
Proof. unfold myear, moon_size, gauss, moon_distance. lra. Qed.

Lemma moon_phase : forall t, Rabs t <= 100 ->
  Rabs (0.6687513390251 + 83.99684731857 * t - (moon_longitude (t / 100) - PI)) <= 0.0001 /\
  Rabs (5.381140401712 + 83.99684731857 * t - (moon_longitude (t / 100) + PI / 2)) <= 0.0001.
Proof.
  intros t Ht. unfold moon_longitude, iers_f, iers_om, iers_pa, arcsec. pose proof PI_bounds as P. set (s := t / 100).
  replace t with (100 * s) by (unfold s; field). assert (Hs : -1 <= s <= 1) by (apply Rabs_le_inv in Ht; unfold s; lra). clearbody s. clear t Ht.
  assert (S2 : 0 <= s ^ 2 <= 1) by (split; nra). assert (S3 : -1 <= s ^ 3 <= 1) by (replace (s ^ 3) with (s * s ^ 2) by ring; split; nra).
  assert (S4 : 0 <= s ^ 4 <= 1) by (replace (s ^ 4) with (s ^ 2 * s ^ 2) by ring; split; nra).
  set (q2 := s ^ 2) in *. set (q3 := s ^ 3) in *. set (q4 := s ^ 4) in *. clearbody q2 q3 q4.
  set (d := PI - 3.141592653585).
  assert (Hd : -0.00000000001 <= d <= 0.00000000001) by (unfold d; lra). replace PI with (3.141592653585 + d) by (unfold d; ring). clearbody d. clear P.
  assert (M : forall x, -1 <= x <= 1 -> -0.00000000001 <= d * x <= 0.00000000001) by (intros x Hx; split; nra).
  pose proof (M s Hs). pose proof (M q2 ltac:(lra)). pose proof (M q3 S3). pose proof (M q4 ltac:(lra)).
  split; apply Rabs_le; split; lra.
Qed.

Definition moonv (t : R) : vec3 realA := V3 (A := realA) (myear * cos (moon_longitude (t / 100))) (myear * sin (moon_longitude (t / 100))) 0.

(** ** Ecliptic axes, years *)

Definition posv (t : R) : vec3 realA := V3 (A := realA) (fst (helio_st realA 0 t)) (fst (helio_st realA 1 t)) (fst (helio_st realA 2 t)).
Definition accv (t : R) : vec3 realA := V3 (A := realA) (snd (helio_va 0 t)) (snd (helio_va 1 t)) (snd (helio_va 2 t)).
Definition ellv (u : R) : vec3 realA := V3 (A := realA) (orbit_x u) (orbit_y u) 0.

Lemma ellv_nrm : forall u, nrm (ellv u) = orbit_a * (1 - orbit_e * cos u).
Proof.
  intros u. unfold nrm, ellv. replace (sprod _ _) with ((orbit_a * (1 - orbit_e * cos u)) * (orbit_a * (1 - orbit_e * cos u))).
  - apply sqrt_square. pose proof (COS_bound u). unfold orbit_a, orbit_e. lra.
  - rewrite <- orbit_radius2. unfold sprod, coord. cbn [vget v0 v1 v2]. change (num realA) with R in *. ring.
Qed.

Lemma ellv_force : forall u, scl kyear (inv3 (ellv u)) = V3 (A := realA) (g_x u) (g_y u) 0.
Proof.
  intros u. unfold inv3. rewrite ellv_nrm. pose proof (COS_bound u) as C.
  assert (N : 1 - orbit_e * cos u <> 0) by (unfold orbit_e; lra). assert (A : orbit_a <> 0) by (unfold orbit_a; lra).
  unfold scl, ellv, coord. cbn [vget v0 v1 v2]. change (num realA) with R in *.
  unfold g_x, g_y, g_xi, g_eta, orbit_x, orbit_y, orbit_xi, orbit_eta. 
  set (n := 1 - orbit_e * cos u) in *. set (s := R_sqrt.sqrt _). clearbody n s. generalize dependent orbit_a. intros oa A. 
  f_equal; field; split; assumption.
Qed.

Lemma acc_ellipse : forall t u, Rabs t <= 100 -> kepler u t ->
  nrm (sub (addv (accv t) (scl kyear (inv3 (ellv u)))) (moonv t)) <= 0.1149.
Proof.
  intros t u Ht K. rewrite ellv_force. destruct (acc_kepler t u Ht K) as [B0 B1]. destruct (helio_amain t Ht) as (_ & _ & B2).
  destruct (moon_phase t Ht) as [M0 M1]. 
  destruct (near_cos _ _ _ M0) as (q0 & Q0 & D0). destruct (near_cos _ _ _ M1) as (q1 & Q1 & D1). rewrite Q0 in B0. rewrite Q1 in B1.
  assert (EC : cos (moon_longitude (t / 100) - PI) = - cos (moon_longitude (t / 100))) by (rewrite cos_minus, cos_PI, sin_PI; ring).
  assert (ES : cos (moon_longitude (t / 100) + PI / 2) = - sin (moon_longitude (t / 100))) by (rewrite cos_plus, cos_PI2, sin_PI2; ring).
  rewrite EC in B0. rewrite ES in B1. pose proof (COS_bound (moon_longitude (t / 100))) as CB. pose proof (SIN_bound (moon_longitude (t / 100))) as SB.
  unfold moonv, accv. set (c := cos (moon_longitude _)) in *. set (s := sin (moon_longitude _)) in *. clearbody c s. pose proof myear_val as V.
  set (x := snd (helio_va 0 t)) in *. set (y := snd (helio_va 1 t)) in *. set (z := snd (helio_va 2 t)) in *. set (gx := g_x u) in *. set (gy := g_y u) in *.
  clearbody x y z gx gy. clear Q0 Q1 EC ES M0 M1.
  assert (L1 : -0.00141 <= (myear - 0.21948457) * c <= 0.00141) by (clear - V CB; split; nra).
  assert (L2 : -0.00141 <= (myear - 0.21948453) * s <= 0.00141) by (clear - V SB; split; nra).
  apply Rabs_le_inv in B0. apply Rabs_le_inv in B1. apply Rabs_le_inv in B2.
  apply nrm_le; [lra|]. vec_calc.
  set (ex := x + gx - myear * c). set (ey := y + gy - myear * s). 
  assert (EX : -0.07746 <= ex <= 0.07746) by (unfold ex; lra). assert (EY : -0.07746 <= ey <= 0.07746) by (unfold ey; lra).
  replace (z + 0 - 0) with z by ring. clearbody ex ey. clear - EX EY B2. nra.
Qed.

Lemma posv_ell : forall t u, Rabs t <= 100 -> kepler u t -> nrm (sub (posv t) (ellv u)) <= 0.00085.
Proof.
  intros t u Ht K. destruct (orbit_ecliptic t u Ht K) as [Bx By]. destruct (helio_main t Ht) as (_ & _ & Bz).
  unfold posv, ellv. change (num realA) with R in *. set (x := fst (helio_st realA 0 t)) in *. set (y := fst (helio_st realA 1 t)) in *. set (z := fst (helio_st realA 2 t)) in *.
  set (ox := orbit_x u) in *. set (oy := orbit_y u) in *. clearbody x y z ox oy.
  apply nrm_le; [lra|]. vec_calc. apply Rabs_le_inv in Bx. apply Rabs_le_inv in By. apply Rabs_le_inv in Bz.
  set (ex := x - ox) in *. set (ey := y - oy) in *. replace (z - 0) with z by ring. clearbody ex ey. nra.
Qed.

Definition eclv (v : vec3 realA) : vec3 realA := ecl_to_icrf (A := realA) (coord v I0) (coord v I1) (coord v I2).

Lemma posv_radius : forall t, Rabs t <= 100 -> 0.982 <= nrm (eclv (posv t)) <= 1.018 /\ Rabs (nrm (eclv (posv t)) - nrm (posv t)) <= 0.00001.
Proof.
  intros t Ht. destruct (kepler_exists orbit_e (mean_anomaly t)) as [u K]; [unfold orbit_e; lra|].
  pose proof (posv_ell t u Ht K) as B. pose proof (addv_sub_nrm (posv t) (ellv u)) as T1. pose proof (addv_sub_nrm (ellv u) (posv t)) as T2.
  rewrite (sub_nrm_sym (ellv u)) in T2. rewrite ellv_nrm in T1, T2. pose proof (COS_bound u) as C.
  assert (N : 0.9824 <= nrm (posv t) <= 1.0176) by (unfold orbit_a, orbit_e in *; lra).
  destruct (comp_le (coord (posv t) I0) (coord (posv t) I1) (coord (posv t) I2) 2) as (X & Y & Z).
  { replace (V3 (A := realA) _ _ _) with (posv t) by reflexivity. lra. }
  pose proof (nrm_icrf _ _ _ X Y Z) as I. replace (V3 (A := realA) (coord (posv t) I0) _ _) with (posv t) in I by reflexivity.
  specialize (I ltac:(lra)). fold (eclv (posv t)) in I. split; [|exact I]. apply Rabs_le_inv in I. lra.
Qed.

Lemma eclv_lin : forall r u v i, coord (eclv (addv u (scl r v))) i = coord (eclv u) i + r * coord (eclv v) i.
Proof. intros r u v i. unfold eclv. rewrite !ecl_row. destruct u as [u0 u1 u2], v as [w0 w1 w2]. unfold scl. vec_calc. ring. Qed.
Lemma eclv_sub : forall u v i, coord (eclv (sub u v)) i = coord (eclv u) i - coord (eclv v) i.
Proof. intros u v i. unfold eclv. rewrite !ecl_row. destruct u as [u0 u1 u2], v as [w0 w1 w2]. vec_calc. ring. Qed.
Lemma eclv_scl : forall r v i, coord (eclv (scl r v)) i = r * coord (eclv v) i.
Proof. intros r v i. unfold eclv. rewrite !ecl_row. destruct v as [w0 w1 w2]. unfold scl. vec_calc. ring. Qed.

Lemma cube_close : forall a b, 0.98 <= a -> 0.98 <= b -> Rabs (a - b) <= 0.00001 -> Rabs (/ a ^ 3 - / b ^ 3) <= 0.000034.
Proof.
  intros a b Ha Hb H. assert (Ia : 0 < / a <= 1.0205) by (split; [apply Rinv_0_lt_compat; lra|rewrite <- (Rinv_inv 1.0205); apply Rinv_le; lra]).
  assert (Ib : 0 < / b <= 1.0205) by (split; [apply Rinv_0_lt_compat; lra|rewrite <- (Rinv_inv 1.0205); apply Rinv_le; lra]).
  replace (/ a ^ 3 - / b ^ 3) with ((b - a) * (/ a * / b * (/ a * / a + / a * / b + / b * / b))) by (field; lra).
  set (x := / a) in *. set (y := / b) in *. clearbody x y. rewrite Rabs_mult, Rabs_minus_sym.
  assert (XX : 0 < x * x <= 1.0415) by (split; nra). assert (XY : 0 < x * y <= 1.0415) by (split; nra). assert (YY : 0 < y * y <= 1.0415) by (split; nra).
  assert (W : 0 <= x * y * (x * x + x * y + y * y) <= 3.3) by (split; nra).
  rewrite (Rabs_pos_eq (x * y * _)) by lra. pose proof (Rabs_pos (a - b)). set (w := x * y * _) in *. clearbody w. set (d := Rabs _) in *. clearbody d. nra.
Qed.

(** The error vector, ecliptic axes. *)
Lemma acc_error : forall t, Rabs t <= 100 ->
  nrm (sub (addv (accv t) (scl (kyear * / nrm (eclv (posv t)) ^ 3) (posv t))) (moonv t)) <= 0.1876.
Proof.
  intros t Ht. destruct (kepler_exists orbit_e (mean_anomaly t)) as [u K]; [unfold orbit_e; lra|].
  pose proof (acc_ellipse t u Ht K) as A. pose proof (posv_ell t u Ht K) as B. destruct (posv_radius t Ht) as [L1 L2].
  pose proof (COS_bound u) as C. pose proof kyear_val as KV.
  assert (NE : 0.9824 <= nrm (ellv u)) by (rewrite ellv_nrm; unfold orbit_a, orbit_e; lra).
  assert (NP : 0.9819 <= nrm (posv t) <= 1.0181) by (apply Rabs_le_inv in L2; lra).
  pose proof (inv3_lip (posv t) (ellv u) 0.9819 ltac:(lra) ltac:(lra) ltac:(lra)) as I.
  pose proof (cube_close (nrm (eclv (posv t))) (nrm (posv t)) ltac:(lra) ltac:(lra) L2) as Q.
  set (L := nrm (eclv (posv t))) in *.
  set (e0 := sub (addv (accv t) (scl kyear (inv3 (ellv u)))) (moonv t)) in *.
  set (e1 := scl kyear (sub (inv3 (posv t)) (inv3 (ellv u)))).
  set (e2 := scl (kyear * (/ L ^ 3 - / nrm (posv t) ^ 3)) (posv t)).
  assert (E : sub (addv (accv t) (scl (kyear * / L ^ 3) (posv t))) (moonv t) = addv e0 (addv e1 e2)).
  { unfold e0, e1, e2, inv3. generalize (/ L ^ 3) (/ nrm (posv t) ^ 3) (/ nrm (ellv u) ^ 3) kyear. intros x1 x2 x3 x4.
    generalize (posv t) (accv t) (moonv t) (ellv u). intros [p0 p1 p2] [a0 a1 a2] [m0 m1 m2] [l0 l1 l2]. unfold scl. vec_calc. f_equal; ring. }
  rewrite E. pose proof (nrm_triangle e0 (addv e1 e2)) as T1. pose proof (nrm_triangle e1 e2) as T2.
  assert (N1 : nrm e1 <= 0.0709).
  { unfold e1. rewrite scl_nrm_abs, Rabs_pos_eq by lra. set (d := nrm (sub (posv t) (ellv u))) in *. pose proof (nrm_pos (sub (posv t) (ellv u))) as P0. fold d in P0. clearbody d.
    assert (nrm (sub (inv3 (posv t)) (inv3 (ellv u))) <= 0.0017958) by lra. pose proof (nrm_pos (sub (inv3 (posv t)) (inv3 (ellv u)))). set (n := nrm _) in *. clearbody n. nra. }
  assert (N2 : nrm e2 <= 0.00137).
  { unfold e2. rewrite scl_nrm_abs, Rabs_mult, (Rabs_pos_eq kyear) by lra. set (n := nrm (posv t)) in *. set (x := Rabs (/ L ^ 3 - / n ^ 3)) in *. pose proof (Rabs_pos (/ L ^ 3 - / n ^ 3)) as X0. fold x in X0. clear - KV NP Q X0. clearbody n x.
    assert (0 <= kyear * x <= 0.001343) by (split; nra). nra. }
  lra.
Qed.

Lemma moon_icrf : forall t i, Rabs (coord (eclv (moonv t)) i - 365.25 * 365.25 * moon_pull (t / 100) i) <= 0.0001.
Proof.
  intros t i. replace (365.25 * 365.25 * moon_pull (t / 100) i) with (myear * match i with I0 => cos (moon_longitude (t / 100)) | I1 => cos orbit_obl * sin (moon_longitude (t / 100)) | I2 => sin orbit_obl * sin (moon_longitude (t / 100)) end) by (unfold myear, moon_pull; ring).
  destruct obl_trig as [C S]. pose proof (COS_bound (moon_longitude (t / 100))) as CB. pose proof (SIN_bound (moon_longitude (t / 100))) as SB. pose proof myear_val as V.
  unfold eclv, moonv, ecl_to_icrf, coord, AM12, AM13, AM21, AM22, AM23, AM32, AM33. set (c := cos (moon_longitude _)) in *. set (s := sin (moon_longitude _)) in *.
  set (co := cos orbit_obl) in *. set (so := sin orbit_obl) in *. clearbody c s co so.
  assert (MC : -0.221 <= myear * c <= 0.221) by (clear - V CB; split; nra). assert (MS : -0.221 <= myear * s <= 0.221) by (clear - V SB; split; nra).
  assert (W1 : -0.00001 <= (0.917482137087 - co) * (myear * s) <= 0.00001) by (clear - MS C; set (x := myear * s) in *; clearbody x; split; nra).
  assert (W2 : -0.00003 <= (0.397776982902 - so) * (myear * s) <= 0.00003) by (clear - MS S; set (x := myear * s) in *; clearbody x; split; nra).
  destruct i; cbn [vget v0 v1 v2]; realA_ops; unfold Rlit; change (Z.pow_pos 10 12) with 1000000000000%Z; change (num realA) with R in *; apply Rabs_le.
  - set (x := myear * c) in *. set (y := myear * s) in *. clearbody x y. lra.
  - replace (myear * (co * s)) with (co * (myear * s)) by ring. set (x := myear * c) in *. set (y := myear * s) in *. clearbody x y. lra.
  - replace (myear * (so * s)) with (so * (myear * s)) by ring. set (x := myear * c) in *. set (y := myear * s) in *. clearbody x y. lra.
Qed.

Definition idxv (f : idx -> R) : vec3 realA := V3 (A := realA) (f I0) (f I1) (f I2).
Lemma length3_nrm : forall f, length3 f = nrm (idxv f).
Proof. reflexivity. Qed.

Lemma moon_pull_length : forall s, length3 (moon_pull s) = moon_size.
Proof.
  intros s. unfold length3, moon_pull. pose proof (sin2_cos2 (moon_longitude s)) as A. pose proof (sin2_cos2 orbit_obl) as B. unfold Rsqr in *.
  transitivity (R_sqrt.sqrt (moon_size * moon_size)); [|apply sqrt_square; unfold moon_size, gauss, moon_distance; lra]. f_equal.
  set (c := cos (moon_longitude s)) in *. set (n := sin (moon_longitude s)) in *. set (co := cos orbit_obl) in *. set (so := sin orbit_obl) in *.
  transitivity (moon_size * moon_size * (c * c + (so * so + co * co) * (n * n))); [ring|]. rewrite B. replace (c * c + 1 * (n * n)) with (n * n + c * c) by ring. rewrite A. ring.
Qed.

Lemma sun_pull_length : forall r, 0 < length3 r -> length3 (sun_pull r) = gauss * gauss / (length3 r * length3 r).
Proof.
  intros r H. rewrite length3_nrm. replace (idxv (sun_pull r)) with (scl (- (gauss * gauss) / length3 r ^ 3) (idxv r)).
  - rewrite scl_nrm_abs, <- length3_nrm. unfold Rdiv at 1. rewrite Rabs_mult, Rabs_Ropp, (Rabs_pos_eq (gauss * gauss)) by (unfold gauss; lra).
    rewrite Rabs_pos_eq by (left; apply Rinv_0_lt_compat; apply pow_lt; exact H). field. lra.
  - unfold idxv, scl, coord, sun_pull. cbn [vget v0 v1 v2]. f_equal; unfold Rdiv; ring.
Qed.

Lemma length3_add : forall f g, length3 (fun i => f i + g i) <= length3 f + length3 g.
Proof.
  intros f g. rewrite !length3_nrm. replace (idxv (fun i => f i + g i)) with (addv (idxv f) (idxv g)); [apply nrm_triangle|].
  unfold idxv. vec_calc. reflexivity.
Qed.
Lemma length3_ext : forall f g, (forall i, f i = g i) -> length3 f = length3 g.
Proof. intros f g H. unfold length3. rewrite !H. reflexivity. Qed.

(** The error vector, equatorial axes, per year squared. *)
Lemma icrf_error : forall t, Rabs t <= 100 -> let p := eclv (posv t) in
  length3 (fun i => coord (eclv (accv t)) i + kyear * coord p i / length3 (coord p) ^ 3 - 365.25 * 365.25 * moon_pull (t / 100) i) <= 0.1879.
Proof.
  intros t Ht p. pose proof (acc_error t Ht) as E. fold p in E. set (err := sub _ _) in *.
  assert (LP : length3 (coord p) = nrm p) by reflexivity. rewrite LP.
  rewrite (length3_ext _ (fun i => coord (eclv err) i + (coord (eclv (moonv t)) i - 365.25 * 365.25 * moon_pull (t / 100) i))).
  2: { intros i. unfold err. rewrite eclv_sub, eclv_lin. fold p. unfold Rdiv. ring. }
  eapply Rle_trans; [apply length3_add|].
  destruct (comp_le (coord err I0) (coord err I1) (coord err I2) 0.1876) as (X & Y & Z).
  { replace (V3 (A := realA) _ _ _) with err by (destruct err; reflexivity). exact E. }
  assert (N1 : nrm (eclv err) <= 0.1876 + 0.00001).
  { apply nrm_icrf_le; try lra. replace (V3 (A := realA) _ _ _) with err by (destruct err; reflexivity). exact E. }
  assert (N2 : nrm (idxv (fun i => coord (eclv (moonv t)) i - 365.25 * 365.25 * moon_pull (t / 100) i)) <= 1.7321 * 0.0001).
  { apply nrm_box; [lra| | |]; apply moon_icrf. }
  rewrite <- length3_nrm in N2. eapply Rle_trans; [apply Rplus_le_compat; [exact N1|exact N2]|lra].
Qed.

Lemma length3_scale : forall r f, 0 <= r -> length3 (fun i => r * f i) = r * length3 f.
Proof.
  intros r f H. rewrite !length3_nrm. replace (idxv (fun i => r * f i)) with (scl r (idxv f)) by reflexivity.
  rewrite scl_nrm_abs, Rabs_pos_eq by exact H. reflexivity.
Qed.

(** C108.  The heliocentric velocity of the Earth has a derivative with respect
    to either part of the date, and within a century of J2000 that
    acceleration is the pull of the Sun to within 1.1 per cent, and the pull of
    the Sun plus that of the Moon to within half a per cent. *)
Lemma C108_newton_pf : exists f : R -> R -> EarthPosVel realA,
  (forall a b, earth_pos_vel (A := realA) (MkTDB (A := realA) a b) = Val (f a b)) /\
  forall a b, Rabs (years (MkTDB (A := realA) a b)) <= 100 ->
  let hp i := coord (pv_p (A := realA) (heliocentric (A := realA) (f a b))) i in
  let hv a b i := coord (pv_v (A := realA) (heliocentric (A := realA) (f a b))) i in
  exists acc : idx -> R,
  (forall i, derivable_pt_lim (fun x => hv x b i) a (acc i) /\ derivable_pt_lim (fun x => hv a x i) b (acc i)) /\
  length3 (fun i => acc i - sun_pull hp i) <= 0.011 * length3 (sun_pull hp) /\
  length3 (fun i => acc i - (sun_pull hp i + moon_pull (years (MkTDB (A := realA) a b) / 100) i)) <= 0.005 * length3 (sun_pull hp).
Proof.
  exists (fun a b => epv_val realA (MkTDB (A := realA) a b)). split; [intros; apply earth_pos_vel_val|].
  intros a b Ht hp hv. set (t := years (MkTDB (A := realA) a b)) in *.
  exists (fun i => coord (eclv (accv t)) i / (365.25 * 365.25)).
  split.
  { intros i. 
    assert (EY : forall a b, epv_years (A := realA) (MkTDB (A := realA) a b) = years (MkTDB (A := realA) a b)) by (intros; apply years_R).
    set (H := fun t => coord (ecl_to_icrf (A := realA) (fst (helio_va 0 t)) (fst (helio_va 1 t)) (fst (helio_va 2 t))) i / 365.25).
    set (H' := fun t => coord (ecl_to_icrf (A := realA) (snd (helio_va 0 t)) (snd (helio_va 1 t)) (snd (helio_va 2 t))) i / 365.25).
    assert (EH : forall x y, hv x y i = H (years (MkTDB (A := realA) x y))).
    { intros x y. unfold hv, H, epv_val. cbn [heliocentric pv_v]. cbv zeta. rewrite djy_R. change (div realA) with Rdiv. rewrite EY, ecl_div, !helio_va_fst. reflexivity. }
    assert (DH : forall s, derivable_pt_lim H s (H' s)).
    { intros s. unfold H, H'. pose proof (icrf_der (helio_va 0) (helio_va 1) (helio_va 2) i (D_helio_va 0) (D_helio_va 1) (D_helio_va 2) s) as Z.
      unfold Rdiv. rewrite Rmult_comm. eapply der_ext; [|exact (derivable_pt_lim_scal _ (/ 365.25) _ _ Z)]. intros y. unfold mult_real_fct. ring. }
    assert (EA : coord (eclv (accv t)) i / (365.25 * 365.25) = H' t / 365.25).
    { change (H' t) with (coord (eclv (accv t)) i / 365.25). set (q := coord _ i). clearbody q. change (num realA) with R in *. field. lra. }
    rewrite EA. split.
    - eapply der_ext; [|exact (D_years_1 H H' b DH a)]. intros y. rewrite EH. reflexivity.
    - eapply der_ext; [|exact (D_years_2 H H' a DH b)]. intros y. rewrite EH. reflexivity. }
  assert (EP : forall i, hp i = coord (eclv (posv t)) i).
  { intros i. unfold hp. rewrite helio_vec. reflexivity. }
  assert (LP : length3 hp = nrm (eclv (posv t))) by (unfold length3; rewrite !EP; reflexivity).
  pose proof (icrf_error t Ht) as E. cbv zeta in E. destruct (posv_radius t Ht) as [NP _].
  rewrite sun_pull_length by lra. rewrite LP.
  change (length3 (coord (eclv (posv t)))) with (nrm (eclv (posv t))) in E. set (L := nrm (eclv (posv t))) in *.
  assert (E2 : length3 (fun i => coord (eclv (accv t)) i / (365.25 * 365.25) - (sun_pull hp i + moon_pull (t / 100) i)) <= 0.1879 / (365.25 * 365.25)).
  { rewrite (length3_ext _ (fun i => / (365.25 * 365.25) * (coord (eclv (accv t)) i + kyear * coord (eclv (posv t)) i / L ^ 3 - 365.25 * 365.25 * moon_pull (t / 100) i))).
    - rewrite length3_scale by lra. unfold Rdiv. rewrite Rmult_comm. apply Rmult_le_compat_r; [lra|exact E].
    - intros i. unfold sun_pull. rewrite LP, EP. unfold kyear. field. lra. }
  assert (E1 : length3 (fun i => coord (eclv (accv t)) i / (365.25 * 365.25) - sun_pull hp i) <= 0.1879 / (365.25 * 365.25) + moon_size).
  { rewrite <- (moon_pull_length (t / 100)).
    rewrite (length3_ext _ (fun i => (coord (eclv (accv t)) i / (365.25 * 365.25) - (sun_pull hp i + moon_pull (t / 100) i)) + moon_pull (t / 100) i)) by (intros; ring).
    eapply Rle_trans; [apply length3_add|]. lra. }
  assert (G : gauss * gauss / 1.036324 <= gauss * gauss / (L * L)).
  { unfold Rdiv. apply Rmult_le_compat_l; [unfold gauss; lra|]. apply Rinv_le; nra. }
  assert (MS : moon_size <= 0.22089 / (365.25 * 365.25)) by (pose proof myear_val as V; unfold myear in V; lra).
  set (g := gauss * gauss / (L * L)) in *. clearbody g. clear - E1 E2 G MS.
  assert (G' : 38.09 / (365.25 * 365.25) <= g) by (unfold gauss in G; lra). split; lra.
Qed.

(** At one astronomical unit the Sun pulls by the square of the Gaussian
    constant, the Moon pulls by between 0.55 and 0.57 per cent of that, and
    at noon on 1 January 2000 the Earth accelerates by between 0.000282 and
    0.0003105 astronomical units per day per day. *)
Example C108_example_pf :
  sun_pull (fun i => match i with I0 => 1 | _ => 0 end) I0 = - (gauss * gauss) /\
  sun_pull (fun i => match i with I1 => 2 | _ => 0 end) I1 = - (gauss * gauss) / 4 /\
  0.0055 * (gauss * gauss) <= moon_size <= 0.0057 * (gauss * gauss) /\
  exists f acc, (forall x, earth_pos_vel (A := realA) (MkTDB (A := realA) 2451545 x) = Val (f x)) /\
  (forall i, derivable_pt_lim (fun x => coord (pv_v (A := realA) (heliocentric (A := realA) (f x))) i) 0 (acc i)) /\
  0.000282 <= length3 acc <= 0.0003105.
Proof.
  assert (L1 : length3 (fun i => match i with I0 => 1 | _ => 0 end) = 1) by (unfold length3; replace (_ + _) with (1 * 1) by ring; apply sqrt_square; lra).
  assert (L2 : length3 (fun i => match i with I1 => 2 | _ => 0 end) = 2) by (unfold length3; replace (_ + _) with (2 * 2) by ring; apply sqrt_square; lra).
  split; [unfold sun_pull; rewrite L1; field|]. split; [unfold sun_pull; rewrite L2; field|]. split; [unfold moon_size, gauss, moon_distance; lra|].
  destruct C108_newton_pf as (f & Hf & H). exists (fun x => f 2451545 x).
  assert (Y : Rabs (years (MkTDB (A := realA) 2451545 0)) <= 100) by (unfold years; cbn [tdb_1 tdb_2]; rewrite Rabs_pos_eq; change (num realA) with R; lra).
  destruct (H 2451545 0 Y) as (acc & D & B & _). cbv zeta in *. exists acc. split; [intros; apply Hf|]. split; [intros i; apply (D i)|].
  assert (EP : f 2451545 0 = epv_val realA (MkTDB (A := realA) 2451545 0)) by (pose proof (Hf 2451545 0) as Z; rewrite earth_pos_vel_val in Z; injection Z as Z; symmetry; exact Z).
  rewrite EP, helio_vec in B. destruct (posv_radius _ Y) as [NP _]. 
  set (hp := fun i => coord (ecl_to_icrf (A := realA) _ _ _) i) in *.
  change (nrm (eclv _)) with (length3 hp) in NP.
  pose proof (length3_add (fun i => acc i - sun_pull hp i) (sun_pull hp)) as T1. cbv beta in T1.
  rewrite (length3_ext (fun i => acc i - sun_pull hp i + sun_pull hp i) acc) in T1 by (intros; ring).
  pose proof (length3_add (fun i => sun_pull hp i - acc i) acc) as T2. cbv beta in T2.
  rewrite (length3_ext (fun i => sun_pull hp i - acc i + acc i) (sun_pull hp)) in T2 by (intros; ring).
  replace (length3 (fun i => sun_pull hp i - acc i)) with (length3 (fun i => acc i - sun_pull hp i)) in T2 by (unfold length3; f_equal; ring).
  rewrite sun_pull_length in * by lra. set (L := length3 hp) in *. clearbody L.
  assert (G1 : gauss * gauss / 1.036324 <= gauss * gauss / (L * L)) by (unfold Rdiv; apply Rmult_le_compat_l; [unfold gauss; lra|]; apply Rinv_le; nra).
  assert (G2 : gauss * gauss / (L * L) <= gauss * gauss / 0.964324) by (unfold Rdiv; apply Rmult_le_compat_l; [unfold gauss; lra|]; apply Rinv_le; nra).
  set (g := gauss * gauss / (L * L)) in *. clearbody g. unfold gauss in G1, G2. lra.
Qed.
