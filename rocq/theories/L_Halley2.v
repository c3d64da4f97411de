(** * The non-iterative step of geocentric_to_geodetic: third order

    The two second-order terms of the error cancel; what is left is of order
    e^4 h^3 (and e^5 h^2). *)

From Coq Require Import ZArith Reals Lra Lia.
From Verif Require Import L_Halley.
Open Scope R_scope.

(** The bracket, in units of V^4: all quantities are 1 + O(e). *)
Lemma bracket : forall e s c v y U d m rho al be q eps,
  0 <= e <= 0.012 -> 0 <= s -> 0 <= c -> s + c = 1 -> 0 <= v <= 1.124 -> 1 <= U <= 1.0122 -> y = s * U -> U = 1 + e * y ->
  0 <= d <= 0.1281 -> rho = 1 + e * e * d -> al = 1 + e * y * v -> be = 1 - e * c * U * v -> 0 <= q <= 1 -> Rabs eps <= 0.26 ->
  m = 1.5 + e * ((2 * s - 1) * v - 0.5 - 2 * s) + e * e * (s * (1 - v) - (1 - e) * d * q) ->
  Rabs ((U * U * U * (rho * rho * rho) - e * c * v * (U * U * (al * al))) * m - 1.5 * (al * al * (be * be)) * (1 + e * e * eps)
    - e * ((2.5 * s - 0.5) * (1 - v))) <= 26 * (e * e).
Proof.
  intros e s c v y U d m rho al be q eps He Hs Hc Hsc Hv HU Ey EU Hd Er Ea Eb Hq Heps Em.
  assert (Hs1 : s <= 1) by lra. assert (Hc1 : c <= 1) by lra.
  assert (Hy : 0 <= y <= 1.0122) by (rewrite Ey; pose proof (mul_bd0 s U 1 1.0122); lra).
  assert (Ey2 : y = s + e * (s * y)) by (rewrite Ey at 1; rewrite EU; ring).
  assert (SY : 0 <= s * y <= 1.0122) by (pose proof (mul_bd0 s y 1 1.0122); lra).
  assert (YY : 0 <= y * y <= 1.0246) by (pose proof (mul_bd0 y y 1.0122 1.0122); lra).
  assert (YYY : 0 <= y * y * y <= 1.04) by (pose proof (mul_bd0 (y * y) y 1.0246 1.0122); lra).
  assert (VV : 0 <= v * v <= 1.2634) by (pose proof (mul_bd0 v v 1.124 1.124); lra).
  (* U^3 *)
  set (a1 := 3 * (s * y) + 3 * (y * y) + e * (y * y * y)).
  assert (A1 : 0 <= a1 <= 6.2) by (unfold a1; pose proof (mul_bd0 e (y * y * y) 0.012 1.04); lra).
  assert (U3 : U * U * U = 1 + 3 * (e * s) + e * e * a1).
  { unfold a1. rewrite EU. transitivity (1 + 3 * (e * y) + e * e * (3 * (y * y) + e * (y * y * y))); [ring|]. rewrite Ey2 at 1. ring. }
  (* rho^3 *)
  set (p3 := 3 * d + 3 * (e * e) * (d * d) + (e * e) * (e * e) * (d * d * d)).
  assert (EE : 0 <= e * e <= 0.000144) by (pose proof (mul_bd0 e e 0.012 0.012); lra).
  assert (DD : 0 <= d * d <= 0.02) by (pose proof (mul_bd0 d d 0.1281 0.1281); lra).
  assert (DDD : 0 <= d * d * d <= 0.003) by (pose proof (mul_bd0 (d * d) d 0.02 0.1281); lra).
  assert (P3 : 0 <= p3 <= 0.39).
  { unfold p3. pose proof (mul_bd0 (e * e) (d * d) 0.000144 0.02 EE DD). pose proof (mul_bd0 (e * e) (e * e) 0.000144 0.000144 EE EE) as EEEE.
    pose proof (mul_bd0 (e * e * (e * e)) (d * d * d) (0.000144 * 0.000144) 0.003 EEEE DDD). lra. }
  assert (R3 : rho * rho * rho = 1 + e * e * p3) by (unfold p3; rewrite Er; ring).
  (* U al *)
  set (n := y + y * v + e * (y * y) * v).
  assert (YV : 0 <= y * v <= 1.138) by (pose proof (mul_bd0 y v 1.0122 1.124); lra).
  assert (N1 : 0 <= n <= 2.17).
  { unfold n. pose proof (mul_bd0 e (y * y) 0.012 1.0246 He YY) as X. pose proof (mul_bd0 _ v _ 1.124 X Hv). lra. }
  assert (NN : 0 <= n * n <= 4.71) by (pose proof (mul_bd0 n n 2.17 2.17); lra).
  assert (ENN : 0 <= e * (n * n) <= 0.06) by (pose proof (mul_bd0 e (n * n) 0.012 4.71); lra).
  set (a2 := 2 * n + e * (n * n)). assert (A2 : 0 <= a2 <= 4.4) by (unfold a2; lra).
  assert (UA : U * U * (al * al) = 1 + e * a2) by (unfold a2, n; rewrite Ea, EU; ring).
  (* first factor *)
  assert (CV : 0 <= c * v <= 1.124) by (pose proof (mul_bd0 c v 1 1.124); lra).
  set (t1 := 3 * s - c * v). assert (T1 : Rabs t1 <= 3) by (unfold t1; apply Rabs_le; lra).
  set (t2 := a1 + p3 * (1 + 3 * (e * s) + e * e * a1) - c * v * a2).
  assert (T2 : Rabs t2 <= 6.7).
  { unfold t2. assert (X : 1 <= 1 + 3 * (e * s) + e * e * a1 <= 1.04).
    { pose proof (mul_bd0 e s 0.012 1). pose proof (mul_bd0 (e * e) a1 0.000144 6.2). lra. }
    set (x := 1 + 3 * (e * s) + e * e * a1) in *. clearbody x. pose proof (mul_bd0 p3 x 0.39 1.04). pose proof (mul_bd0 (c * v) a2 1.124 4.4). apply Rabs_le. lra. }
  assert (F1 : U * U * U * (rho * rho * rho) - e * c * v * (U * U * (al * al)) = 1 + e * t1 + e * e * t2).
  { rewrite U3, R3, UA. unfold t1, t2. ring. }
  (* second factor *)
  set (k1 := (2 * s - 1) * v - 0.5 - 2 * s).
  assert (K1 : Rabs k1 <= 2.5).
  { unfold k1. pose proof (mul_bd0 s v 1 1.124 ltac:(lra) Hv). pose proof (mul_bd0 c v 1 1.124 ltac:(lra) Hv).
    replace ((2 * s - 1) * v - 0.5 - 2 * s) with (s * v - c * v - 0.5 - 2 * s) by (replace c with (1 - s) by lra; ring).
    assert (s * v <= s * 1.124) by (apply Rmult_le_compat_l; lra). assert (c * v <= c * 1.124) by (apply Rmult_le_compat_l; lra). apply Rabs_le. lra. }
  set (k2 := s * (1 - v) - (1 - e) * d * q).
  assert (K2 : Rabs k2 <= 1.2).
  { unfold k2. assert (s * (1 - v) <= 1) by (apply Rle_trans with (s * 1); [apply Rmult_le_compat_l; lra|lra]).
    assert (- 0.124 <= s * (1 - v)) by (pose proof (mul_bd0 s v 1 1.124 ltac:(lra) Hv); assert (s * v <= s * 1.124) by (apply Rmult_le_compat_l; lra); lra).
    pose proof (mul_bd0 (1 - e) d 1 0.1281 ltac:(lra) ltac:(lra)) as X. pose proof (mul_bd0 _ q _ 1 X Hq). apply Rabs_le. lra. }
  fold k1 k2 in Em.
  (* third *)
  set (g := (s - c) * v). assert (G : Rabs g <= 1.124) by (unfold g; pose proof (mul_bd0 s v 1 1.124 ltac:(lra) Hv); apply Rabs_le; lra).
  set (b2 := y * (s - c) * v - y * c * U * (v * v)).
  assert (B2 : Rabs b2 <= 1.5).
  { unfold b2. assert (X1 : Rabs (y * (s - c) * v) <= 1.0122 * 1 * 1.124).
    { apply abs_mul_bd; [apply abs_mul_bd; apply Rabs_le; lra|apply Rabs_le; lra]. }
    assert (X2 : 0 <= y * c <= 0.2531).
    { split; [apply Rmult_le_pos; lra|]. rewrite Ey. pose proof (Rle_0_sqr (s - c)) as W. unfold Rsqr in W.
      assert (s * c <= 0.25) by (assert (1 = (s + c) * (s + c)) by (rewrite Hsc; ring); lra).
      assert (0 <= s * c) by (apply Rmult_le_pos; lra). replace (s * U * c) with (s * c * U) by ring. pose proof (mul_bd0 (s * c) U 0.25 1.0122). lra. }
    pose proof (mul_bd0 _ U _ 1.0122 X2 ltac:(lra)) as X3. pose proof (mul_bd0 _ (v * v) _ 1.2634 X3 VV) as X4. apply abs_le_both in X1. apply Rabs_le. lra. }
  assert (AB : al * be = 1 + e * g + e * e * b2).
  { unfold g, b2. rewrite Ea, Eb. transitivity (1 + e * (y - c * U) * v - e * e * (y * c * U * (v * v))); [ring|].
    assert (Q : y - c * U = (s - c) + e * (y * (s - c))).
    { transitivity (s + e * (s * y) - c * (1 + e * y)); [rewrite <- Ey2, <- EU; reflexivity|ring]. }
    rewrite Q. ring. }
  replace (al * al * (be * be)) with ((al * be) * (al * be)) by ring. rewrite F1, AB, Em.
  assert (MAIN : k1 + 1.5 * t1 - 3 * g = (2.5 * s - 0.5) * (1 - v)) by (unfold k1, t1, g; replace c with (1 - s) by lra; lra).
  rewrite <- MAIN.
  set (ab := 1 + e * g + e * e * b2).
  replace ((1 + e * t1 + e * e * t2) * (1.5 + e * k1 + e * e * k2) - 1.5 * (ab * ab) * (1 + e * e * eps) - e * (k1 + 1.5 * t1 - 3 * g))
    with (e * e * (k2 + t1 * k1 + 1.5 * t2 - 1.5 * (g * g + 2 * b2) + e * (t1 * k2 + t2 * k1 - 3 * (g * b2)) + e * e * (t2 * k2 - 1.5 * (b2 * b2)) - 1.5 * (ab * ab) * eps)).
  2: { unfold ab. lra. }
  rewrite Rabs_mult, (Rabs_pos_eq (e * e)) by lra. rewrite (Rmult_comm 26). apply Rmult_le_compat_l; [lra|].
  pose proof (abs_mul_bd _ _ _ _ T1 K1) as Q1. pose proof (abs_mul_bd _ _ _ _ G G) as Q2. pose proof (abs_mul_bd _ _ _ _ T1 K2) as Q3.
  pose proof (abs_mul_bd _ _ _ _ T2 K1) as Q4. pose proof (abs_mul_bd _ _ _ _ G B2) as Q5. pose proof (abs_mul_bd _ _ _ _ T2 K2) as Q6. pose proof (abs_mul_bd _ _ _ _ B2 B2) as Q7.
  assert (ABB : Rabs ab <= 1.02).
  { unfold ab. assert (E1 : Rabs (e * g) <= 0.012 * 1.124) by (apply abs_mul_bd; [apply Rabs_le; lra|exact G]).
    assert (E2 : Rabs (e * e * b2) <= 0.000144 * 1.5) by (apply abs_mul_bd; [apply Rabs_le; lra|exact B2]).
    apply abs_le_both in E1. apply abs_le_both in E2. apply Rabs_le. lra. }
  pose proof (abs_mul_bd _ _ _ _ (abs_mul_bd _ _ _ _ ABB ABB) Heps) as Q8.
  apply abs_le_both in Q1. apply abs_le_both in Q2. apply abs_le_both in Q3. apply abs_le_both in Q4. apply abs_le_both in Q5. apply abs_le_both in Q6. apply abs_le_both in Q7. apply abs_le_both in Q8.
  assert (E3 : Rabs (e * (t1 * k2 + t2 * k1 - 3 * (g * b2))) <= 0.012 * 30) by (apply abs_mul_bd; apply Rabs_le; lra).
  assert (E4 : Rabs (e * e * (t2 * k2 - 1.5 * (b2 * b2))) <= 0.000144 * 20) by (apply abs_mul_bd; apply Rabs_le; lra).
  apply abs_le_both in E3. apply abs_le_both in E4. apply abs_le_both in K2. apply abs_le_both in T2. apply abs_le_both in B2.
  assert (GG : 0 <= g * g) by apply Rle_0_sqr.
  apply Rabs_le. lra.
Qed.

(** The quantities of the step, exactly. *)
Lemma geo_exact : forall w e sp cp u h a0, geo w e sp cp u h a0 -> e <= 0.012 -> 0.9 <= u + h ->
  let k2 := sp * sp * (cp * cp) in
  let V := 1 + u * h in let r := a0 / w in let del := e * e * k2 * (u * u) / (w * w) in
  let mu := k2 * (e * e) * (3 - 2 * e - (2 * e - e * e) * (sp * sp)) * (u * u * u) / (w * w * w * w) in
  0.89 <= V <= 1.0061 * (u + h) /\ V <= r /\ a0 = w * r /\ u * u * (1 - e * (sp * sp)) = 1 /\ r * r = V * V + del * (h * h) /\
  0 <= del <= 0.2562 * (e * e) /\
  hQ w sp cp u h a0 = w * w * w * w * u * (3 * del * (h * h) + mu * (h * h * h) - (r * r * r - V * V * V)).
Proof.
  intros w e sp cp u h a0 G He HA.
  destruct (geo_u _ _ _ _ _ _ _ G He) as [U1 U2]. destruct (geo_w _ _ _ _ _ _ _ G He) as (W1 & W2 & E1).
  destruct (geo_ab _ _ _ _ _ _ _ G He HA) as (_ & A1 & A2).
  destruct (geo_cs _ _ _ _ _ _ _ G) as (S2 & C2 & SC & SC2). destruct G as [Hw Ee H1 Hsp Hcp Hu Hd Ha Ha2].
  set (A := u + h) in *.
  set (V := 1 + u * h). set (k2 := sp * sp * (cp * cp)) in *.
  assert (U3 : 1 <= u * u <= 1.0061 * 1.0061) by (pose proof (mul_bd u u 1 1.0061 1 1.0061); lra).
  assert (Vb : 0.89 <= V <= 1.0061 * A).
  { assert (VE : V = 1 + u * A - u * u) by (unfold V, A; ring). split.
    - unfold V. destruct (Rle_lt_dec 0 h) as [P|P]; [nra|]. 
      assert (u * (- h) <= 1.0061 * 0.1061) by (apply Rmult_le_compat; unfold A in *; lra). lra.
    - rewrite VE. assert (u * A <= 1.0061 * A) by (apply Rmult_le_compat_r; lra). lra. }
  set (del := e * e * k2 * (u * u) / (w * w)).
  set (mu := k2 * (e * e) * (3 - 2 * e - (2 * e - e * e) * (sp * sp)) * (u * u * u) / (w * w * w * w)).
  set (r := a0 / w).
  assert (RA : a0 = w * r) by (unfold r; field; lra).
  assert (cp2 : cp * cp = 1 - sp * sp) by lra.
  assert (u2 : u * u * (1 - e * (sp * sp)) = 1) by (transitivity (u * u * (cp * cp + w * w * (sp * sp))); [rewrite Ee, cp2; ring|exact Hd]).
  assert (R2 : r * r = V * V + del * (h * h)).
  { apply Rmult_eq_reg_l with (w * w); [|nra]. replace (w * w * (r * r)) with (a0 * a0) by (rewrite RA; ring).
    replace (w * w * (V * V + del * (h * h))) with (w * w * (V * V) + e * e * k2 * (u * u) * (h * h)) by (unfold del; field; lra).
    rewrite Ha2. unfold V, k2, A. 
    transitivity (w * w * (u * u * (cp * cp + w * w * (sp * sp))) + 2 * u * h * (w * w) * (sp * sp + cp * cp) + h * h * (w * w * (cp * cp) + sp * sp)); [ring|].
    rewrite Hd, H1.
    assert (W : w * w = 1 - e) by lra. rewrite W, cp2.
    transitivity ((1 - e) * (1 + 2 * u * h) + h * h * ((1 - e) * (1 - sp * sp) + sp * sp)); [ring|].
    transitivity ((1 - e) * (1 + 2 * u * h) + h * h * ((1 - e) * (u * u) + e * e * (sp * sp) * (1 - sp * sp) * (u * u))); [|ring].
    f_equal. f_equal.
    replace ((1 - e) * (u * u) + e * e * (sp * sp) * (1 - sp * sp) * (u * u)) with ((u * u * (1 - e * (sp * sp))) * (1 - e * (1 - sp * sp))) by ring.
    rewrite u2. ring. }
  assert (del0 : 0 <= del) by (unfold del; apply Rmult_le_pos; [repeat apply Rmult_le_pos; nra|apply Rlt_le, Rinv_0_lt_compat; nra]).
  assert (r0 : 0 <= r) by (unfold r; apply Rmult_le_pos; [lra|apply Rlt_le, Rinv_0_lt_compat; lra]).
  assert (h2 : 0 <= h * h) by nra.
  assert (rV : V <= r) by (apply Rnot_lt_le; intros L; assert (0 <= del * (h * h)) by (apply Rmult_le_pos; assumption); nra).
  assert (rA : r <= 1.0062 * A).
  { unfold r. apply Rmult_le_reg_r with w; [lra|]. unfold Rdiv. rewrite Rmult_assoc, Rinv_l, Rmult_1_r by lra.
    assert (A * 0.9939 <= A * w) by (apply Rmult_le_compat_l; lra). lra. }
  (* the S part *)
  assert (QE : hQ w sp cp u h a0 = w * w * w * w * u * (3 * del * (h * h) + mu * (h * h * h) - (r * r * r - V * V * V))).
  { unfold hQ. rewrite RA.
    assert (SE : (w * w * u + h) * (w * w * u + h) * (w * w * u + h) * (sp * sp) + w * w * w * w * ((u + h) * (u + h) * (u + h)) * (cp * cp)
      = w * w * w * w * u * (V * V * V + 3 * del * (h * h) + mu * (h * h * h))); [|rewrite SE; ring].
    assert (D1 : w * w * w * w * u * (3 * del * (h * h)) = 3 * (w * w) * u * (e * e * k2 * (u * u)) * (h * h)) by (unfold del; field; lra).
    assert (D2 : w * w * w * w * u * (mu * (h * h * h)) = u * (k2 * (e * e) * (3 - 2 * e - (2 * e - e * e) * (sp * sp)) * (u * u * u)) * (h * h * h)) by (unfold mu; field; lra).
    transitivity (w * w * w * w * u * (V * V * V) + w * w * w * w * u * (3 * del * (h * h)) + w * w * w * w * u * (mu * (h * h * h))); [|ring].
    rewrite D1, D2. unfold V, k2.
    assert (W : w * w = 1 - e) by lra. rewrite cp2.
    replace (w * w * w * w) with ((w * w) * (w * w)) by ring. rewrite W.
    set (s := sp * sp) in *. clearbody s.
    (* coefficients of h^0, h^1, h^2, h^3 with u^2 (1 - e s) = 1 *)
    assert (K0 : u * u * u * (1 - e * s) = u) by (replace (u * u * u * (1 - e * s)) with (u * (u * u * (1 - e * s))) by ring; rewrite u2; ring).
    transitivity ((1 - e) * (1 - e) * (u * u * u * (1 - e * s)) + 3 * ((1 - e) * (1 - e)) * (u * u * (1 - 0 * s)) * h
       + 3 * ((1 - e) * u * s + (1 - e) * (1 - e) * u * (1 - s)) * (h * h) + (s + (1 - e) * (1 - e) * (1 - s)) * (h * h * h)); [ring|].
    rewrite K0.
    assert (H2' : (1 - e) * u * s + (1 - e) * (1 - e) * u * (1 - s) = (1 - e) * (1 - e) * (u * u * u) + (1 - e) * u * (e * e * (s * (1 - s)) * (u * u))).
    { transitivity ((1 - e) * u * (1 - e * (1 - s))); [ring|].
      replace (u * u * u) with (u * (u * u)) by ring.
      transitivity ((1 - e) * u * ((u * u * (1 - e * s)) * (1 - e * (1 - s)))); [rewrite u2; ring|ring]. }
    rewrite H2'.
    assert (H3' : s + (1 - e) * (1 - e) * (1 - s) = (1 - e) * (1 - e) * u * (u * u * u) + u * (s * (1 - s) * (e * e) * (3 - 2 * e - (2 * e - e * e) * s) * (u * u * u))).
    { transitivity ((u * u * (1 - e * s)) * (u * u * (1 - e * s)) * (s + (1 - e) * (1 - e) * (1 - s))); [rewrite u2; ring|ring]. }
    rewrite H3'. ring. }
  intros k2' V' r' del' mu'.
  assert (e2 : 0 <= e * e) by nra.
  assert (w2i : / (w * w) <= 1.0122).
  { apply Rmult_le_reg_r with (w * w); [lra|]. rewrite Rinv_l by lra. lra. }
  assert (w2p : 0 < / (w * w)) by (apply Rinv_0_lt_compat; lra).
  assert (delb : del <= 0.2562 * (e * e)).
  { unfold del, Rdiv. 
    assert (k2 * (u * u) <= 1 / 4 * (1.0061 * 1.0061)) by (apply Rmult_le_compat; lra).
    assert (k2 * (u * u) * / (w * w) <= 1 / 4 * (1.0061 * 1.0061) * 1.0122) by (apply Rmult_le_compat; nra).
    replace (e * e * k2 * (u * u) * / (w * w)) with (k2 * (u * u) * / (w * w) * (e * e)) by ring.
    apply Rmult_le_compat_r; lra. }
  split; [exact Vb|]. split; [exact rV|]. split; [exact RA|]. split; [exact u2|]. split; [exact R2|]. split; [split; assumption|exact QE].
Qed.

(** f0 Q - b0 h, exactly: the bracket of the lemma above. *)
Lemma cross_exact : forall w e sp cp u h a0, geo w e sp cp u h a0 -> e <= 0.012 -> 0.9 <= u + h ->
  let pn := (u + h) * cp in let s0 := (w * w * u + h) * sp in let s := sp * sp in let V := 1 + u * h in
  exists Z, hf0 w e pn s0 a0 * hQ w sp cp u h a0 - hb0 w e pn s0 a0 * h = pn * (e * e * (s * (cp * cp)) * (h * h)) * (w * w * w) * Z /\
    Rabs (u * u * u * Z - V * V * V * V * (e * ((2.5 * s - 0.5) * (1 - / V)))) <= V * V * V * V * (26 * (e * e)).
Proof.
  intros w e sp cp u h a0 G He HA pn s0 s V.
  destruct (geo_exact _ _ _ _ _ _ _ G He HA) as (Vb & rV & RA & u2 & R2 & Db & QE).
  destruct (geo_u _ _ _ _ _ _ _ G He) as [U1 U2]. destruct (geo_w _ _ _ _ _ _ _ G He) as (W1 & W2 & E1).
  destruct (geo_cs _ _ _ _ _ _ _ G) as (S2 & C2 & SC & SC2).
  pose proof (g_e _ _ _ _ _ _ _ G) as Ee. pose proof (g_1 _ _ _ _ _ _ _ G) as H1.
  fold V in Vb, rV, R2, QE. fold s in u2, QE, R2, Db, S2, H1, SC2. set (c := cp * cp) in *. set (k2 := s * c) in *.
  set (r := a0 / w) in *. clearbody r.
  assert (w0 : w <> 0) by lra. assert (V0 : 0 < V) by lra. assert (r0 : 0 < r) by lra. assert (u0 : 0 < u) by lra.
  (* del = e^2 dl *)
  set (dl := k2 * (u * u) / (w * w)).
  assert (DE : e * e * k2 * (u * u) / (w * w) = e * e * dl) by (unfold dl; field; exact w0).
  rewrite DE in R2, Db, QE.
  assert (DW : w * w * dl = k2 * (u * u)) by (unfold dl; field; exact w0).
  assert (D0 : 0 <= dl <= 0.2562).
  { unfold dl, Rdiv. assert (UU : 1 <= u * u <= 1.0061 * 1.0061) by (apply (fun q => mul_bd u u 1 1.0061 1 1.0061 q q (conj U1 U2) (conj U1 U2)) || (pose proof (mul_bd u u 1 1.0061 1 1.0061); lra)).
    assert (w2i : / (w * w) <= 1.0122) by (apply Rmult_le_reg_r with (w * w); [lra|]; rewrite Rinv_l by lra; lra).
    assert (w2p : 0 < / (w * w)) by (apply Rinv_0_lt_compat; lra).
    assert (X : 0 <= k2 * (u * u) <= 1 / 4 * (1.0061 * 1.0061)) by (apply mul_bd0; lra).
    pose proof (mul_bd0 _ (/ (w * w)) _ 1.0122 X ltac:(lra)). lra. }
  set (J := (r * r + r * V + V * V) / (r + V)).
  assert (JE : r * r * r - V * V * V = e * e * dl * (h * h) * J).
  { replace (e * e * dl * (h * h)) with ((r - V) * (r + V)) by lra. unfold J. field. lra. }
  assert (L : (r - 1) * (r + 1) = h * (u * (1 + V) + e * e * dl * h)).
  { transitivity (r * r - 1); [ring|]. rewrite R2. unfold V. ring. }
  assert (L1 : r - 1 = h * (u * (1 + V) + e * e * dl * h) / (r + 1)) by (rewrite <- L; field; lra).
  set (A := u + h) in *. set (B := w * w * u + h) in *.
  set (Gm := 3 - 2 * e - (2 * e - e * e) * s) in *.
  set (Z := u * u * u * (r * r * r - e * (A * A) * c) * (3 * (w * w) + Gm * (u * h) - w * w * J) - 1.5 * (A * A) * (B * B) * ((u * (1 + V) + e * e * dl * h) / (r + 1))).
  exists Z. split.
  - rewrite QE, JE. unfold hf0, hb0. rewrite RA.
    replace (w * r - w) with (w * (r - 1)) by ring. rewrite L1.
    unfold Z. unfold pn. unfold s0.
    set (T := (u * (1 + V) + e * e * dl * h)). replace (h * T / (r + 1)) with (h * (T / (r + 1))) by (field; lra). set (T' := T / (r + 1)). clearbody T'.
    assert (M : w * w * w * w * u * (k2 * (e * e) * Gm * (u * u * u) / (w * w * w * w) * (h * h * h)) = e * e * k2 * (h * h) * (u * u * u) * (Gm * (u * h))) by (field; exact w0).
    assert (M2 : w * w * w * w * u * (3 * (e * e * dl) * (h * h) + k2 * (e * e) * Gm * (u * u * u) / (w * w * w * w) * (h * h * h) - e * e * dl * (h * h) * J)
      = e * e * k2 * (h * h) * (u * u * u) * (3 * (w * w) + Gm * (u * h) - w * w * J)).
    { transitivity (w * w * u * (e * e) * (h * h) * (w * w * dl) * (3 - J) + w * w * w * w * u * (k2 * (e * e) * Gm * (u * u * u) / (w * w * w * w) * (h * h * h))); [ring|].
      rewrite M, DW. ring. }
    rewrite M2. set (KK := 3 * (w * w) + Gm * (u * h) - w * w * J). clearbody KK. unfold k2, c, s. ring.
  - (* pass to the bracket *)
    set (v := / V). assert (Vv : V * v = 1) by (unfold v; field; lra).
    assert (vb : 0 <= v <= 1.124).
    { split; [unfold v; apply Rlt_le, Rinv_0_lt_compat; exact V0|]. apply Rmult_le_reg_l with V; [exact V0|]. rewrite Vv. lra. }
    set (U := u * u) in *. set (y := s * U).
    assert (EU : U = 1 + e * y) by (unfold y; lra).
    assert (UB : 1 <= U <= 1.0122).
    { assert (U1' : 1 <= U <= 1.0123) by (unfold U; pose proof (mul_bd u u 1 1.0061 1 1.0061); lra). split; [lra|].
      pose proof (mul_bd0 e s 0.012 1 E1 ltac:(lra)) as ES. apply Rnot_lt_le. intros LL. assert (1.0122 * 0.988 <= U * (1 - e * s)) by (apply Rmult_le_compat; lra). lra. }
    set (al := 1 + e * y * v). set (be := 1 - e * c * U * v).
    assert (uA : u * A = V * al).
    { unfold al. transitivity (V + e * y * (V * v)); [|ring]. rewrite Vv. unfold A, V. rewrite Rmult_plus_distr_l. fold U. lra. }
    assert (uB : u * B = V * be).
    { unfold be. transitivity (V - e * c * U * (V * v)); [|ring]. rewrite Vv. unfold B, V. 
      replace (u * (w * w * u + h)) with (w * w * U + u * h) by (unfold U; ring). replace (w * w) with (1 - e) by lra.
      assert (Q : (1 - e) * U = 1 - e * c * U). { replace c with (1 - s) by lra. unfold y in EU. lra. } rewrite Q. ring. }
    assert (hV : h * h <= V * V).
    { assert (Hv : - V <= h <= V). { unfold A in HA. destruct (Rle_lt_dec 0 h) as [P|P]; [|lra]. assert (1 * h <= u * h) by (apply Rmult_le_compat_r; lra). unfold V. lra. }
      assert (0 <= (V - h) * (V + h)) by (apply Rmult_le_pos; lra). lra. }
    set (rho := r * v). assert (rq : r = V * rho) by (unfold rho; transitivity (r * (V * v)); [rewrite Vv; ring|ring]).
    assert (rho1 : 1 <= rho) by (unfold rho; rewrite <- Vv; apply Rmult_le_compat_r; lra).
    (* rho = 1 + e^2 d *)
    set (d := dl * (h * h * (v * v)) / (rho + 1)).
    assert (hv : 0 <= h * h * (v * v) <= 1).
    { split; [apply Rmult_le_pos; apply Rle_0_sqr|]. replace 1 with (V * V * (v * v)) by (transitivity ((V * v) * (V * v)); [ring|rewrite Vv; ring]). apply Rmult_le_compat_r; [apply Rle_0_sqr|exact hV]. }
    assert (db : 0 <= d <= 0.1281).
    { unfold d. pose proof (mul_bd0 dl (h * h * (v * v)) 0.2562 1 D0 hv) as X. set (x := dl * (h * h * (v * v))) in *. clearbody x.
      split; [apply Rmult_le_pos; [lra|apply Rlt_le, Rinv_0_lt_compat; lra]|]. apply Rmult_le_reg_r with (rho + 1); [lra|]. unfold Rdiv. rewrite Rmult_assoc, Rinv_l by lra. lra. }
    assert (rd : rho = 1 + e * e * d).
    { apply Rmult_eq_reg_r with (rho + 1); [|lra]. unfold d.
      transitivity (rho + 1 + e * e * dl * (h * h) * (v * v)); [|field; lra].
      replace (e * e * dl * (h * h)) with (r * r - V * V) by lra.
      transitivity (rho * 1 + rho * rho); [ring|]. unfold rho at 1 3. transitivity (r * v + 1 + (r * r * (v * v) - (V * v) * (V * v))); [rewrite Vv; unfold rho; ring|unfold rho; ring]. }
    set (q := (rho + 0.5) / (rho + 1)).
    assert (qb : 0 <= q <= 1).
    { unfold q. split; [apply Rmult_le_pos; [lra|apply Rlt_le, Rinv_0_lt_compat; lra]|]. apply Rmult_le_reg_r with (rho + 1); [lra|]. unfold Rdiv. rewrite Rmult_assoc, Rinv_l by lra. lra. }
    assert (JV : J = V * (1.5 + e * e * d * q)).
    { unfold J. rewrite rq. replace (e * e * d) with (rho - 1) by lra. unfold q. clear -V0 rho1. clearbody V rho.
      replace ((V * rho * (V * rho) + V * rho * V + V * V) / (V * rho + V)) with (V * ((rho * rho + rho + 1) / (rho + 1))) by (field; split; [|lra]; assert (0 < V * (rho + 1)) by (apply Rmult_lt_0_compat; lra); lra).
      f_equal. replace 1.5 with (3 / 2) by lra. replace 0.5 with (1 / 2) by lra. field. lra. }
    set (m := 1.5 + e * ((2 * s - 1) * v - 0.5 - 2 * s) + e * e * (s * (1 - v) - (1 - e) * d * q)).
    assert (KM : 3 * (w * w) + Gm * (u * h) - w * w * J = V * m).
    { rewrite JV. replace (w * w) with (1 - e) by lra. replace (u * h) with (V - 1) by (unfold V; ring).
      unfold m, Gm. transitivity (1.5 * V + e * ((2 * s - 1) * (V * v) - 0.5 * V - 2 * s * V) + e * e * (s * (V - V * v) - (1 - e) * d * q * V)); [rewrite Vv; lra|ring]. }
    set (eps := (dl * h / u - d * V) / (r + 1)).
    assert (epsb : Rabs eps <= 0.26).
    { unfold eps. unfold Rdiv at 1. rewrite Rabs_mult, (Rabs_pos_eq (/ (r + 1))) by (apply Rlt_le, Rinv_0_lt_compat; lra).
      apply Rmult_le_reg_r with (r + 1); [lra|]. rewrite Rmult_assoc, Rinv_l, Rmult_1_r by lra.
      assert (dV : 0 <= d * V <= 0.1281 * V) by (split; [apply Rmult_le_pos; lra|apply Rmult_le_compat_r; lra]).
      assert (hu : - 0.12 <= h / u <= V).
      { split.
        - apply Rmult_le_reg_r with u; [lra|]. unfold Rdiv. rewrite Rmult_assoc, Rinv_l by lra. unfold A in HA. lra.
        - apply Rmult_le_reg_r with u; [lra|]. unfold Rdiv. rewrite Rmult_assoc, Rinv_l by lra. destruct (Rle_lt_dec 0 h) as [P|P].
          + unfold V. replace ((1 + u * h) * u) with (u + U * h) by (unfold U; ring). assert (1 * h <= U * h) by (apply Rmult_le_compat_r; lra). lra.
          + assert (0 <= V * u) by (apply Rmult_le_pos; lra). lra. }
      replace (dl * h / u) with (dl * (h / u)) by (field; lra). set (hu' := h / u) in *. clearbody hu'.
      assert (X : - (0.2562 * 0.12) <= dl * hu' <= 0.2562 * V).
      { destruct (Rle_lt_dec 0 hu') as [P|P]; [pose proof (mul_bd0 dl hu' 0.2562 V D0 ltac:(lra)); lra|].
        pose proof (mul_bd0 dl (- hu') 0.2562 0.12 D0 ltac:(lra)). lra. }
      apply Rabs_le. lra. }
    assert (TE : u * (1 + V) + e * e * dl * h = u * (r + 1) * (1 + e * e * eps)).
    { unfold eps. assert (rdV : r = V + e * e * d * V) by (rewrite rq, rd; ring).
      transitivity (u * (r + 1) + u * (e * e) * (dl * h / u - d * V)); [|field; lra].
      transitivity (u * (1 + (r - e * e * d * V)) + u * (e * e) * (dl * h / u)); [|ring].
      replace (r - e * e * d * V) with V by lra. field. lra. }
    pose proof (bracket e s c v y U d m rho al be q eps E1 ltac:(lra) ltac:(lra) H1 vb UB eq_refl EU db rd eq_refl eq_refl qb epsb eq_refl) as BR.
    assert (ZE : u * u * u * Z = V * V * V * V * ((U * U * U * (rho * rho * rho) - e * c * v * (U * U * (al * al))) * m - 1.5 * (al * al * (be * be)) * (1 + e * e * eps))).
    { unfold Z. rewrite KM. replace ((u * (1 + V) + e * e * dl * h) / (r + 1)) with (u * (1 + e * e * eps)) by (rewrite TE; field; lra).
      transitivity ((U * U * U * (r * r * r) - U * U * (e * c) * ((u * A) * (u * A))) * (V * m) - 1.5 * ((u * A) * (u * A) * ((u * B) * (u * B))) * (1 + e * e * eps)); [unfold U; ring|].
      rewrite uA, uB, rq.
      transitivity (V * V * V * ((U * U * U * (rho * rho * rho) * V - e * c * (1) * V * 0 - U * U * (e * c) * (al * al) * 1)) * m - V * V * V * V * (1.5 * (al * al * (be * be)) * (1 + e * e * eps))); [ring|].
      rewrite <- Vv. ring. }
    replace (U * u * Z) with (u * u * u * Z) by (unfold U; ring). rewrite ZE.
    replace (V * V * V * V * ((U * U * U * (rho * rho * rho) - e * c * v * (U * U * (al * al))) * m - 1.5 * (al * al * (be * be)) * (1 + e * e * eps)) - V * V * V * V * (e * ((2.5 * s - 0.5) * (1 - v))))
      with (V * V * V * V * ((U * U * U * (rho * rho * rho) - e * c * v * (U * U * (al * al))) * m - 1.5 * (al * al * (be * be)) * (1 + e * e * eps) - e * ((2.5 * s - 0.5) * (1 - v)))) by ring.
    rewrite Rabs_mult. assert (V4 : 0 <= V * V * V * V) by (repeat apply Rmult_le_pos; lra). rewrite (Rabs_pos_eq (V * V * V * V)) by exact V4.
    apply Rmult_le_compat_l; [exact V4|exact BR].
Qed.

(** The angle of the step: of order e^4 h^3. *)
Theorem step_error2 : forall w e sp cp u h a0, geo w e sp cp u h a0 -> e <= 0.012 -> 0.9 <= u + h ->
  let pn := (u + h) * cp in let s0 := (w * w * u + h) * sp in
  let s1 := hs1 w e pn s0 a0 in let cc := hcc w e pn s0 a0 in let k := / (u + h) in
  Rabs ((s1 * cp - cc * sp) / (s1 * sp + cc * cp)) <= 0.3 * (e * e * e * e) * (Rabs h * (h * h)) * (k * k * k * k) + 3.8 * (e * e * e * e * e) * (h * h) * (k * k * k).
Proof.
  intros w e sp cp u h a0 G He HA pn s0 s1 cc k.
  destruct (geo_w _ _ _ _ _ _ _ G He) as (W1 & W2 & E1). destruct (geo_u _ _ _ _ _ _ _ G He) as [U1 U2].
  destruct (geo_ab _ _ _ _ _ _ _ G He HA) as (Bb & Ab).
  destruct (geo_cs _ _ _ _ _ _ _ G) as (S2 & C2 & SC & SC2).
  destruct (geo_exact _ _ _ _ _ _ _ G He HA) as (Vb & _ & _ & u2 & _). 
  destruct (cross_exact _ _ _ _ _ _ _ G He HA) as (Z & X1 & X2). cbv zeta in X1, X2. fold pn s0 in X1.
  set (A := u + h) in *. set (B := w * w * u + h) in *. set (V := 1 + u * h) in *.
  assert (A0 : 0 < A) by lra.
  assert (HK : A * k = 1) by (unfold k; field; lra).
  assert (Kb : 0 <= k <= 1.1112) by (split; [unfold k; apply Rlt_le, Rinv_0_lt_compat; lra|nra]).
  set (b := B * k). set (al := a0 * k).
  assert (Bq : B = A * b) by (unfold b; transitivity (B * (A * k)); [rewrite HK; ring|ring]).
  assert (Aq : a0 = A * al) by (unfold al; transitivity (a0 * (A * k)); [rewrite HK; ring|ring]).
  assert (bb : 0.986 <= b <= 1) by (clear -Bq Bb A0; nra).
  assert (alb : 0.986 <= al <= 1) by (clear -Aq Ab A0; nra).
  destruct (factored w e sp cp A b al k HK) as (EF & ED & EB & ES & EC).
  rewrite <- Bq, <- Aq in EF, ED, EB, ES, EC. fold pn s0 in EF, ED, EB, ES, EC. fold s1 in ES. fold cc in EC.
  destruct (normalised_bounds w e sp cp b al k W1 E1 bb alb Kb S2 C2 SC2) as (NF & ND & G1 & G2).
  set (g1 := nD w e sp al b k * nF w e cp al k - nB w e al b k * b * k * (sp * sp * (cp * cp))) in *.
  set (g2 := w * (nF w e cp al k * nF w e cp al k - nB w e al b k * w * k * (sp * sp * (cp * cp)))) in *.
  clearbody g1 g2.
  pose proof (cross_identity w sp cp u h a0) as X. cbv zeta in X. fold A B in X. fold pn s0 in X.
  pose proof (g_e _ _ _ _ _ _ _ G) as Ee. rewrite <- Ee in X. fold s1 cc in X. rewrite X1 in X.
  pose proof (g_1 _ _ _ _ _ _ _ G) as H1. pose proof (g_sp _ _ _ _ _ _ _ G) as Hsp. pose proof (g_cp _ _ _ _ _ _ _ G) as Hcp.
  assert (A8 : 0 < A ^ 8) by (apply pow_lt; exact A0).
  assert (M : 0.86 * (A ^ 8 * cp) <= s1 * sp + cc * cp).
  { rewrite ES, EC.
    replace (A ^ 8 * (cp * sp) * g1 * sp + A ^ 8 * (cp * cp) * g2 * cp) with (A ^ 8 * cp * (sp * sp * g1 + cp * cp * g2)) by ring.
    rewrite (Rmult_comm 0.86). apply Rmult_le_compat_l; [apply Rmult_le_pos; lra|].
    replace 0.86 with (sp * sp * 0.86 + cp * cp * 0.86) by (rewrite <- Rmult_plus_distr_r, H1; ring).
    apply Rplus_le_compat; apply Rmult_le_compat_l; lra. }
  assert (M0 : 0 < A ^ 8 * cp) by (apply Rmult_lt_0_compat; lra).
  (* the bound on Z *)
  assert (V0 : 0 < V) by lra.
  assert (u3 : 0 < u * u * u) by (apply Rmult_lt_0_compat; [apply Rmult_lt_0_compat; lra|lra]).
  assert (VA : V <= u * A).
  { unfold V, A. rewrite Rmult_plus_distr_l. assert (1 <= u * u) by (pose proof (mul_bd u u 1 1.0061 1 1.0061); lra). lra. }
  set (x := u * A) in *. assert (x0 : 0 < x) by lra.
  assert (V3 : V * V * V <= x * x * x) by (apply Rmult_le_compat; [apply Rmult_le_pos; lra|lra|apply Rmult_le_compat; lra|lra]).
  assert (V4 : V * V * V * V <= x * x * x * x) by (apply Rmult_le_compat; [repeat apply Rmult_le_pos; lra|lra|exact V3|lra]).
  assert (ee : 0 <= e * e) by (apply Rmult_le_pos; lra).
  assert (ZB : Rabs (w * w * w * Z) <= 2 * e * Rabs h * (A * A * A) + 26 * (e * e) * (A * A * A * A)).
  { assert (W3 : 0 <= w * w * w /\ w * w * w * u <= 1).
    { split; [repeat apply Rmult_le_pos; lra|].
      assert (wu : w * u <= 1).
      { assert (Q : w * u * (w * u) <= 1).
        { replace (w * u * (w * u)) with (u * u * (w * w)) by ring. rewrite <- u2. apply Rmult_le_compat_l; [apply Rle_0_sqr|].
          assert (e * (sp * sp) <= e * 1) by (apply Rmult_le_compat_l; lra). lra. }
        apply Rnot_lt_le. intros LL. assert (1 * 1 < w * u * (w * u)) by (apply Rmult_le_0_lt_compat; lra). lra. }
      replace (w * w * w * u) with (w * w * (w * u)) by ring. assert (0 <= w * u) by (apply Rmult_le_pos; lra). pose proof (mul_bd0 (w * w) (w * u) 1 1). lra. }
    destruct W3 as [W3 W3u].
    assert (U3Z : Rabs (u * u * u * Z) <= u * u * u * (2 * (e * Rabs h) * (u * (A * A * A)) + 26 * (e * e) * (u * (A * A * A * A)))).
    { set (T := V * V * V * V * (e * ((2.5 * (sp * sp) - 0.5) * (1 - / V)))) in *.
      replace (u * u * u * Z) with ((u * u * u * Z - T) + T) by ring. eapply Rle_trans; [apply Rabs_triang|].
      assert (TB : Rabs T <= 2 * (e * Rabs h) * (u * (x * x * x))).
      { unfold T. replace (V * V * V * V * (e * ((2.5 * (sp * sp) - 0.5) * (1 - / V)))) with ((V * V * V) * (2.5 * (sp * sp) - 0.5) * (e * (u * h))).
        2: { transitivity (V * V * V * (e * (2.5 * (sp * sp) - 0.5)) * (V - V * / V)); [rewrite Rinv_r by lra; unfold V; ring|ring]. }
        replace (2 * (e * Rabs h) * (u * (x * x * x))) with (x * x * x * 2 * (e * (u * Rabs h))) by ring.
        apply abs_mul_bd; [apply abs_mul_bd|].
        - rewrite Rabs_pos_eq by (repeat apply Rmult_le_pos; lra). exact V3.
        - apply Rabs_le. lra.
        - rewrite Rabs_mult, (Rabs_pos_eq e), Rabs_mult, (Rabs_pos_eq u) by lra. apply Rle_refl. }
      assert (RB : V * V * V * V * (26 * (e * e)) <= 26 * (e * e) * (x * x * x * x)) by (rewrite Rmult_comm; apply Rmult_le_compat_l; lra).
      replace (u * u * u * (2 * (e * Rabs h) * (u * (A * A * A)) + 26 * (e * e) * (u * (A * A * A * A)))) with (2 * (e * Rabs h) * (u * (x * x * x)) + 26 * (e * e) * (x * x * x * x)) by (unfold x; ring).
      lra. }
    rewrite Rabs_mult, (Rabs_pos_eq (u * u * u)) in U3Z by lra. apply Rmult_le_reg_l in U3Z; [|exact u3].
    rewrite Rabs_mult, (Rabs_pos_eq (w * w * w)) by lra.
    apply Rle_trans with (w * w * w * (2 * (e * Rabs h) * (u * (A * A * A)) + 26 * (e * e) * (u * (A * A * A * A)))).
    - apply Rmult_le_compat_l; assumption.
    - replace (w * w * w * (2 * (e * Rabs h) * (u * (A * A * A)) + 26 * (e * e) * (u * (A * A * A * A)))) with (w * w * w * u * (2 * e * Rabs h * (A * A * A) + 26 * (e * e) * (A * A * A * A))) by ring.
      rewrite <- (Rmult_1_l (2 * e * Rabs h * (A * A * A) + 26 * (e * e) * (A * A * A * A))) at 2.
      apply Rmult_le_compat_r; [|exact W3u]. apply Rplus_le_le_0_compat; repeat apply Rmult_le_pos; try lra; apply Rabs_pos. }
  assert (h2 : 0 <= h * h) by apply Rle_0_sqr. pose proof (Rabs_pos h) as hp.
  set (z1 := e * e * e * e * (Rabs h * (h * h)) * (k * k * k * k)). set (z2 := e * e * e * e * e * (h * h) * (k * k * k)).
  assert (Z1 : 0 <= z1) by (unfold z1; repeat (assumption || apply Rmult_le_pos); lra). assert (Z2 : 0 <= z2) by (unfold z2; repeat (assumption || apply Rmult_le_pos); lra).
  assert (N : Rabs (s1 * cp - cc * sp) <= A ^ 8 * cp * (0.25 * z1 + 3.25 * z2)).
  { rewrite X.
    replace (cp * sp * e * (pn * (e * e * (sp * sp * (cp * cp)) * (h * h)) * (w * w * w) * Z))
      with ((cp * sp * (sp * sp * (cp * cp))) * (A * cp * (e * e * e) * (h * h)) * (w * w * w * Z)) by (unfold pn; ring).
    replace (A ^ 8 * cp * (0.25 * z1 + 3.25 * z2)) with ((1 / 2 * (1 / 4)) * (A * cp * (e * e * e) * (h * h)) * (2 * e * Rabs h * (A * A * A) + 26 * (e * e) * (A * A * A * A))).
    - apply abs_mul_bd; [apply abs_mul_bd|exact ZB].
      + pose proof (mul_bd0 _ _ _ _ SC SC2). rewrite Rabs_pos_eq; lra.
      + rewrite Rabs_pos_eq; [apply Rle_refl|]. repeat (assumption || apply Rmult_le_pos); lra.
    - unfold z1, z2.
      transitivity (A ^ 4 * cp * (e * e * e * e) * (Rabs h * (h * h)) * 0.25 * ((A * k) * (A * k) * (A * k) * (A * k)) + A ^ 5 * cp * (e * e * e * e * e) * (h * h) * 3.25 * ((A * k) * (A * k) * (A * k))); [rewrite HK; lra|ring]. }
  unfold Rdiv. rewrite Rabs_mult, Rabs_inv, (Rabs_pos_eq (s1 * sp + cc * cp)) by lra.
  apply Rmult_le_reg_r with (s1 * sp + cc * cp); [lra|]. rewrite Rmult_assoc, Rinv_l, Rmult_1_r by lra.
  eapply Rle_trans; [exact N|].
  replace (0.3 * (e * e * e * e) * (Rabs h * (h * h)) * (k * k * k * k) + 3.8 * (e * e * e * e * e) * (h * h) * (k * k * k)) with (0.3 * z1 + 3.8 * z2) by (unfold z1, z2; ring).
  apply Rle_trans with ((0.3 * z1 + 3.8 * z2) * (0.86 * (A ^ 8 * cp))).
  - assert (0 <= z1 * (A ^ 8 * cp)) by (apply Rmult_le_pos; lra). assert (0 <= z2 * (A ^ 8 * cp)) by (apply Rmult_le_pos; lra). lra.
  - apply Rmult_le_compat_l; lra.
Qed.
