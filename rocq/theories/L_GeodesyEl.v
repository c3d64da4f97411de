(** * The geodetic coordinates of a point, any ellipsoid of flattening up to 0.006 and equatorial radius one, exact arithmetic

    As L_Geodesy, which is about WGS84. *)

From Coq Require Import ZArith Reals Lra Lia Psatz.
From Flocq Require Import Core.
From Verif Require Import Outcome Arith ArithR M_Common M_Ellipsoid Spec_Ell.
From Verif Require Import L_ArithR L_Frames L_Ellipsoid.
From Verif Require L_Apx L_ApxEl L_ApxGd L_Geodesy L_Halley.
Open Scope R_scope.

(** ** Two unit normals *)
Section Normals.
Variables k x y s x' y' s' : R.
Hypothesis K : 0.988 <= k <= 1.
Hypothesis E1 : x * x + y * y + s * s = 1.
Hypothesis E1' : x' * x' + y' * y' + s' * s' = 1.
Let d := x * x' + y * y' + s * s'.
Let dE := x * x' + y * y' + k * (s * s').
Variables g g' : R.
Hypothesis G : 0 < g.
Hypothesis G' : 0 < g'.
Hypothesis GG : g * g = x * x + y * y + k * (s * s).
Hypothesis GG' : g' * g' = x' * x' + y' * y' + k * (s' * s').

Lemma nn2 : (x - x') * (x - x') + (y - y') * (y - y') + (s - s') * (s - s') = 2 * (1 - d).
Proof. unfold d. lra. Qed.
Lemma d_le1 : 0 <= 1 - d.
Proof. pose proof nn2 as H. pose proof (Rle_0_sqr (x - x')). pose proof (Rle_0_sqr (y - y')). pose proof (Rle_0_sqr (s - s')). unfold Rsqr in *. lra. Qed.
Lemma g_bd : 0.99 <= g <= 1.
Proof.
  pose proof (Rle_0_sqr x). pose proof (Rle_0_sqr y). pose proof (Rle_0_sqr s). unfold Rsqr in *.
  assert (0.988 <= g * g <= 1) by nra. split; nra.
Qed.
Lemma g_bd' : 0.99 <= g' <= 1.
Proof.
  pose proof (Rle_0_sqr x'). pose proof (Rle_0_sqr y'). pose proof (Rle_0_sqr s'). unfold Rsqr in *.
  assert (0.988 <= g' * g' <= 1) by nra. split; nra.
Qed.

Lemma gg_low : 0.975 * (1 - d) <= g * g' - dE.
Proof.
  set (e2 := 1 - k). assert (H2 : 0 <= e2 <= 0.012) by (unfold e2; lra).
  set (w := 1 - e2 * (s * s')). set (m := e2 * ((s - s') * (s - s'))).
  pose proof (Rle_0_sqr x) as X1. pose proof (Rle_0_sqr y) as Y1. pose proof (Rle_0_sqr s) as S1. pose proof (Rle_0_sqr x') as X2. pose proof (Rle_0_sqr y') as Y2. pose proof (Rle_0_sqr s') as S2.
  pose proof (Rle_0_sqr (s - s')) as S3. pose proof (Rle_0_sqr (s + s')) as S4. unfold Rsqr in *.
  assert (SS : -1 <= s * s' <= 1) by lra. assert (S5 : 0 <= (s - s') * (s - s') <= 4) by lra.
  assert (W : 0.988 <= w <= 1.012) by (unfold w; assert (- 0.012 <= e2 * (s * s') <= 0.012) by nra; lra).
  assert (M : 0 <= m <= 0.048) by (unfold m; split; [apply Rmult_le_pos; lra|apply Rle_trans with (0.012 * 4); [apply Rmult_le_compat; lra|lra]]).
  assert (Q : (g * g') * (g * g') = w * w - m).
  { transitivity ((g * g) * (g' * g')); [ring|]. rewrite GG, GG'.
    replace (x * x + y * y + k * (s * s)) with (1 - e2 * (s * s)) by (unfold e2; lra). replace (x' * x' + y' * y' + k * (s' * s')) with (1 - e2 * (s' * s')) by (unfold e2; lra).
    unfold w, m. ring. }
  assert (L : w - 1.02 * m <= g * g').
  { apply Rnot_lt_le. intros L. assert (P : 0 < g * g') by (apply Rmult_lt_0_compat; lra).
    assert ((g * g') * (g * g') < (w - 1.02 * m) * (w - 1.02 * m)) by (apply Rmult_le_0_lt_compat; lra).
    assert (m * (1 + 1.05 * m - 2.04 * w) <= 0) by nra. nra. }
  assert (MD : m <= 0.024 * (1 - d)).
  { pose proof nn2 as N2. assert ((s - s') * (s - s') <= 2 * (1 - d)).
    { pose proof (Rle_0_sqr (x - x')). pose proof (Rle_0_sqr (y - y')). unfold Rsqr in *. lra. }
    unfold m. apply Rle_trans with (e2 * (2 * (1 - d))); [apply Rmult_le_compat_l; lra|]. pose proof d_le1. assert (e2 * (1 - d) <= 0.012 * (1 - d)) by (apply Rmult_le_compat_r; lra). lra. }
  assert (DE : dE = d - e2 * (s * s')) by (unfold dE, d, e2; ring). rewrite DE. unfold w in L. pose proof d_le1. lra.
Qed.

(** Two points on the normals, at heights h and h'. *)
Variables a h h' : R.
Hypothesis A0 : 0 < a.
Hypothesis H0 : - (0.9 * a) <= h.
Hypothesis H0' : - (0.9 * a) <= h'.
Let dx := (a / g + h) * x - (a / g' + h') * x'.
Let dy := (a / g + h) * y - (a / g' + h') * y'.
Let dz := (k * (a / g) + h) * s - (k * (a / g') + h') * s'.
Let D2 := dx * dx + dy * dy + dz * dz.

Lemma mono : (1.95 * a + h + h') * (1 - d) <= dx * (x - x') + dy * (y - y') + dz * (s - s').
Proof.
  pose proof g_bd as B. pose proof g_bd' as B'.
  assert (E : dx * (x - x') + dy * (y - y') + dz * (s - s') = a * ((/ g + / g') * (g * g' - dE)) + (h + h') * (1 - d)).
  { transitivity (a * ((g * g) / g + (g' * g') / g' - dE * (/ g + / g')) + (h + h') * (1 - d)).
    - rewrite GG, GG'. unfold dx, dy, dz, dE, d.
      transitivity (a * ((x * x + y * y + k * (s * s)) / g + (x' * x' + y' * y' + k * (s' * s')) / g' - (x * x' + y * y' + k * (s * s')) * (/ g + / g')) + h * (x * x + y * y + s * s) + h' * (x' * x' + y' * y' + s' * s') - (h + h') * (x * x' + y * y' + s * s')); [field; lra|].
      rewrite E1, E1'. ring.
    - f_equal. f_equal. field. lra. }
  rewrite E. pose proof gg_low as L. pose proof d_le1 as D1.
  assert (I : 2 <= / g + / g').
  { assert (1 <= / g) by (rewrite <- Rinv_1; apply Rinv_le; lra). assert (1 <= / g') by (rewrite <- Rinv_1; apply Rinv_le; lra). lra. }
  assert (2 * (0.975 * (1 - d)) <= (/ g + / g') * (g * g' - dE)) by (apply Rmult_le_compat; lra).
  assert (a * (2 * (0.975 * (1 - d))) <= a * ((/ g + / g') * (g * g' - dE))) by (apply Rmult_le_compat_l; lra).
  assert (0 <= a * (1 - d)) by (apply Rmult_le_pos; lra). lra.
Qed.

Lemma cs3 : forall p q r u v w, (p * u + q * v + r * w) * (p * u + q * v + r * w) <= (p * p + q * q + r * r) * (u * u + v * v + w * w).
Proof.
  intros p q r u v w. pose proof (Rle_0_sqr (p * v - q * u)). pose proof (Rle_0_sqr (p * w - r * u)). pose proof (Rle_0_sqr (q * w - r * v)). unfold Rsqr in *. lra.
Qed.

(** The directions differ by no more than the distance over the radius. *)
Lemma normal_lip : (0.975 * a + (h + h') / 2) * (0.975 * a + (h + h') / 2) * (2 * (1 - d)) <= D2.
Proof.
  set (c := 0.975 * a + (h + h') / 2). assert (C : 0 < c) by (unfold c; lra).
  pose proof mono as M. pose proof d_le1 as D1. pose proof (cs3 dx dy dz (x - x') (y - y') (s - s')) as CS. rewrite nn2 in CS.
  fold D2 in CS. set (u := dx * (x - x') + dy * (y - y') + dz * (s - s')) in *. set (q := 1 - d) in *. clearbody q u.
  assert (D0 : 0 <= D2) by (unfold D2; pose proof (Rle_0_sqr dx); pose proof (Rle_0_sqr dy); pose proof (Rle_0_sqr dz); unfold Rsqr in *; lra).
  assert (M2 : c * (2 * q) <= u) by (unfold c; lra).
  assert (M3 : c * (2 * q) * (c * (2 * q)) <= u * u) by (apply Rmult_le_compat; try lra; apply Rmult_le_pos; lra).
  destruct (Rle_lt_or_eq_dec 0 q D1) as [Q|Q]; [|rewrite <- Q; lra].
  apply Rmult_le_reg_r with (2 * q); [lra|]. lra.
Qed.

Lemma height_lip : h - h' <= sqrt D2 + Rabs h' * (1 - d).
Proof.
  pose proof g_bd as B. pose proof g_bd' as B'. pose proof d_le1 as D1.
  assert (E : dx * x + dy * y + dz * s = a * ((g * g' - dE) / g') + h - h' * d).
  { transitivity (a * ((g * g) / g - dE / g') + h - h' * d).
    - rewrite GG. unfold dx, dy, dz, dE, d.
      transitivity (a * ((x * x + y * y + k * (s * s)) / g - (x * x' + y * y' + k * (s * s')) / g') + h * (x * x + y * y + s * s) - h' * (x * x' + y * y' + s * s')); [field; lra|].
      rewrite E1. ring.
    - f_equal. f_equal. f_equal. field. lra. }
  assert (P : 0 <= a * ((g * g' - dE) / g')).
  { apply Rmult_le_pos; [lra|]. apply Rmult_le_pos; [pose proof gg_low; lra|apply Rlt_le, Rinv_0_lt_compat; lra]. }
  assert (CS : dx * x + dy * y + dz * s <= sqrt D2).
  { assert (D0 : 0 <= D2) by (unfold D2; pose proof (Rle_0_sqr dx); pose proof (Rle_0_sqr dy); pose proof (Rle_0_sqr dz); unfold Rsqr in *; lra).
    pose proof (cs3 dx dy dz x y s) as C. rewrite E1, Rmult_1_r in C. fold D2 in C.
    apply Rnot_lt_le. intros L. pose proof (sqrt_pos D2). pose proof (sqrt_sqrt D2 D0).
    assert (sqrt D2 * sqrt D2 < (dx * x + dy * y + dz * s) * (dx * x + dy * y + dz * s)) by (apply Rmult_le_0_lt_compat; lra). lra. }
  assert (HH : - (h' * (1 - d)) <= Rabs h' * (1 - d)).
  { pose proof (Rle_abs (- h')) as R. rewrite Rabs_Ropp in R. assert (- h' * (1 - d) <= Rabs h' * (1 - d)) by (apply Rmult_le_compat_r; lra). lra. }
  lra.
Qed.

End Normals.

(** ** The map *)
Section Unit.
Variable kf : R.
Hypothesis Hkf : 0 <= kf <= 0.006.
Local Notation kE := (L_ApxEl.kE kf).
Local Notation dist2 := L_Geodesy.dist2.
Local Notation zdot := L_Geodesy.zdot.
Local Notation unit_n := L_Geodesy.unit_n.
Local Notation zdot_le1 := L_Geodesy.zdot_le1.
Local Notation zdot_lat := L_Geodesy.zdot_lat.
Local Notation cos_1_angle := L_Geodesy.cos_1_angle.
Local Notation polar_exists := L_Geodesy.polar_exists.
Local Notation g_range := (L_ApxEl.g_range kf Hkf).
Local Notation div_le := L_ApxGd.div_le.

Definition gg (t : R) : R := sqrt (kE * kE * (sin t * sin t) + cos t * cos t).

Lemma k_sq : 0.988 <= kE * kE <= 1.
Proof. unfold L_ApxEl.kE. nra. Qed.

Lemma gg_sq : forall t, gg t * gg t = kE * kE * (sin t * sin t) + cos t * cos t.
Proof.
  intros t. apply sqrt_sqrt. pose proof (Rle_0_sqr (kE * sin t)). pose proof (Rle_0_sqr (cos t)). unfold Rsqr in *. lra.
Qed.

Lemma el_gg : forall lo la h, ellipsoid_at 1 kf lo la h = V3 (A := realA)
  ((1 / gg la + h) * (cos la * cos lo)) ((1 / gg la + h) * (cos la * sin lo)) ((kE * kE * (1 / gg la) + h) * sin la).
Proof.
  intros lo la h. unfold ellipsoid_at, gg. cbv zeta. change (1 - kf) with kE.
  replace (cos la ^ 2 + kE ^ 2 * sin la ^ 2) with (kE * kE * (sin la * sin la) + cos la * cos la) by ring.
  f_equal; ring.
Qed.



Lemma gg_n : forall lo la, gg la * gg la = cos la * cos lo * (cos la * cos lo) + cos la * sin lo * (cos la * sin lo) + kE * kE * (sin la * sin la).
Proof.
  intros lo la. rewrite gg_sq. transitivity (cos la * cos la * (sin lo * sin lo + cos lo * cos lo) + kE * kE * (sin la * sin la)); [rewrite sc1; ring|ring].
Qed.
Lemma gg_pos : forall t, 0 < gg t. Proof. intros t. pose proof (g_range t) as H. fold (gg t) in H. lra. Qed.


Lemma el_lip : forall lo la h lo' la' h', -0.89 <= h -> -0.89 <= h' ->
  let D2 := dist2 (ellipsoid_at 1 kf lo la h) (ellipsoid_at 1 kf lo' la' h') in let d := zdot lo la lo' la' in
  (0.974 + (h + h') / 2) ^ 2 * (2 * (1 - d)) <= D2 /\
  Rabs (h - h') <= sqrt D2 + Rmax (Rabs h) (Rabs h') * (1 - d).
Proof.
  intros lo la h lo' la' h' Hh Hh' D2 d.
  pose proof (zdot_le1 lo la lo' la') as D1. fold d in D1.
  assert (ED : D2 = ((1 / gg la + h) * (cos la * cos lo) - (1 / gg la' + h') * (cos la' * cos lo')) * ((1 / gg la + h) * (cos la * cos lo) - (1 / gg la' + h') * (cos la' * cos lo'))
     + ((1 / gg la + h) * (cos la * sin lo) - (1 / gg la' + h') * (cos la' * sin lo')) * ((1 / gg la + h) * (cos la * sin lo) - (1 / gg la' + h') * (cos la' * sin lo'))
     + ((kE * kE * (1 / gg la) + h) * sin la - (kE * kE * (1 / gg la') + h') * sin la') * ((kE * kE * (1 / gg la) + h) * sin la - (kE * kE * (1 / gg la') + h') * sin la')).
  { unfold D2, dist2. rewrite !el_gg. cbn [v0 v1 v2]. ring. }
  split.
  - pose proof (normal_lip _ _ _ _ _ _ _ k_sq (unit_n lo la) (unit_n lo' la') _ _ (gg_pos la) (gg_pos la') (gg_n lo la) (gg_n lo' la') 1 h h' ltac:(lra) ltac:(lra) ltac:(lra)) as L.
    cbv zeta in L. rewrite <- ED in L. fold (zdot lo la lo' la') in L. fold d in L. eapply Rle_trans; [|exact L].
    apply Rmult_le_compat_r; [lra|]. replace ((0.974 + (h + h') / 2) ^ 2) with ((0.974 + (h + h') / 2) * (0.974 + (h + h') / 2)) by ring. apply Rmult_le_compat; lra.
  - pose proof (height_lip _ _ _ _ _ _ _ k_sq (unit_n lo la) (unit_n lo' la') _ _ (gg_pos la) (gg_pos la') (gg_n lo la) (gg_n lo' la') 1 h h' ltac:(lra)) as L1.
    pose proof (height_lip _ _ _ _ _ _ _ k_sq (unit_n lo' la') (unit_n lo la) _ _ (gg_pos la') (gg_pos la) (gg_n lo' la') (gg_n lo la) 1 h' h ltac:(lra)) as L2.
    cbv zeta in L1, L2. rewrite <- ED in L1.
    match type of L2 with _ <= sqrt ?Q + _ => replace Q with D2 in L2 by (rewrite ED; ring) end.
    fold (zdot lo la lo' la') in L1. fold (zdot lo' la' lo la) in L2. fold d in L1. replace (zdot lo' la' lo la) with d in L2 by (unfold d, zdot; ring).
    pose proof (Rmax_l (Rabs h) (Rabs h')). pose proof (Rmax_r (Rabs h) (Rabs h')). set (m := Rmax (Rabs h) (Rabs h')) in *.
    assert (Rabs h * (1 - d) <= m * (1 - d)) by (apply Rmult_le_compat_r; lra). assert (Rabs h' * (1 - d) <= m * (1 - d)) by (apply Rmult_le_compat_r; lra).
    apply Rabs_le. lra.
Qed.



Lemma el_unique : forall lo la h lo' la' h', - PI < lo <= PI -> - PI < lo' <= PI ->
  - (PI / 2) <= la <= PI / 2 -> - (PI / 2) <= la' <= PI / 2 -> -0.89 <= h -> -0.89 <= h' ->
  ellipsoid_at 1 kf lo la h = ellipsoid_at 1 kf lo' la' h' -> la = la' /\ h = h' /\ (cos la <> 0 -> lo = lo').
Proof.
  intros lo la h lo' la' h' Hlo Hlo' Hla Hla' Hh Hh' E. pose proof PI_RGT_0 as P.
  destruct (el_lip lo la h lo' la' h' Hh Hh') as [L1 L2].
  assert (Z : dist2 (ellipsoid_at 1 kf lo la h) (ellipsoid_at 1 kf lo' la' h') = 0) by (rewrite E; unfold dist2; ring). rewrite Z in L1, L2. rewrite sqrt_0 in L2.
  pose proof (zdot_le1 lo la lo' la') as D1. set (d := zdot lo la lo' la') in *.
  assert (C : 0 < (0.974 + (h + h') / 2) ^ 2) by (apply pow_lt; lra).
  assert (D : 1 - d = 0) by nra. rewrite D in L2. rewrite Rmult_0_r, Rplus_0_r in L2.
  assert (LA : la - la' = 0) by (apply cos_1_angle; [lra|]; pose proof (zdot_lat lo la lo' la' Hla Hla') as Q; fold d in Q; lra).
  split; [lra|]. split; [assert (h - h' = 0) by (pose proof (Rabs_pos (h - h')); apply Rabs_le_inv in L2; lra); lra|].
  intros CN. assert (EL : la' = la) by lra. subst la'.
  assert (CP : 0 < cos la) by (assert (0 <= cos la) by (apply cos_ge_0; lra); lra).
  assert (CL : cos (lo - lo') = 1).
  { assert (Q : d = cos la * cos la * cos (lo - lo') + sin la * sin la) by (unfold d, zdot; rewrite cos_minus; ring).
    pose proof (sc1 la). assert (cos la * cos la * (cos (lo - lo') - 1) = 0) by lra. assert (0 < cos la * cos la) by (apply Rmult_lt_0_compat; lra). nra. }
  apply same_point_same_angle; [lra| |].
  - assert (S : sin (lo - lo') = 0) by (pose proof (sc1 (lo - lo')) as Q; rewrite CL in Q; nra).
    replace lo with ((lo - lo') + lo') by ring. rewrite cos_plus, CL, S. ring.
  - assert (S : sin (lo - lo') = 0) by (pose proof (sc1 (lo - lo')) as Q; rewrite CL in Q; nra).
    replace lo with ((lo - lo') + lo') by ring. rewrite sin_plus, CL, S. ring.
Qed.

(** ** Existence *)
Lemma gg_cont : continuity gg.
Proof.
  intros t. unfold gg. apply (continuity_pt_comp (fun t => kE * kE * (sin t * sin t) + cos t * cos t) sqrt).
  - pose proof (continuity_sin t) as S. pose proof (continuity_cos t) as C.
    apply (continuity_pt_plus (fun t => kE * kE * (sin t * sin t)) (fun t => cos t * cos t)).
    + apply (continuity_pt_mult (fun _ => kE * kE) (fun t => sin t * sin t)); [apply continuity_pt_const; intros ? ?; reflexivity|apply (continuity_pt_mult sin sin); assumption].
    + apply (continuity_pt_mult cos cos); assumption.
  - apply continuity_pt_sqrt. rewrite <- gg_sq. apply Rle_0_sqr.
Qed.

Lemma meridian_exists : forall N S, 0 <= N -> 0 <= S -> exists t h, 0 <= t <= PI / 2 /\ - (1) <= h /\
  N = (1 / gg t + h) * cos t /\ S = (kE * kE * (1 / gg t) + h) * sin t.
Proof.
  intros N S HN HS. pose proof PI_RGT_0 as P.
  set (F := fun t => S * cos t - N * sin t + (1 - kE * kE) * 1 * (sin t * cos t / gg t)).
  assert (FC : continuity F).
  { intros t. pose proof (continuity_sin t) as Sn. pose proof (continuity_cos t) as C. unfold F.
    assert (K : forall c : R, continuity_pt (fun _ => c) t) by (intros c; apply continuity_pt_const; intros ? ?; reflexivity).
    apply (continuity_pt_plus (fun t => S * cos t - N * sin t) (fun t => (1 - kE * kE) * 1 * (sin t * cos t / gg t))).
    - apply (continuity_pt_minus (fun t => S * cos t) (fun t => N * sin t)).
      + apply (continuity_pt_mult (fun _ => S) cos); [apply K|exact C].
      + apply (continuity_pt_mult (fun _ => N) sin); [apply K|exact Sn].
    - apply (continuity_pt_mult (fun _ => (1 - kE * kE) * 1) (fun t => sin t * cos t / gg t)); [apply K|].
      apply (continuity_pt_div (fun t => sin t * cos t) gg); [apply (continuity_pt_mult sin cos); assumption|apply gg_cont|pose proof (gg_pos t); lra]. }
  destruct (IVT_cor F 0 (PI / 2) FC) as (t & Ht & Zt); [lra| |].
  { unfold F. rewrite sin_0, cos_0, sin_PI2, cos_PI2. replace (S * 1 - N * 0 + (1 - kE * kE) * 1 * (0 * 1 / gg 0)) with S by (field; pose proof (gg_pos 0); lra).
    replace (S * 0 - N * 1 + (1 - kE * kE) * 1 * (1 * 0 / gg (PI / 2))) with (- N) by (field; pose proof (gg_pos (PI / 2)); lra). assert (0 <= S * N) by (apply Rmult_le_pos; assumption). lra. }
  unfold F in Zt. pose proof (gg_pos t) as G. pose proof (g_range t) as GR. fold (gg t) in GR. pose proof (gg_sq t) as GS. pose proof (sc1 t) as T.
  exists t, (N * cos t + S * sin t - 1 * gg t). split; [exact Ht|].
  assert (C0 : 0 <= cos t) by (apply cos_ge_0; lra). assert (S0 : 0 <= sin t) by (apply sin_ge_0; lra).
  split; [assert (0 <= N * cos t) by (apply Rmult_le_pos; assumption); assert (0 <= S * sin t) by (apply Rmult_le_pos; assumption); lra|].
  set (z := S * cos t - N * sin t) in *.
  assert (EZ : z = - ((1 - kE * kE) * 1 * (sin t * cos t / gg t))) by lra.
  split.
  - transitivity (N * (sin t * sin t + cos t * cos t)); [rewrite T; ring|].
    transitivity ((N * cos t + S * sin t) * cos t - z * sin t); [unfold z; ring|]. rewrite EZ.
    transitivity ((N * cos t + S * sin t - 1 * gg t) * cos t + 1 * cos t * (gg t * gg t + (1 - kE * kE) * (sin t * sin t)) / gg t); [field; lra|].
    rewrite GS. replace (kE * kE * (sin t * sin t) + cos t * cos t + (1 - kE * kE) * (sin t * sin t)) with (sin t * sin t + cos t * cos t) by ring. rewrite T. field. lra.
  - transitivity (S * (sin t * sin t + cos t * cos t)); [rewrite T; ring|].
    transitivity ((N * cos t + S * sin t) * sin t + z * cos t); [unfold z; ring|]. rewrite EZ.
    transitivity ((N * cos t + S * sin t - 1 * gg t) * sin t + 1 * sin t * (gg t * gg t - (1 - kE * kE) * (cos t * cos t)) / gg t); [field; lra|].
    rewrite GS. replace (kE * kE * (sin t * sin t) + cos t * cos t - (1 - kE * kE) * (cos t * cos t)) with (kE * kE * (sin t * sin t + cos t * cos t)) by ring. rewrite T. field. lra.
Qed.


Lemma el_exists : forall X Y Z, 0.92 <= sqrt (X ^ 2 + Y ^ 2 + Z ^ 2) -> exists lo la h,
  - PI < lo <= PI /\ - (PI / 2) <= la <= PI / 2 /\ -0.083 <= h <= sqrt (X ^ 2 + Y ^ 2 + Z ^ 2) /\ ellipsoid_at 1 kf lo la h = V3 (A := realA) X Y Z.
Proof.
  intros X Y Z HR. pose proof PI_RGT_0 as P. destruct (polar_exists X Y) as (lo & Hlo & EX & EY).
  set (N := sqrt (X * X + Y * Y)) in *. assert (N0 : 0 <= N) by apply sqrt_pos.
  destruct (meridian_exists N (Rabs Z) N0 (Rabs_pos Z)) as (t & h & Ht & Hh & EN & ES).
  set (la := if Rlt_dec Z 0 then - t else t).
  exists lo, la, h. split; [exact Hlo|].
  assert (EW : ellipsoid_at 1 kf lo la h = V3 (A := realA) X Y Z).
  { rewrite el_gg. unfold la. destruct (Rlt_dec Z 0) as [L|L].
    - rewrite Rabs_left in ES by exact L. unfold gg in *. rewrite sin_neg, cos_neg. replace (- sin t * - sin t) with (sin t * sin t) by ring.
      f_equal; [rewrite EX, EN; ring|rewrite EY, EN; ring|]. replace Z with (- (- Z)) by ring. rewrite ES. ring.
    - rewrite Rabs_pos_eq in ES by lra. f_equal; [rewrite EX, EN; ring|rewrite EY, EN; ring|]. rewrite ES. reflexivity. }
  split; [unfold la; destruct (Rlt_dec Z 0); lra|]. split; [|exact EW].
  (* the height from the distance *)
  set (g := gg t) in *. pose proof (gg_sq t) as GS. fold g in GS. pose proof (g_range t) as GR. fold (gg t) in GR. fold g in GR. pose proof (sc1 t) as T. pose proof k_sq as K.
  assert (RR : X ^ 2 + Y ^ 2 + Z ^ 2 = 1 / g * (1 / g) * (cos t * cos t + kE * kE * (kE * kE) * (sin t * sin t)) + 2 * h * (1 * g) + h * h).
  { assert (NN : N * N = X * X + Y * Y) by (apply sqrt_sqrt; pose proof (Rle_0_sqr X); pose proof (Rle_0_sqr Y); unfold Rsqr in *; lra).
    assert (ZZ : Rabs Z * Rabs Z = Z * Z) by (rewrite <- Rabs_mult; apply Rabs_pos_eq, Rle_0_sqr).
    transitivity (N * N + Rabs Z * Rabs Z); [rewrite NN, ZZ; ring|]. rewrite EN, ES.
    transitivity (1 / g * (1 / g) * (cos t * cos t + kE * kE * (kE * kE) * (sin t * sin t)) + 2 * h * (1 / g * (kE * kE * (sin t * sin t) + cos t * cos t)) + h * h * (sin t * sin t + cos t * cos t)); [ring|].
    rewrite T, <- GS. field. lra. }
  set (v := 1 / g * (1 / g) * (cos t * cos t + kE * kE * (kE * kE) * (sin t * sin t))) in *.
  assert (V : 0.988 * (1 * 1) <= v <= 1 * 1).
  { pose proof (Rle_0_sqr (sin t)) as A. pose proof (Rle_0_sqr (cos t)) as B. unfold Rsqr in A, B.
    set (s2 := sin t * sin t) in *. set (c2 := cos t * cos t) in *. clearbody s2 c2. set (k := kE * kE) in *. clearbody k.
    assert (EV : v = 1 * 1 * ((c2 + k * k * s2) / (k * s2 + c2))) by (unfold v; rewrite <- GS; field; lra).
    assert (D0 : 0 < k * s2 + c2) by (rewrite <- GS; apply Rmult_lt_0_compat; lra).
    assert (Q : k <= (c2 + k * k * s2) / (k * s2 + c2) <= 1).
    { assert (KK : k * k <= k) by nra. assert (K1 : k * k * s2 <= k * s2) by (apply Rmult_le_compat_r; lra). assert (K2 : k * c2 <= c2) by nra.
      split; [|apply div_le; lra]. apply (Rmult_le_reg_r (k * s2 + c2)); [exact D0|]. unfold Rdiv. rewrite Rmult_assoc, Rinv_l, Rmult_1_r by lra. lra. }
    rewrite EV. lra. }
  clearbody v. set (r := sqrt (X ^ 2 + Y ^ 2 + Z ^ 2)) in *.
  assert (R2 : r * r = X ^ 2 + Y ^ 2 + Z ^ 2) by (apply sqrt_sqrt; pose proof (pow2_ge_0 X); pose proof (pow2_ge_0 Y); pose proof (pow2_ge_0 Z); lra).
  rewrite RR in R2. assert (RL : 0.92 * 0.92 <= r * r) by (apply Rmult_le_compat; lra).
  assert (GE : 0.9939 <= g).
  { apply Rnot_lt_le. intros L. assert (Q : g * g < 0.9939 * 0.9939) by (apply Rmult_le_0_lt_compat; lra).
    pose proof (Rle_0_sqr (sin t)) as A. pose proof (Rle_0_sqr (cos t)) as B. unfold Rsqr in A, B.
    assert (0.988 * (sin t * sin t) <= kE * kE * (sin t * sin t)) by (apply Rmult_le_compat_r; lra). lra. }
  assert (Hg : 1 * 0.9939 <= 1 * g <= 1) by lra. set (b := 1 * g) in *.
  clear -HR Hh Hg V R2 RL. clearbody b r. split; apply Rnot_lt_le; intros L.
  - (* h in [-a, -0.083] *)
    assert (Q : (- h - 0.083) * (h - 0.083 + 2 * b) >= 0) by (apply Rle_ge, Rmult_le_pos; lra).
    lra.
  - assert (r * r <= h * h) by (apply Rmult_le_compat; lra). assert (0 <= h * b) by (apply Rmult_le_pos; lra). lra.
Qed.

(** ** The map is Lipschitz *)
Lemma gg_inv_lip : forall t t' p p', Rabs p' <= 1 -> Rabs (p - p') <= Rabs (t - t') -> Rabs (p / gg t - p' / gg t') <= 1.026 * Rabs (t - t').
Proof.
  intros t t' p p' Hp L. pose proof (gg_pos t) as G. pose proof (gg_pos t') as G'. pose proof (g_range t) as R. pose proof (g_range t') as R'. fold (gg t) in R. fold (gg t') in R'.
  pose proof (gg_sq t) as Q. pose proof (gg_sq t') as Q'. pose proof k_sq as K.
  set (e := Rabs (t - t')) in *. assert (e0 : 0 <= e) by apply Rabs_pos.
  assert (DG : (gg t' - gg t) * (gg t' + gg t) = (1 - kE * kE) * ((sin t - sin t') * (sin t + sin t'))).
  { transitivity (gg t' * gg t' - gg t * gg t); [ring|]. rewrite Q, Q'. pose proof (sc1 t). pose proof (sc1 t').
    replace (cos t * cos t) with (1 - sin t * sin t) by lra. replace (cos t' * cos t') with (1 - sin t' * sin t') by lra. ring. }
  assert (DB : Rabs (gg t' - gg t) <= 0.0123 * e).
  { assert (B : Rabs ((gg t' - gg t) * (gg t' + gg t)) <= 0.012 * (e * 2)).
    { rewrite DG. apply L_Halley.abs_mul_bd; [rewrite Rabs_pos_eq; lra|]. apply L_Halley.abs_mul_bd; [apply L_Apx.sin_lip|]. pose proof (SIN_bound t). pose proof (SIN_bound t'). apply Rabs_le. lra. }
    rewrite Rabs_mult, (Rabs_pos_eq (gg t' + gg t)) in B by lra. assert (0 <= Rabs (gg t' - gg t)) by apply Rabs_pos.
    assert (Rabs (gg t' - gg t) * 1.98 <= Rabs (gg t' - gg t) * (gg t' + gg t)) by (apply Rmult_le_compat_l; lra). lra. }
  replace (p / gg t - p' / gg t') with ((p - p') * / gg t + p' * (gg t' - gg t) * (/ gg t * / gg t')) by (field; lra).
  assert (I : 0 < / gg t <= / 0.99) by (split; [apply Rinv_0_lt_compat; lra|apply Rinv_le; lra]).
  assert (I' : 0 < / gg t' <= / 0.99) by (split; [apply Rinv_0_lt_compat; lra|apply Rinv_le; lra]).
  assert (A1 : Rabs ((p - p') * / gg t) <= e * / 0.99) by (apply L_Halley.abs_mul_bd; [exact L|rewrite Rabs_pos_eq; lra]).
  assert (A2 : Rabs (p' * (gg t' - gg t) * (/ gg t * / gg t')) <= 1 * (0.0123 * e) * (/ 0.99 * / 0.99)).
  { apply L_Halley.abs_mul_bd; [apply L_Halley.abs_mul_bd; assumption|]. apply L_Halley.abs_mul_bd; rewrite Rabs_pos_eq; lra. }
  eapply Rle_trans; [apply Rabs_triang|]. lra.
Qed.

Lemma el_fwd : forall lo la h lo' la' h',
  let e := (1.026 * 1 + Rabs h) * Rabs (la' - la) + Rabs (h' - h) in
  let w := ellipsoid_at 1 kf lo la h in let w' := ellipsoid_at 1 kf lo' la' h' in let n := Rabs ((1 / gg la + h) * cos la) in
  Rabs (v0 (A := realA) w' - v0 (A := realA) w) <= e + n * Rabs (cos lo' - cos lo) /\
  Rabs (v1 (A := realA) w' - v1 (A := realA) w) <= e + n * Rabs (sin lo' - sin lo) /\
  Rabs (v2 (A := realA) w' - v2 (A := realA) w) <= e.
Proof.
  intros lo la h lo' la' h' e w w' n. unfold w, w'. rewrite !el_gg. cbn [v0 v1 v2].
  set (dl := Rabs (la' - la)) in *. assert (D0 : 0 <= dl) by apply Rabs_pos.
  assert (CH : forall p p', Rabs p <= 1 -> Rabs p' <= 1 -> Rabs (p' - p) <= dl -> Rabs (h' * p' - h * p) <= Rabs h * dl + Rabs (h' - h)).
  { intros p p' Hp Hp' L. replace (h' * p' - h * p) with (h * (p' - p) + (h' - h) * p') by ring. eapply Rle_trans; [apply Rabs_triang|].
    apply Rplus_le_compat; [apply L_Halley.abs_mul_bd; [apply Rle_refl|exact L]|].
    rewrite <- (Rmult_1_r (Rabs (h' - h))). apply L_Halley.abs_mul_bd; [apply Rle_refl|exact Hp']. }
  assert (CB : forall t, Rabs (cos t) <= 1) by (intros t; apply Rabs_le; pose proof (COS_bound t); lra).
  assert (SB : forall t, Rabs (sin t) <= 1) by (intros t; apply Rabs_le; pose proof (SIN_bound t); lra).
  pose proof (gg_pos la) as G. pose proof (gg_pos la') as G'. pose proof k_sq as K.
  assert (EN : Rabs ((1 / gg la' + h') * cos la' - (1 / gg la + h) * cos la) <= e).
  { replace ((1 / gg la' + h') * cos la' - (1 / gg la + h) * cos la) with (1 * (cos la' / gg la' - cos la / gg la) + (h' * cos la' - h * cos la)) by (field; lra).
    eapply Rle_trans; [apply Rabs_triang|]. rewrite Rabs_mult, (Rabs_pos_eq 1) by lra.
    pose proof (gg_inv_lip la' la (cos la') (cos la) (CB la) (L_Apx.cos_lip la' la)) as A. fold dl in A.
    pose proof (CH (cos la) (cos la') (CB _) (CB _) (L_Apx.cos_lip la' la)) as B. unfold e. lra. }
  assert (ES : Rabs ((kE * kE * (1 / gg la') + h') * sin la' - (kE * kE * (1 / gg la) + h) * sin la) <= e).
  { replace ((kE * kE * (1 / gg la') + h') * sin la' - (kE * kE * (1 / gg la) + h) * sin la) with (kE * kE * 1 * (sin la' / gg la' - sin la / gg la) + (h' * sin la' - h * sin la)) by (field; lra).
    eapply Rle_trans; [apply Rabs_triang|]. rewrite Rabs_mult, (Rabs_pos_eq (kE * kE * 1)) by lra.
    pose proof (gg_inv_lip la' la (sin la') (sin la) (SB la) (L_Apx.sin_lip la' la)) as A. fold dl in A.
    pose proof (CH (sin la) (sin la') (SB _) (SB _) (L_Apx.sin_lip la' la)) as B. unfold e.
    pose proof (Rabs_pos (sin la' / gg la' - sin la / gg la)).
    assert (kE * kE * 1 * Rabs (sin la' / gg la' - sin la / gg la) <= 1 * (1.026 * dl)) by (apply Rmult_le_compat; lra). lra. }
  assert (XY : forall q q', Rabs q' <= 1 -> Rabs ((1 / gg la' + h') * (cos la' * q') - (1 / gg la + h) * (cos la * q)) <= e + n * Rabs (q' - q)).
  { intros q q' Hq.
    replace ((1 / gg la' + h') * (cos la' * q') - (1 / gg la + h) * (cos la * q))
      with (((1 / gg la' + h') * cos la' - (1 / gg la + h) * cos la) * q' + (1 / gg la + h) * cos la * (q' - q)) by ring.
    eapply Rle_trans; [apply Rabs_triang|]. apply Rplus_le_compat.
    - rewrite <- (Rmult_1_r e). apply L_Halley.abs_mul_bd; assumption.
    - rewrite Rabs_mult. apply Rle_refl. }
  split; [apply XY, CB|]. split; [apply XY, SB|exact ES].
Qed.

(** The distance from the centre. *)
Lemma el_low : forall lo la h, -0.083 <= h ->
  let w := ellipsoid_at 1 kf lo la h in let r := sqrt (v0 (A := realA) w ^ 2 + v1 (A := realA) w ^ 2 + v2 (A := realA) w ^ 2) in
  (-0.0626 <= h -> 0.93 <= r).
Proof.
  intros lo t h Hh w r. set (g := gg t). pose proof (gg_sq t) as GS. fold g in GS. pose proof (g_range t) as GR. fold (gg t) in GR. fold g in GR. pose proof (sc1 t) as T. pose proof k_sq as K.
  assert (RR : v0 (A := realA) w ^ 2 + v1 (A := realA) w ^ 2 + v2 (A := realA) w ^ 2 = 1 / g * (1 / g) * (cos t * cos t + kE * kE * (kE * kE) * (sin t * sin t)) + 2 * h * (1 * g) + h * h).
  { unfold w. rewrite el_gg. cbn [v0 v1 v2]. fold g.
    transitivity ((1 / g + h) * (1 / g + h) * (cos t * cos t) * (sin lo * sin lo + cos lo * cos lo) + (kE * kE * (1 / g) + h) * (kE * kE * (1 / g) + h) * (sin t * sin t)); [ring|]. rewrite sc1.
    transitivity (1 / g * (1 / g) * (cos t * cos t + kE * kE * (kE * kE) * (sin t * sin t)) + 2 * h * (1 / g * (kE * kE * (sin t * sin t) + cos t * cos t)) + h * h * (sin t * sin t + cos t * cos t)); [ring|].
    rewrite T, <- GS. field. lra. }
  set (v := 1 / g * (1 / g) * (cos t * cos t + kE * kE * (kE * kE) * (sin t * sin t))) in *.
  assert (V : 0.988 * (1 * 1) <= v).
  { pose proof (Rle_0_sqr (sin t)) as A. pose proof (Rle_0_sqr (cos t)) as B. unfold Rsqr in A, B.
    set (s2 := sin t * sin t) in *. set (c2 := cos t * cos t) in *. clearbody s2 c2. set (k := kE * kE) in *. clearbody k.
    assert (EV : v = 1 * 1 * ((c2 + k * k * s2) / (k * s2 + c2))) by (unfold v; rewrite <- GS; field; lra).
    assert (D0 : 0 < k * s2 + c2) by (rewrite <- GS; apply Rmult_lt_0_compat; lra).
    assert (Q : k <= (c2 + k * k * s2) / (k * s2 + c2)).
    { assert (K2 : k * c2 <= c2) by nra. apply (Rmult_le_reg_r (k * s2 + c2)); [exact D0|]. unfold Rdiv. rewrite Rmult_assoc, Rinv_l, Rmult_1_r by lra. lra. }
    rewrite EV. lra. }
  clearbody v. unfold r. rewrite RR.
  assert (Hg : 1 * 0.99 <= 1 * g <= 1) by lra. set (b := 1 * g) in *. clearbody b. clear -Hh V Hg. intros L.
  rewrite <- (sqrt_square 0.93) by lra. apply sqrt_le_1_alt. destruct (Rle_or_lt 0 h) as [P|P].
    + assert (0 <= h * b) by (apply Rmult_le_pos; lra). pose proof (Rle_0_sqr h). unfold Rsqr in *. lra.
    + assert (- h * b <= - h * 1) by (apply Rmult_le_compat_l; lra).
      assert (0 <= (h + 0.0626) * (2 * 1 - 0.0626 + h)) by (apply Rmult_le_pos; lra). lra.
Qed.

End Unit.
