(** * Accuracy of the angle between vectors and of rotations in binary64: C33, C34 *)

From Coq Require Import ZArith Reals Lra Lia Bool List Psatz.
From Flocq Require Import Core BinarySingleNaN.
From Verif Require Import Outcome Arith ArithR ArithF Spec_Float Spec_Accuracy M_Common Spec_Matrix.
From Verif Require Import L_ArithF L_ArithR L_Flit L_Matrix L_PMatrix L_Apx L_Fro L_ApxFrames L_ApxVec L_PAccSun L_Ellipsoid.
Import ListNotations.
Open Scope R_scope.

(** Arc cosine: from an error of the cosine to an error of the angle. *)
Lemma acos_near : forall y th, 0 <= y <= PI -> 0 <= th <= PI -> Rabs (cos y - cos th) <= 4.1 / 10 ^ 15 ->
  Rabs (y - th) <= 1.1 / 10 ^ 7 /\ (1 / 10 ^ 6 <= sin th -> Rabs (y - th) * sin th <= 4.5 / 10 ^ 15).
Proof.
  intros y th Hy Ht E.
  pose proof (cos_far y th (1.1 / 10 ^ 7) _ Hy Ht ltac:(lra) E ltac:(lra)) as C.
  split; [exact C|]. intros ST.
  set (d := y - th) in *. replace y with (th + d) in E by (unfold d; ring). rewrite cos_plus in E.
  pose proof (Rabs_pos d) as D0.
  assert (KC : 0 <= 1 - cos d <= Rabs d * Rabs d / 2).
  { assert (Ec : cos d = 1 - 2 * (sin (d / 2) * sin (d / 2))).
    { replace d with (2 * (d / 2)) at 1 by field. rewrite cos_2a_sin. ring. }
    pose proof (Rle_0_sqr (sin (d / 2))) as Q. unfold Rsqr in Q. rewrite Ec. split; [lra|].
    pose proof (L_Epv.sin_abs_le (d / 2)) as S. assert (Q2 : sin (d / 2) * sin (d / 2) = Rabs (sin (d / 2)) * Rabs (sin (d / 2))) by (rewrite <- Rabs_mult; symmetry; apply Rabs_pos_eq, Rle_0_sqr).
    replace (Rabs (d / 2)) with (Rabs d / 2) in S by (unfold Rdiv; rewrite Rabs_mult, (Rabs_pos_eq (/ 2)) by lra; reflexivity).
    pose proof (Rabs_pos (sin (d / 2))). rewrite Q2. nra. }
  assert (KS : Rabs d - Rabs d * Rabs d * Rabs d / 6 <= Rabs (sin d)).
  { assert (G : forall w, 0 <= w <= 1 -> w - w * w * w / 6 <= Rabs (sin w)) by (intros w Hw; pose proof (sin_cubic w Hw); pose proof (Rle_abs (sin w)); lra).
    unfold Rabs at 1 2 3 4. destruct (Rcase_abs d) as [N|N].
    - rewrite Rabs_left in C by exact N. specialize (G (- d) ltac:(lra)). rewrite sin_neg, Rabs_Ropp in G. exact G.
    - rewrite Rabs_right in C by exact N. apply (G d). lra. }
  assert (KE : sin th * Rabs (sin d) <= 4.1 / 10 ^ 15 + (1 - cos d)).
  { replace (sin th * Rabs (sin d)) with (Rabs (sin th * sin d)) by (rewrite Rabs_mult, (Rabs_pos_eq (sin th)) by lra; reflexivity).
    replace (sin th * sin d) with (- (cos th * cos d - sin th * sin d - cos th) + cos th * (cos d - 1)) by ring.
    eapply Rle_trans; [apply Rabs_triang|]. rewrite Rabs_Ropp. apply Rplus_le_compat; [exact E|].
    rewrite Rabs_mult. pose proof (L_SeriesR.cos_abs th). rewrite (Rabs_left1 (cos d - 1)) by lra. pose proof (Rabs_pos (cos th)). nra. }
  pose proof (L_SeriesR.sin_abs th) as SA. pose proof (Rle_abs (sin th)) as SB.
  set (x := Rabs d) in *. clearbody x. set (sd := Rabs (sin d)) in *. clearbody sd. clear E. set (q := sin th) in *. clearbody q. set (w := cos d) in *. clearbody w.
  assert (X2 : x * x <= 1.1 / 10 ^ 7 * x) by nra.
  assert (X4 : x * x * x <= 1 / 10 ^ 6 * x) by (assert (x * x * x <= 1.1 / 10 ^ 7 * x * x) by nra; nra).
  assert (X3 : 5.5 / 10 ^ 8 * x <= 0.055 * (x * q)).
  { assert (x * (1 / 10 ^ 6) <= x * q) by (apply Rmult_le_compat_l; assumption). lra. }
  assert (X5 : q * (x - 1 / 10 ^ 6 * x) <= q * sd) by (apply Rmult_le_compat_l; lra).
  assert (X6 : q * (x - 1 / 10 ^ 6 * x) = x * q - 1 / 10 ^ 6 * (x * q)) by ring.
  set (xq := x * q) in *. clearbody xq. lra.
Qed.

(** C34 in binary64: for vectors with no component above 2^500 and of length at
    least 2^-400, the argument given to acos is within 4.1e-15 of the cosine of the
    angle (so at most 1 + 4.1e-15); when it does not exceed 1 in magnitude the
    result is within 1.2e-7 rad of the angle; and for angles whose sine is at least
    1e-6 it never does, and the result is within 5e-15 / sin(angle). *)
Lemma C34_angle_accuracy_b64_partial_pf : forall lm, good_libm lm -> forall (a b : vec3 (b64A lm)) th,
  (forall i, fin (vget (A := b64A lm) a i) = true /\ Rabs (B2R (vget (A := b64A lm) a i)) <= bpow radix2 500) ->
  (forall i, fin (vget (A := b64A lm) b i) = true /\ Rabs (B2R (vget (A := b64A lm) b i)) <= bpow radix2 500) ->
  let la := R_sqrt.sqrt (B2R (v0 a) ^ 2 + B2R (v1 a) ^ 2 + B2R (v2 a) ^ 2) in
  let lb := R_sqrt.sqrt (B2R (v0 b) ^ 2 + B2R (v1 b) ^ 2 + B2R (v2 b) ^ 2) in
  bpow radix2 (-400) <= la -> bpow radix2 (-400) <= lb -> 0 <= th <= PI ->
  B2R (v0 a) * B2R (v0 b) + B2R (v1 a) * B2R (v1 b) + B2R (v2 a) * B2R (v2 b) = la * lb * cos th ->
  let c := vdot (A := b64A lm) (vnormalize (A := b64A lm) a) (vnormalize (A := b64A lm) b) in
  near c (cos th) (4.1 / 10 ^ 15) /\
  (-1 <= B2R c <= 1 -> near (vangle (A := b64A lm) a b) th (1.2 / 10 ^ 7)) /\
  (1 / 10 ^ 6 <= sin th -> near (vangle (A := b64A lm) a b) th (5 / 10 ^ 15 / sin th)).
Proof.
  intros lm G a b th Ha Hb la lb La Lb Ht ET.
  destruct (C63_norm_accuracy_b64_pf lm a Ha La) as (_ & _ & Na). fold la in Na.
  destruct (C63_norm_accuracy_b64_pf lm b Hb Lb) as (_ & _ & Nb). fold lb in Nb.
  pose proof (bpow_gt_0 radix2 (-400)) as P4. assert (La0 : 0 < la) by lra. assert (Lb0 : 0 < lb) by lra.
  set (x := vnormalize (A := b64A lm) a) in *. set (y := vnormalize (A := b64A lm) b) in *.
  set (p := fun i => B2R (vget (A := b64A lm) a i) / la). set (q := fun i => B2R (vget (A := b64A lm) b i) / lb).
  assert (UN : forall (v : vec3 (b64A lm)) l, 0 < l -> l = R_sqrt.sqrt (B2R (v0 v) ^ 2 + B2R (v1 v) ^ 2 + B2R (v2 v) ^ 2) ->
    hl (fun i => B2R (vget (A := b64A lm) v i) / l) = 1).
  { intros v l L0 EL. 
    assert (S : l * l = B2R (v0 v) ^ 2 + B2R (v1 v) ^ 2 + B2R (v2 v) ^ 2).
    { rewrite EL. apply sqrt_def. pose proof (pow2_ge_0 (B2R (v0 v))). pose proof (pow2_ge_0 (B2R (v1 v))). pose proof (pow2_ge_0 (B2R (v2 v))). lra. }
    pose proof (hl_sq (fun i => B2R (vget (A := b64A lm) v i) / l)) as Q. pose proof (hl_nonneg (fun i => B2R (vget (A := b64A lm) v i) / l)) as N.
    set (w := hl _) in *. clearbody w. cbn [vget] in Q.
    set (u0 := B2R (v0 v)) in *. set (u1 := B2R (v1 v)) in *. set (u2 := B2R (v2 v)) in *. clearbody u0 u1 u2.
    assert (Q2 : w * w = 1).
    { rewrite Q. transitivity ((u0 ^ 2 + u1 ^ 2 + u2 ^ 2) / (l * l)); [field; lra|]. rewrite <- S. field. lra. }
    nra. }
  assert (Up : hl p = 1) by (apply UN; [exact La0|reflexivity]). assert (Uq : hl q = 1) by (apply UN; [exact Lb0|reflexivity]).
  assert (P50 : bpow radix2 (-50) <= 8.89 / 10 ^ 16) by (change (bpow radix2 (-50)) with (/ 1125899906842624); lra).
  assert (Ea : hl (fun i => cF x i - p i) <= 1.7321 * (8.89 / 10 ^ 16)).
  { apply hl_comp. intros i. eapply Rle_trans; [apply Na|exact P50]. }
  assert (Eb : hl (fun i => cF y i - q i) <= 1.7321 * (8.89 / 10 ^ 16)).
  { apply hl_comp. intros i. eapply Rle_trans; [apply Nb|exact P50]. }
  assert (BX : hl (cF x) <= 1.0001).
  { pose proof (hl_tri (fun i => cF x i - p i) p) as T. rewrite (hl_ext _ (cF x)) in T by (intros; ring). lra. }
  assert (BY : hl (cF y) <= 1.0001).
  { pose proof (hl_tri (fun i => cF y i - q i) q) as T. rewrite (hl_ext _ (cF y)) in T by (intros; ring). lra. }
  destruct (vdot_ok lm G x y (fun i => proj1 (Na i)) (fun i => proj1 (Nb i))) as [FD ED].
  { intros i. pose proof (hl_ge (cF x) i). lra. }
  { intros i. pose proof (hl_ge (cF y) i). lra. }
  assert (EV : vangle (A := b64A lm) a b = lm_acos lm (vdot (A := b64A lm) x y)) by (rewrite vangle_F; reflexivity).
  rewrite EV. clear EV. set (z := vdot (A := b64A lm) x y) in *. clearbody z. cbv zeta.
  assert (EQ : cos th = rdot p q).
  { unfold rdot, p, q. cbn [vget].
    set (a0 := B2R (v0 a)) in *. set (a1 := B2R (v1 a)) in *. set (a2 := B2R (v2 a)) in *.
    set (b0 := B2R (v0 b)) in *. set (b1 := B2R (v1 b)) in *. set (b2 := B2R (v2 b)) in *.
    apply Rmult_eq_reg_l with (la * lb); [|apply Rmult_integral_contrapositive; split; lra].
    rewrite <- ET. clearbody la lb a0 a1 a2 b0 b1 b2. field. lra. }
  assert (M : near z (cos th) (4.1 / 10 ^ 15)).
  { split; [exact FD|]. rewrite EQ.
    replace (B2R z - rdot p q) with ((B2R z - rdot (cF x) (cF y)) + (rdot (fun i => cF x i - p i) (cF y) + rdot p (fun i => cF y i - q i)))
      by (unfold rdot; ring).
    eapply Rle_trans; [apply Rabs_triang|]. pose proof (Rabs_triang (rdot (fun i => cF x i - p i) (cF y)) (rdot p (fun i => cF y i - q i))) as T.
    pose proof (rdot_cs (fun i => cF x i - p i) (cF y)) as C1. pose proof (rdot_cs p (fun i => cF y i - q i)) as C2. rewrite Up in C2.
    assert (C3 : hl (fun i => cF x i - p i) * hl (cF y) <= 1.7321 * (8.89 / 10 ^ 16) * 1.0001).
    { apply Rmult_le_compat; try apply hl_nonneg; assumption. }
    lra. }
  split; [exact M|]. destruct M as [_ M].
  assert (AC : -1 <= B2R z <= 1 -> fin (lm_acos lm z) = true /\ Rabs (B2R (lm_acos lm z) - acos (B2R z)) <= 4.45 / 10 ^ 16 /\
    Rabs (acos (B2R z) - th) <= 1.1 / 10 ^ 7 /\ (1 / 10 ^ 6 <= sin th -> Rabs (acos (B2R z) - th) * sin th <= 4.5 / 10 ^ 15)).
  { intros BZ. destruct (good_acos lm G z FD BZ) as [F1 F2]. split; [exact F1|]. split.
    - eapply Rle_trans; [exact F2|]. change (bpow radix2 (-51)) with (/ 2251799813685248). lra.
    - apply acos_near; [apply acos_bound|exact Ht|]. rewrite cos_acos by exact BZ. exact M. }
  split.
  - intros BZ. destruct (AC BZ) as (F1 & F2 & F3 & _). split; [exact F1|].
    replace (B2R (lm_acos lm z) - th) with ((B2R (lm_acos lm z) - acos (B2R z)) + (acos (B2R z) - th)) by ring.
    eapply Rle_trans; [apply Rabs_triang|]. lra.
  - intros ST.
    assert (BZ : -1 <= B2R z <= 1).
    { pose proof (sin2_cos2 th) as SC. unfold Rsqr in SC. apply Rabs_le_inv in M.
      assert (SS : 1 / 10 ^ 12 <= sin th * sin th) by nra.
      assert (CC : cos th * cos th <= 1 - 1 / 10 ^ 12) by lra.
      assert (K : -(1 - 4 / 10 ^ 13) <= cos th <= 1 - 4 / 10 ^ 13) by (set (ct := cos th) in *; clearbody ct; clear - CC; nra).
      lra. }
    destruct (AC BZ) as (F1 & F2 & _ & F4). specialize (F4 ST). split; [exact F1|].
    pose proof (L_SeriesR.sin_abs th) as SA. pose proof (Rle_abs (sin th)) as SB.
    apply Rmult_le_reg_r with (sin th); [lra|]. unfold Rdiv. rewrite (Rmult_assoc _ (/ sin th)), Rinv_l, Rmult_1_r by lra.
    replace (B2R (lm_acos lm z) - th) with ((B2R (lm_acos lm z) - acos (B2R z)) + (acos (B2R z) - th)) by ring.
    apply Rle_trans with ((Rabs (B2R (lm_acos lm z) - acos (B2R z)) + Rabs (acos (B2R z) - th)) * sin th).
    { apply Rmult_le_compat_r; [lra|apply Rabs_triang]. }
    rewrite Rmult_plus_distr_r. 
    assert (Rabs (B2R (lm_acos lm z) - acos (B2R z)) * sin th <= 4.45 / 10 ^ 16 * 1) by (apply Rmult_le_compat; try lra; apply Rabs_pos).
    unfold Rdiv in *. lra.
Qed.

(** C33 in binary64: for a finite angle every entry of the matrix is within 2^-52 of
    that of the exact rotation by the same angle, and each entry of its product
    with its transpose within 2^-50 of that of the identity. *)
Lemma C33_rotation_b64_pf : forall lm, good_libm lm -> forall ax (t : b64), fin t = true ->
  exists m : mat3 (b64A lm), rotation (A := b64A lm) (axis_number ax) t = Val m /\
  (forall i j, near (mget (A := b64A lm) m i j) (entry (rot3 ax (B2R t)) i j) (bpow radix2 (-52))) /\
  (forall i j, Rabs (B2R (mget (A := b64A lm) m I0 i) * B2R (mget (A := b64A lm) m I0 j) +
                     B2R (mget (A := b64A lm) m I1 i) * B2R (mget (A := b64A lm) m I1 j) +
                     B2R (mget (A := b64A lm) m I2 i) * B2R (mget (A := b64A lm) m I2 j) - kron i j) <= bpow radix2 (-50)).
Proof.
  intros lm G ax t Ft.
  destruct (good_sin lm G t Ft) as [Fs Es]. destruct (good_cos lm G t Ft) as [Fc Ec].
  destruct lit_0 as [Z0 FZ]. destruct (Flit_int 1 ltac:(lia)) as [L1 F1].
  pose proof (bpow_ge_0 radix2 (-52)) as P52.
  assert (E1 : Rabs (B2R (Flit 0 0) - 0) <= bpow radix2 (-52)) by (rewrite Z0, Rminus_0_r, Rabs_R0; exact P52).
  assert (E2 : Rabs (B2R (Flit 1 0) - 1) <= bpow radix2 (-52)) by (rewrite L1; replace (1 - 1) with 0 by ring; rewrite Rabs_R0; exact P52).
  assert (E3 : Rabs (B2R (Bopp (lm_sin lm t)) - - sin (B2R t)) <= bpow radix2 (-52)).
  { rewrite B2R_Bopp. replace (- B2R (lm_sin lm t) - - sin (B2R t)) with (- (B2R (lm_sin lm t) - sin (B2R t))) by ring. rewrite Rabs_Ropp. exact Es. }
  assert (F3 : fin (Bopp (lm_sin lm t)) = true) by (rewrite is_finite_Bopp; exact Fs).
  set (s := B2R (lm_sin lm t)) in *. set (c := B2R (lm_cos lm t)) in *.
    assert (K : Rabs (s * s + c * c - 1) <= bpow radix2 (-50)).
    { pose proof (sin2_cos2 (B2R t)) as SC. unfold Rsqr in SC.
      pose proof (L_SeriesR.sin_abs (B2R t)) as SA. pose proof (L_SeriesR.cos_abs (B2R t)) as CA.
      apply Rabs_le_inv in SA, CA, Es, Ec.
      set (s0 := sin (B2R t)) in *. set (c0 := cos (B2R t)) in *. clearbody s0 c0 s c. clear - SC SA CA Es Ec.
      change (bpow radix2 (-52)) with (/ 4503599627370496) in *. change (bpow radix2 (-50)) with (/ 1125899906842624).
      set (u := s - s0) in *. set (v := c - c0) in *. replace s with (s0 + u) by (unfold u; ring). replace c with (c0 + v) by (unfold v; ring). clearbody u v.
      replace ((s0 + u) * (s0 + u) + (c0 + v) * (c0 + v) - 1) with (2 * (s0 * u + c0 * v) + (u * u + v * v)) by (rewrite <- SC; ring).
      assert (Q : forall w, - / 4503599627370496 <= w <= / 4503599627370496 -> 0 <= w * w <= / 4503599627370496 * / 4503599627370496) by (intros w Hw; split; nra).
      pose proof (Q u Es). pose proof (Q v Ec).
      assert (CS : (s0 * u + c0 * v) * (s0 * u + c0 * v) <= u * u + v * v).
      { assert (X : (s0 * u + c0 * v) * (s0 * u + c0 * v) = (s0 * s0 + c0 * c0) * (u * u + v * v) - (s0 * v - c0 * u) * (s0 * v - c0 * u)) by ring.
        rewrite SC in X. pose proof (Rle_0_sqr (s0 * v - c0 * u)) as Y. unfold Rsqr in Y. lra. }
      assert (B : - (1.5 * / 4503599627370496) <= s0 * u + c0 * v <= 1.5 * / 4503599627370496).
      { set (d := s0 * u + c0 * v) in *. clearbody d. nra. }
      apply Rabs_le. lra. }
    pose proof (bpow_ge_0 radix2 (-50)) as P50.
    assert (K0 : forall x, x = 0 -> Rabs x <= bpow radix2 (-50)) by (intros x ->; rewrite Rabs_R0; exact P50).
    assert (KK : forall x, x = s * s + c * c - 1 -> Rabs x <= bpow radix2 (-50)) by (intros x ->; exact K).
    assert (R0 : B2R (Flit 0 0) = 0) by exact Z0.
    assert (NO : B2R (Bopp (lm_sin lm t)) = - s) by apply B2R_Bopp.
    assert (FN : forall i j m, (m = Flit 0 0 /\ entry (rot3 ax (B2R t)) i j = 0) \/ (m = Flit 1 0 /\ entry (rot3 ax (B2R t)) i j = 1) \/
      (m = lm_sin lm t /\ entry (rot3 ax (B2R t)) i j = sin (B2R t)) \/ (m = lm_cos lm t /\ entry (rot3 ax (B2R t)) i j = cos (B2R t)) \/
      (m = Bopp (lm_sin lm t) /\ entry (rot3 ax (B2R t)) i j = - sin (B2R t)) -> near m (entry (rot3 ax (B2R t)) i j) (bpow radix2 (-52))).
    { intros i j m [[-> ->]|[[-> ->]|[[-> ->]|[[-> ->]|[-> ->]]]]]; split; assumption. }
    destruct ax; (eexists; split; [reflexivity|split; intros i j;
      [apply FN; destruct i, j;
        first [left; split; reflexivity | right; left; split; reflexivity | right; right; left; split; reflexivity
              | right; right; right; left; split; reflexivity | right; right; right; right; split; reflexivity]
      |destruct i, j; cbn [kron];
        repeat match goal with |- context [B2R (mget ?m ?a ?b)] =>
          first [rewrite (R0 : B2R (mget m a b) = 0) | rewrite (L1 : B2R (mget m a b) = 1) | rewrite (NO : B2R (mget m a b) = - s)
                | rewrite (eq_refl : B2R (mget m a b) = s) | rewrite (eq_refl : B2R (mget m a b) = c)] end;
      first [apply K0; ring | apply KK; ring]]]).
Qed.

(** The right angle between (1,1,0) and (1,-1,0) in binary64, for any such libm, and one
    entry of the rotation by 1 rad. *)
Example C34_b64_example_pf : forall lm, good_libm lm ->
  near (vangle (A := b64A lm) (V3 (A := b64A lm) (Flit 1 0) (Flit 1 0) (Flit 0 0))
                              (V3 (A := b64A lm) (Flit 1 0) (Flit (-1) 0) (Flit 0 0))) (PI / 2) (5 / 10 ^ 15) /\
  (exists m, rotation (A := b64A lm) 0 (Flit 1 0) = Val m /\ near (mget (A := b64A lm) m I1 I2) (sin 1) (bpow radix2 (-52))).
Proof.
  intros lm G.
  destruct lit_0 as [E0 F0]. destruct (Flit_int 1 ltac:(lia)) as [E1 F1]. destruct (Flit_int (-1) ltac:(lia)) as [E2 F2].
  assert (B : 1 <= bpow radix2 500) by (apply (bpow_le radix2 0 500); lia).
  assert (L2 : bpow radix2 (-400) <= R_sqrt.sqrt 2).
  { apply Rle_trans with 1; [apply (bpow_le radix2 (-400) 0); lia|]. rewrite <- R_sqrt.sqrt_1 at 1. apply sqrt_le_1_alt. lra. }
  split.
  - pose proof (C34_angle_accuracy_b64_partial_pf lm G (V3 (A := b64A lm) (Flit 1 0) (Flit 1 0) (Flit 0 0))
      (V3 (A := b64A lm) (Flit 1 0) (Flit (-1) 0) (Flit 0 0)) (PI / 2)) as K.
    cbn [v0 v1 v2] in K. rewrite E0, E1, E2 in K.
    replace (1 ^ 2 + 1 ^ 2 + 0 ^ 2) with 2 in K by ring. replace (1 ^ 2 + (-1) ^ 2 + 0 ^ 2) with 2 in K by ring.
    rewrite sin_PI2, cos_PI2 in K. pose proof PI_RGT_0.
    destruct K as (_ & _ & K).
    + intros [| |]; cbn [vget v0 v1 v2]; (split; [assumption|]); rewrite ?E0, ?E1, ?E2; apply Rabs_le; lra.
    + intros [| |]; cbn [vget v0 v1 v2]; (split; [assumption|]); rewrite ?E0, ?E1, ?E2; apply Rabs_le; lra.
    + exact L2.
    + exact L2.
    + lra.
    + ring.
    + specialize (K ltac:(lra)). unfold Rdiv in K at 2. rewrite Rinv_1, Rmult_1_r in K. exact K.
  - destruct (C33_rotation_b64_pf lm G I0 (Flit 1 0) F1) as (m & Em & N & _). exists m. split; [exact Em|].
    specialize (N I1 I2). rewrite E1 in N. exact N.
Qed.
