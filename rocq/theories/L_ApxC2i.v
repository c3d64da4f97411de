(** * Error bounds: the celestial-to-intermediate matrix *)

From Coq Require Import ZArith Reals Lra Lia Bool List.
From Flocq Require Import Core BinarySingleNaN.
From Verif Require Import Outcome Arith ArithR ArithF Spec_Float Spec_Accuracy M_Common M_Time M_Earth M_Locator M_Frames Spec_Matrix Spec_Frames Spec_Series Spec_C2t.
From Verif Require Import L_ArithF L_ArithR L_Matrix L_PMatrix L_Frames L_PFrames L_Ellipsoid L_Libm L_Closed L_Apx L_ApxMod L_ApxAngle L_ApxNut L_ApxCio L_Fro L_ApxFrames.
Import ListNotations.
Open Scope R_scope.

Lemma mfro_shift : forall lm (M : mat3 (b64A lm)) M' M'' f g, mfro M M' f -> fro (fun i j => entry M' i j - entry M'' i j) <= g -> mfro M M'' (f + g).
Proof.
  intros lm M M' M'' f g [F H] K. split; [exact F|].
  rewrite (fro_ext _ (eplus (errm M M') (fun i j => entry M' i j - entry M'' i j))).
  - eapply Rle_trans; [apply fro_tri|lra].
  - intros i j. unfold errm, eplus. ring.
Qed.
Lemma fro_rot : forall ax a b, fro (fun i j => entry (rot3 ax a) i j - entry (rot3 ax b) i j) <= 2 * Rabs (a - b).
Proof.
  intros ax a b. pose proof (Rabs_pos (a - b)) as P. set (d := Rabs (a - b)) in *.
  assert (C : (cos a - cos b) * (cos a - cos b) <= d * d).
  { rewrite <- (Rabs_pos_eq ((cos a - cos b) * (cos a - cos b))) by apply Rle_0_sqr. rewrite Rabs_mult. pose proof (Rabs_pos (cos a - cos b)). pose proof (cos_lip a b).
    apply Rmult_le_compat; assumption. }
  assert (S : (sin a - sin b) * (sin a - sin b) <= d * d).
  { rewrite <- (Rabs_pos_eq ((sin a - sin b) * (sin a - sin b))) by apply Rle_0_sqr. rewrite Rabs_mult. pose proof (Rabs_pos (sin a - sin b)). pose proof (sin_lip a b).
    apply Rmult_le_compat; assumption. }
  apply fro_le_sq; [lra|]. rewrite !erow_sq. unfold entry.
  destruct ax; cbn [rot3 mget mrow vget r0 r1 r2 v0 v1 v2]; realA_ops; nra.
Qed.
Lemma fro_sub_tri : forall a b c : mat3 realA, fro (fun i j => entry a i j - entry c i j) <=
  fro (fun i j => entry a i j - entry b i j) + fro (fun i j => entry b i j - entry c i j).
Proof.
  intros a b c. eapply Rle_trans; [|apply fro_tri]. right. apply fro_ext. intros i j. unfold eplus. ring.
Qed.
Lemma fro_sub_sym : forall a b : mat3 realA, fro (fun i j => entry a i j - entry b i j) = fro (fun i j => entry b i j - entry a i j).
Proof.
  intros a b. pose proof (fro_nonneg (fun i j => entry a i j - entry b i j)). pose proof (fro_nonneg (fun i j => entry b i j - entry a i j)).
  apply Rle_antisym; (apply sq_le; [assumption|]); rewrite !fro_sq, !erow_sq; right; ring.
Qed.
Lemma mm_entry : forall a b i j, entry (mm a b) i j = entry a i I0 * entry b I0 j + entry a i I1 * entry b I1 j + entry a i I2 * entry b I2 j.
Proof. intros a b i j. unfold mm, entry. apply mcompose_product. Qed.
Lemma fro_mm_l : forall a b c : mat3 realA, proper a -> fro (fun i j => entry (mm a b) i j - entry (mm a c) i j) = fro (fun i j => entry b i j - entry c i j).
Proof.
  intros a b c P. rewrite <- (fro_mul_l (fun i j => entry b i j - entry c i j) a P). apply fro_ext. intros i j. rewrite !mm_entry. unfold emul. ring.
Qed.
Lemma fro_mm_r : forall a b c : mat3 realA, proper a -> fro (fun i j => entry (mm b a) i j - entry (mm c a) i j) = fro (fun i j => entry b i j - entry c i j).
Proof.
  intros a b c P. rewrite <- (fro_mul_r (fun i j => entry b i j - entry c i j) a P). apply fro_ext. intros i j. rewrite !mm_entry. unfold emul. ring.
Qed.

(** Square root of a quantity known up to a relative error and an underflow *)
Lemma sqrt_rel : forall a b e h, 0 <= a -> 0 <= b -> 0 <= e <= 1 -> 0 <= h -> Rabs (a - b) <= e * b + h ->
  Rabs (R_sqrt.sqrt a - R_sqrt.sqrt b) <= e * R_sqrt.sqrt b + R_sqrt.sqrt h.
Proof.
  intros a b e h Ha Hb He Hh H. apply Rabs_le_inv in H.
  pose proof (sqrt_pos a) as A0. pose proof (sqrt_pos b) as B0. pose proof (sqrt_pos h) as H0.
  pose proof (sqrt_sqrt a Ha) as A1. pose proof (sqrt_sqrt b Hb) as B1. pose proof (sqrt_sqrt h Hh) as H1.
  set (x := R_sqrt.sqrt a) in *. set (y := R_sqrt.sqrt b) in *. set (z := R_sqrt.sqrt h) in *. clearbody x y z. subst a b h.
  apply Rabs_le. split.
  - assert ((1 - e) * y <= x + z); [|lra]. apply sq_le; [lra|].
    assert ((1 - e) * (1 - e) <= 1 - e) by nra. assert (0 <= x * z) by (apply Rmult_le_pos; assumption).
    assert (0 <= y * y) by (apply Rle_0_sqr). nra.
  - assert (x <= (1 + e) * y + z); [|lra]. apply sq_le; [nra|].
    assert (0 <= y * z) by (apply Rmult_le_pos; assumption). assert (0 <= y * y) by (apply Rle_0_sqr).
    assert (0 <= e * (y * z)) by (apply Rmult_le_pos; lra). assert (0 <= e * (y * y)) by (apply Rmult_le_pos; lra).
    assert (0 <= e * e * (y * y)) by (apply Rmult_le_pos; [nra|assumption]). nra.
Qed.

Definition eta : R := / 2 * bpow radix2 (-1074).
Lemma eta_pos : 0 < eta.
Proof. unfold eta. pose proof (bpow_gt_0 radix2 (-1074)). lra. Qed.
Lemma eta_small : eta <= / 10 ^ 60.
Proof.
  unfold eta. assert (H : bpow radix2 (-1074) <= bpow radix2 (-200)) by (apply bpow_le; lia).
  assert (K : bpow radix2 (-200) <= / 10 ^ 60).
  { change (bpow radix2 (-200)) with (/ IZR (2 ^ 200)). rewrite (pow_IZR 10 60). apply Rinv_le_contravar; [apply IZR_lt; reflexivity|apply IZR_le; vm_compute; discriminate]. }
  lra.
Qed.
Lemma rnd_u : forall x, Rabs (rnd x - x) <= / 9007199254740992 * Rabs x + eta.
Proof.
  intros x. pose proof (rnd_rel x) as H. unfold eta. change (bpow radix2 (-52)) with (/ 4503599627370496) in H.
  replace (/ 9007199254740992) with (/ 2 * / 4503599627370496) by lra. exact H.
Qed.

(** The polar distance *)
Definition u53 : R := / 9007199254740992.
Lemma c2i_dist : forall x y : b64, fin x = true -> fin y = true -> B2R x * B2R x + B2R y * B2R y <= 1 / 4 ->
  let r := B2R x * B2R x + B2R y * B2R y in
  let q := Fadd (Fmul x x) (Fmul y y) in
  let v := Fdiv q (Fsub (Flit 1 0) q) in
  fin q = true /\ 0 <= B2R q /\ Rabs (B2R q - r) <= 2.01 * u53 * r + 4 * eta /\
  fin (Fsqrt v) = true /\ Rabs (B2R (Fsqrt v) - R_sqrt.sqrt (r / (1 - r))) <= 7 * u53.
Proof.
  intros x y Fx Fy H r q v. pose proof eta_pos as E0. pose proof eta_small as E1.
  assert (E2 : eta <= / 10 ^ 20) by lra. clear E1.
  set (X := B2R x) in *. set (Y := B2R y) in *.
  assert (X2 : 0 <= X * X) by apply Rle_0_sqr. assert (Y2 : 0 <= Y * Y) by apply Rle_0_sqr.
  assert (S1 : forall z, Rabs z <= 1 -> small z) by (intros z Hz; apply (small_le z 0); [lia|exact Hz]).
  destruct (Fmul_ok x x Fx Fx) as [V1 G1]; [apply S1, Rabs_le; fold X; lra|]. fold X in V1.
  destruct (Fmul_ok y y Fy Fy) as [V2 G2]; [apply S1, Rabs_le; fold Y; lra|]. fold Y in V2.
  pose proof (rnd_u (X * X)) as R1. pose proof (rnd_u (Y * Y)) as R2. rewrite (Rabs_pos_eq _ X2) in R1. rewrite (Rabs_pos_eq _ Y2) in R2.
  rewrite <- V1 in R1. rewrite <- V2 in R2.
  assert (P1 : 0 <= B2R (Fmul x x)) by (rewrite V1; apply rnd_ge; [apply format_IZR; lia|exact X2]).
  assert (P2 : 0 <= B2R (Fmul y y)) by (rewrite V2; apply rnd_ge; [apply format_IZR; lia|exact Y2]).
  set (p1 := B2R (Fmul x x)) in *. set (p2 := B2R (Fmul y y)) in *. apply Rabs_le_inv in R1, R2.
  assert (HS : 0 <= p1 + p2 <= 1 / 2) by (unfold r in *; lra).
  destruct (Fadd_ok _ _ G1 G2) as [V3 G3]; [apply S1, Rabs_le; fold p1 p2; lra|]. fold p1 p2 in V3. fold q in V3, G3.
  pose proof (rnd_u (p1 + p2)) as R3. rewrite (Rabs_pos_eq (p1 + p2)) in R3 by lra. rewrite <- V3 in R3.
  assert (P3 : 0 <= B2R q) by (rewrite V3; apply rnd_ge; [apply format_IZR; lia|lra]).
  split; [exact G3|]. split; [exact P3|]. 
  assert (D3 : Rabs (B2R q - r) <= 2.01 * u53 * r + 4 * eta).
  { apply Rabs_le_inv in R3. apply Rabs_le. unfold r, u53. lra. }
  split; [exact D3|]. set (Q := B2R q) in *.
  assert (R0 : 0 <= r <= 1 / 4) by (unfold r; lra). clearbody r. clear R1 R2 R3.
  apply Rabs_le_inv in D3. unfold u53 in D3.
  destruct lit_1 as [L1 F1].
  destruct (Fsub_ok (Flit 1 0) q F1 G3) as [V4 G4]; [apply S1, Rabs_le; rewrite L1; fold Q; lra|]. rewrite L1 in V4. fold Q in V4.
  pose proof (rnd_u (1 - Q)) as R4. rewrite (Rabs_pos_eq (1 - Q)) in R4 by lra. rewrite <- V4 in R4. set (w := B2R (Fsub (Flit 1 0) q)) in *.
  apply Rabs_le_inv in R4.
  assert (W : Rabs (w - (1 - r)) <= 2 * u53) by (unfold u53; apply Rabs_le; lra).
  assert (W0 : 0.74 <= w) by (unfold u53 in W; apply Rabs_le_inv in W; lra).
  set (v' := r / (1 - r)).
  assert (VR : r <= v' <= 1.334 * r).
  { unfold v'. split; [apply Rmult_le_reg_r with (1 - r); [lra|]; unfold Rdiv; rewrite Rmult_assoc, Rinv_l by lra; nra|].
    apply Rmult_le_reg_r with (1 - r); [lra|]. unfold Rdiv. rewrite Rmult_assoc, Rinv_l by lra. nra. }
  assert (DV : Rabs (Q / w - v') <= 7.5 * u53 * r + 8 * eta).
  { replace (Q / w - v') with (((Q - r) * (1 - r) + r * ((1 - r) - w)) / (w * (1 - r))) by (unfold v'; field; lra).
    unfold Rdiv. rewrite Rabs_mult.
    assert (N : Rabs ((Q - r) * (1 - r) + r * (1 - r - w)) <= 4.02 * u53 * r + 4 * eta).
    { eapply Rle_trans; [apply Rabs_triang|]. rewrite !Rabs_mult. rewrite (Rabs_pos_eq (1 - r)), (Rabs_pos_eq r) by lra.
      rewrite (Rabs_minus_sym (1 - r) w).
      assert (Rabs (Q - r) <= 2.01 * u53 * r + 4 * eta) by (apply Rabs_le; unfold u53; lra).
      assert (r * Rabs (w - (1 - r)) <= r * (2 * u53)) by (apply Rmult_le_compat_l; lra).
      assert (Rabs (Q - r) * (1 - r) <= (2.01 * u53 * r + 4 * eta) * 1) by (apply Rmult_le_compat; try lra; apply Rabs_pos). unfold u53 in *. lra. }
    assert (D : 0 <= / (w * (1 - r)) <= 1.81).
    { split; [apply Rlt_le, Rinv_0_lt_compat; nra|]. replace 1.81 with (/ (/ 1.81)) by lra. apply Rinv_le_contravar; [lra|nra]. }
    rewrite (Rabs_pos_eq (/ (w * (1 - r)))) by lra.
    assert (0 <= 4.02 * u53 * r + 4 * eta) by (unfold u53; lra).
    apply Rle_trans with ((4.02 * u53 * r + 4 * eta) * 1.81); [apply Rmult_le_compat; try lra; apply Rabs_pos|]. unfold u53. lra. }
  assert (QP : 0 <= Q / w) by (apply Rmult_le_pos; [exact P3|apply Rlt_le, Rinv_0_lt_compat; lra]).
  assert (QB : Q / w <= 1) by (apply Rabs_le_inv in DV; unfold u53 in DV; lra).
  destruct (Fdiv_ok q (Fsub (Flit 1 0) q) G3) as [V5 G5]; [fold w; lra|apply S1, Rabs_le; fold Q w; lra|]. fold Q w in V5. fold v in V5, G5.
  pose proof (rnd_u (Q / w)) as R5. rewrite (Rabs_pos_eq _ QP) in R5. rewrite <- V5 in R5.
  assert (P5 : 0 <= B2R v) by (rewrite V5; apply rnd_ge; [apply format_IZR; lia|exact QP]).
  assert (D5 : Rabs (B2R v - v') <= 9 * u53 * v' + 10 * eta).
  { apply Rabs_le_inv in R5, DV. apply Rabs_le. unfold u53 in *. lra. }
  destruct (Fsqrt_ok v G5 P5) as [V6 G6]. split; [exact G6|].
  assert (V0 : 0 <= v' <= 1 / 2) by lra.
  pose proof (sqrt_rel _ _ (9 * u53) (10 * eta) P5 (proj1 V0) ltac:(unfold u53; lra) ltac:(lra) D5) as D6.
  assert (SV : 0 <= R_sqrt.sqrt v' <= 0.6).
  { split; [apply sqrt_pos|]. assert (v' <= 0.6 * 0.6) by lra. rewrite <- (sqrt_square 0.6) by lra. apply sqrt_le_1_alt. assumption. }
  assert (SE : 0 <= R_sqrt.sqrt (10 * eta) <= / 10 ^ 20).
  { split; [apply sqrt_pos|]. rewrite <- (sqrt_square (/ 10 ^ 20)) by lra. apply sqrt_le_1_alt. pose proof eta_small. lra. }
  pose proof (rnd_u (R_sqrt.sqrt (B2R v))) as R6. rewrite (Rabs_pos_eq (R_sqrt.sqrt (B2R v))) in R6 by apply sqrt_pos.
  rewrite <- V6 in R6. apply Rabs_le_inv in R6, D6. apply Rabs_le. unfold u53 in *. lra.
Qed.

Lemma atan_lip : forall x y, Rabs (atan x - atan y) <= Rabs (x - y).
Proof.
  intros x y. destruct (MVT_abs atan (fun y => / (1 + y ^ 2)) x y (fun z _ => derivable_pt_lim_atan z)) as (c & E & _).
  rewrite Rabs_minus_sym, (Rabs_minus_sym x y), E.
  rewrite <- (Rmult_1_l (Rabs (y - x))) at 2. apply Rmult_le_compat_r; [apply Rabs_pos|].
  pose proof (pow2_ge_0 c). assert (0 < / (1 + c ^ 2)) by (apply Rinv_0_lt_compat; lra).
  rewrite Rabs_pos_eq by lra. rewrite <- Rinv_1. apply Rinv_le_contravar; lra.
Qed.

Definition c2i_d {A : arith} (x y : num A) : num A :=
  let r2 := add A (mul A x x) (mul A y y) in natan A (nsqrt A (div A r2 (sub A (lit A 1 0) r2))).
Definition c2i_e {A : arith} (x y : num A) : num A :=
  if ltb A (lit A 0 0) (add A (mul A x x) (mul A y y)) then natan2 A y x else lit A 0 0.
Lemma c2i_val : forall (A : arith) (x y s : num A), c2i_from_xys x y s =
  Val (prod3 I2 (neg A (add A (c2i_e x y) s)) I1 (c2i_d x y) I2 (c2i_e x y)).
Proof. reflexivity. Qed.

Lemma c2i_from_ok : forall lm, good_libm lm -> forall x y s : b64, fin x = true -> fin y = true -> fin s = true ->
  B2R x * B2R x + B2R y * B2R y <= 1 / 4 -> Rabs (B2R s) <= 1 ->
  exists m, c2i_from_xys (A := b64A lm) x y s = Val m /\ mfro m (Q_matrix (B2R x) (B2R y) (B2R s)) (1.8 / 10 ^ 14).
Proof.
  intros lm G x y s Fx Fy Fs Hr Hs. eexists. split; [apply c2i_val|].
  destruct (c2i_dist x y Fx Fy Hr) as (Fq & Pq & Dq & Fv & Dv). unfold c2i_d, c2i_e. b64A_ops.
  set (q := Fadd (Fmul x x) (Fmul y y)) in *. set (v := Fsqrt (Fdiv q (Fsub (Flit 1 0) q))) in *.
  pose proof (C36_pole_matrix_pf (B2R x) (B2R y) (B2R s) ltac:(lra)) as (HQ & _).
  rewrite c2i_from_xys_R in HQ. set (r := B2R x * B2R x + B2R y * B2R y) in *.
  assert (OI : forall m m' : mat3 realA, Val m = Val m' -> m = m') by (intros; congruence). apply OI in HQ.
  set (e' := if Rlt_bool 0 r then Ratan2 (B2R y) (B2R x) else 0) in *. set (d' := atan (R_sqrt.sqrt (r / (1 - r)))) in *.
  assert (R0 : 0 <= r) by (unfold r; pose proof (Rle_0_sqr (B2R x)); pose proof (Rle_0_sqr (B2R y)); unfold Rsqr in *; lra).
  assert (ND : near (lm_atan lm v) d' (1.1 / 10 ^ 15)).
  { destruct (good_atan lm G v Fv) as [FA HA]. split; [exact FA|]. rewrite b52 in HA.
    pose proof (atan_lip (B2R v) (R_sqrt.sqrt (r / (1 - r)))) as L. fold d' in L.
    replace (B2R (lm_atan lm v) - d') with ((B2R (lm_atan lm v) - atan (B2R v)) + (atan (B2R v) - d')) by ring.
    eapply Rle_trans; [apply Rabs_triang|]. unfold u53 in Dv. lra. }
  destruct lit_0 as [Z0 FZ]. rewrite (Bltb_correct 53 1024 (Flit 0 0) q FZ Fq), Z0.
  assert (SM : forall w : b64, fin w = true -> Rabs (B2R w) <= 10 -> fin (Fadd w s) = true /\ Rabs (B2R (Fadd w s) - (B2R w + B2R s)) <= 9 / 10 ^ 16).
  { intros w Fw Hw. assert (K : Rabs (B2R w + B2R s) <= bpow radix2 4).
    { change (bpow radix2 4) with 16. eapply Rle_trans; [apply Rabs_triang|]. lra. }
    destruct (Fadd_ok w s Fw Fs) as [V F]; [apply (small_le _ 4); [lia|exact K]|]. split; [exact F|].
    rewrite V. eapply Rle_trans; [apply (rnd_error _ 4); [lia|exact K]|]. change (bpow radix2 (4 - 53)) with (/ 562949953421312). lra. }
  destruct (Rlt_bool_spec 0 (B2R q)) as [Q|Q].
  - (* the pole is off the axis *)
    assert (NZ : B2R x <> 0 \/ B2R y <> 0).
    { destruct (Req_dec (B2R x) 0) as [X|X]; [|left; exact X]. destruct (Req_dec (B2R y) 0) as [Y|Y]; [|right; exact Y].
      exfalso. unfold q in Q. destruct (Fmul_ok x x Fx Fx) as [V1 G1]; [rewrite X; apply (small_le _ 0); [lia|rewrite Rmult_0_l, Rabs_R0; simpl; lra]|].
      destruct (Fmul_ok y y Fy Fy) as [V2 G2]; [rewrite Y; apply (small_le _ 0); [lia|rewrite Rmult_0_l, Rabs_R0; simpl; lra]|].
      assert (R00 : rnd 0 = 0) by (apply rnd_id, format_IZR; lia).
      rewrite X, Rmult_0_l, R00 in V1. rewrite Y, Rmult_0_l, R00 in V2.
      destruct (Fadd_ok _ _ G1 G2) as [V3 _]; [rewrite V1, V2; apply (small_le _ 0); [lia|rewrite Rplus_0_l, Rabs_R0; simpl; lra]|].
      rewrite V3, V1, V2, Rplus_0_l, R00 in Q. lra. }
    assert (RP : 0 < r).
    { unfold r. destruct NZ as [X|Y]; [pose proof (Rsqr_pos_lt _ X); pose proof (Rle_0_sqr (B2R y))|pose proof (Rsqr_pos_lt _ Y); pose proof (Rle_0_sqr (B2R x))]; unfold Rsqr in *; lra. }
    unfold e' in HQ. rewrite Rlt_bool_true in HQ by exact RP. clear e'. set (e' := Ratan2 (B2R y) (B2R x)) in *.
    destruct (good_atan2 lm G y x Fy Fx NZ) as (FE & k & Hk & HE). fold e' in HE. set (e := lm_atan2 lm y x) in *.
    change (bpow radix2 (-51)) with (/ 2251799813685248) in HE.
    assert (EB : Rabs (B2R e) <= 10).
    { pose proof (atan2_abs (B2R y) (B2R x)) as A. fold e' in A. pose proof PI_RGT_0. assert (PI < 3.15) by (pose proof L_Pi.PI_bounds; lra).
      assert (Rabs (IZR k * (2 * PI)) <= 2 * PI).
      { rewrite Rabs_mult, (Rabs_pos_eq (2 * PI)) by lra. assert (Rabs (IZR k) <= 1) by (rewrite <- abs_IZR; apply IZR_le; lia).
        pose proof (Rabs_pos (IZR k)). nra. }
      replace (B2R e) with ((B2R e - (e' + IZR k * (2 * PI))) + (e' + IZR k * (2 * PI))) by ring.
      eapply Rle_trans; [apply Rabs_triang|]. pose proof (Rabs_triang e' (IZR k * (2 * PI))). lra. }
    destruct (SM e FE EB) as [FA HA].
    assert (N1 : near_angle (Bopp (Fadd e s)) (- (e' + B2R s)) (1.4 / 10 ^ 15)).
    { apply near_angle_neg. split; [exact FA|]. exists k.
      replace (B2R (Fadd e s) - (e' + B2R s + IZR k * (2 * PI))) with ((B2R (Fadd e s) - (B2R e + B2R s)) + (B2R e - (e' + IZR k * (2 * PI)))) by ring.
      eapply Rle_trans; [apply Rabs_triang|]. lra. }
    assert (N3 : near_angle e e' (4.5 / 10 ^ 16)) by (split; [exact FE|]; exists k; lra).
    rewrite <- HQ. eapply mfro_le; [apply (prod3_ok lm G I2 _ _ _ I1 _ _ _ I2 _ _ _ N1 (near_angle_of_near _ _ _ ND) N3); lra|lra].
  - (* the squares underflow *)
    assert (QZ : B2R q = 0) by lra. rewrite QZ in Dq. unfold u53 in Dq. pose proof eta_small as ES. pose proof eta_pos as EP.
    assert (RS : r <= 5 * eta) by (apply Rabs_le_inv in Dq; lra).
    assert (DS : Rabs d' <= / 10 ^ 18).
    { unfold d'. eapply Rle_trans; [apply atan_abs_le|]. rewrite Rabs_pos_eq by apply sqrt_pos.
      rewrite <- (sqrt_square (/ 10 ^ 18)) by lra. apply sqrt_le_1_alt.
      apply Rmult_le_reg_r with (1 - r); [lra|]. unfold Rdiv. rewrite Rmult_assoc, Rinv_l by lra.
      assert (/ 10 ^ 18 * / 10 ^ 18 * (3 / 4) <= / 10 ^ 18 * / 10 ^ 18 * (1 - r)) by (apply Rmult_le_compat_l; lra). lra. }
    destruct (SM (Flit 0 0) FZ ltac:(rewrite Z0, Rabs_R0; lra)) as [FA HA]. rewrite Z0 in HA.
    assert (N1 : near (Fadd (Flit 0 0) s) (0 + B2R s) (9 / 10 ^ 16)) by (split; [exact FA|exact HA]).
    assert (N3 : near (Flit 0 0) 0 0) by (split; [exact FZ|rewrite Z0, Rminus_0_r, Rabs_R0; lra]).
    pose proof (prod3_ok lm G I2 _ _ _ I1 _ _ _ I2 _ _ _ (near_angle_of_near _ _ _ (near_neg _ _ _ N1)) (near_angle_of_near _ _ _ ND) (near_angle_of_near _ _ _ N3) ltac:(lra) ltac:(lra) ltac:(lra)) as K.
    assert (T : forall e s, fro (fun i j => entry (mm (mm (rot3 I2 (- (e + s))) (rot3 I1 d')) (rot3 I2 e)) i j - entry (rot3 I2 (- s)) i j) <= 2 * / 10 ^ 18).
    { intros e0 s0. replace (rot3 I2 (- s0)) with (mm (mm (rot3 I2 (- (e0 + s0))) (rot3 I1 0)) (rot3 I2 e0)).
      - rewrite fro_mm_r by apply rot3_proper. rewrite fro_mm_l by apply rot3_proper. eapply Rle_trans; [apply fro_rot|]. rewrite Rminus_0_r. lra.
      - rewrite rot3_0. unfold mm. rewrite compose_id_r, rot3_add. f_equal. ring. }
    rewrite <- HQ. eapply mfro_le; [eapply mfro_shift; [exact K|]|].
    + eapply Rle_trans; [apply (fro_sub_tri _ (rot3 I2 (- B2R s)))|]. apply Rplus_le_compat; [apply T|]. rewrite fro_sub_sym. apply T.
    + lra.
Qed.

(** The exact matrices *)
Lemma pn_exact : forall d, precession_nutation (A := realA) d = Val (NPB (centuries d)).
Proof.
  intros d. unfold precession_nutation, pn_from_tt. rewrite nutation_closed. cbn [bind].
  destruct (proj1 (proj2 (proj2 (proj2 C37_matrix_products_pf))) d (nut_dpsi (centuries d)) (nut_deps (centuries d))) as (pn & -> & _ & E).
  cbn [bind]. rewrite E. reflexivity.
Qed.
Lemma c2i_exact : forall d, Rabs (centuries d) <= 50 -> celestial_to_intermediate (A := realA) d = Val (C2I (centuries d)).
Proof.
  intros d H. destruct (C38_pole_inside_pf d H) as (m & E & _ & U). cbv zeta in U. rewrite pn_exact in E.
  assert (OI : forall m m' : mat3 realA, Val m = Val m' -> m = m') by (intros; congruence). apply OI in E. subst m.
  unfold celestial_to_intermediate. rewrite pn_exact. cbn [bind]. unfold c2i_with_bpn, xy_from_bpn, c2i_with_xy. rewrite cio_closed. cbn [bind].
  exact (proj1 (C36_pole_matrix_pf _ _ _ U)).
Qed.

Definition Qin (x y : R) : mat3 realA :=
  let z := R_sqrt.sqrt (1 - (x * x + y * y)) in
  let a := / (1 + z) in
  M3 (A := realA) (V3 (A := realA) (1 - a * x * x) (- a * x * y) (- x))
                  (V3 (A := realA) (- a * x * y) (1 - a * y * y) (- y))
                  (V3 (A := realA) x y z).
Lemma Q_Qin : forall x y s, Q_matrix x y s = mm (rot3 I2 (- s)) (Qin x y).
Proof. intros. unfold Q_matrix. cbv zeta. rewrite mul3_compose. reflexivity. Qed.
Lemma Q_proper : forall x y s, x * x + y * y < 1 -> proper (Q_matrix x y s).
Proof.
  intros x y s H. pose proof (proj1 (C36_pole_matrix_pf x y s H)) as E. rewrite c2i_from_xys_R in E.
  assert (OI : forall m m' : mat3 realA, Val m = Val m' -> m = m') by (intros; congruence). apply OI in E. rewrite <- E. prove_proper.
Qed.
Lemma Qin_proper : forall x y, x * x + y * y < 1 -> proper (Qin x y).
Proof. intros x y H. pose proof (Q_proper x y 0 H) as P. rewrite Q_Qin, Ropp_0, rot3_0 in P. unfold mm in P. rewrite compose_id_l in P. exact P. Qed.

Lemma sq_bound : forall x y c, 0 <= c -> x * x + y * y <= c * c -> Rabs x <= c /\ Rabs y <= c.
Proof.
  intros x y c Hc H. pose proof (Rle_0_sqr x). pose proof (Rle_0_sqr y). unfold Rsqr in *.
  split; apply abs_le_sq; lra.
Qed.
Lemma prod_diff : forall a b c d e f g h, Rabs (a - c) <= e -> Rabs (b - d) <= f -> Rabs b <= g -> Rabs c <= h ->
  Rabs (a * b - c * d) <= e * g + h * f.
Proof.
  intros a b c d e f g h H1 H2 H3 H4. replace (a * b - c * d) with ((a - c) * b + c * (b - d)) by ring.
  eapply Rle_trans; [apply Rabs_triang|]. rewrite !Rabs_mult.
  apply Rplus_le_compat; apply Rmult_le_compat; try assumption; apply Rabs_pos.
Qed.
Lemma Qin_sens : forall x y x' y' D, x * x + y * y <= 0.27 * 0.27 -> x' * x' + y' * y' <= 0.27 * 0.27 ->
  Rabs (x - x') <= D -> Rabs (y - y') <= D -> fro (fun i j => entry (Qin x y) i j - entry (Qin x' y') i j) <= 3 * D.
Proof.
  intros x y x' y' D H H' Hx Hy. destruct (sq_bound x y 0.27 ltac:(lra) H) as [X Y]. destruct (sq_bound x' y' 0.27 ltac:(lra) H') as [X' Y'].
  assert (D0 : 0 <= D) by (eapply Rle_trans; [apply Rabs_pos|exact Hx]).
  pose proof (prod_diff _ _ _ _ _ _ _ _ Hx Hx X X') as DXX. pose proof (prod_diff _ _ _ _ _ _ _ _ Hy Hy Y Y') as DYY.
  pose proof (prod_diff _ _ _ _ _ _ _ _ Hx Hy Y X') as DXY.
  set (z := R_sqrt.sqrt (1 - (x * x + y * y))). set (z' := R_sqrt.sqrt (1 - (x' * x' + y' * y'))).
  assert (ZB : forall u, 0.92 * 0.92 <= u -> 0.92 <= R_sqrt.sqrt u) by (intros u Hu; rewrite <- (sqrt_square 0.92) by lra; apply sqrt_le_1_alt, Hu).
  assert (Z1 : 0.92 <= z) by (apply ZB; lra). assert (Z1' : 0.92 <= z') by (apply ZB; lra).
  assert (ZZ : z * z = 1 - (x * x + y * y)) by (apply sqrt_sqrt; lra). assert (ZZ' : z' * z' = 1 - (x' * x' + y' * y')) by (apply sqrt_sqrt; lra).
  assert (DZ : Rabs (z - z') <= 0.6 * D).
  { apply Rabs_le_inv in DXX, DYY. assert (E : (z - z') * (z + z') = (x' * x' - x * x) + (y' * y' - y * y)) by (rewrite Rmult_comm; lra).
    assert (K : Rabs ((z - z') * (z + z')) <= 1.08 * D) by (rewrite E; apply Rabs_le; lra).
    rewrite Rabs_mult, (Rabs_pos_eq (z + z')) in K by lra. pose proof (Rabs_pos (z - z')).
    assert (Rabs (z - z') * 1.84 <= Rabs (z - z') * (z + z')) by (apply Rmult_le_compat_l; lra). lra. }
  set (a := / (1 + z)). set (a' := / (1 + z')).
  assert (AB : forall w, 0.92 <= w -> 0 < / (1 + w) <= 0.53).
  { intros w Hw. split; [apply Rinv_0_lt_compat; lra|]. replace 0.53 with (/ (/ 0.53)) by lra. apply Rinv_le_contravar; lra. }
  destruct (AB z Z1) as [A1 A2]. destruct (AB z' Z1') as [A1' A2']. fold a in A1, A2. fold a' in A1', A2'.
  assert (DA : Rabs (a - a') <= 0.2 * D).
  { replace (a - a') with ((z' - z) * (a * a')) by (unfold a, a'; field; lra). rewrite Rabs_mult, (Rabs_minus_sym z' z).
    rewrite (Rabs_pos_eq (a * a')) by (apply Rmult_le_pos; lra).
    assert (a * a' <= 0.53 * 0.53) by (apply Rmult_le_compat; lra).
    apply Rle_trans with ((0.6 * D) * (0.53 * 0.53)); [apply Rmult_le_compat; try lra; [apply Rabs_pos|apply Rmult_le_pos; lra]|lra]. }
  assert (AA : Rabs a <= 0.53) by (rewrite Rabs_pos_eq; lra). assert (AA' : Rabs a' <= 0.53) by (rewrite Rabs_pos_eq; lra).
  assert (M : forall u v, Rabs u <= 0.27 -> Rabs v <= 0.27 -> Rabs (u * v) <= 0.0729).
  { intros u v U V. rewrite Rabs_mult. replace 0.0729 with (0.27 * 0.27) by lra. apply Rmult_le_compat; try assumption; apply Rabs_pos. }
  pose proof (prod_diff _ _ _ _ _ _ _ _ DA DXX (M _ _ X X) AA') as E1. pose proof (prod_diff _ _ _ _ _ _ _ _ DA DYY (M _ _ Y Y) AA') as E2.
  pose proof (prod_diff _ _ _ _ _ _ _ _ DA DXY (M _ _ X Y) AA') as E3.
  apply Rabs_le_inv in E1, E2, E3, Hx, Hy, DZ.
  apply fro_le. intros i j. unfold Qin. fold z z'. fold a a'. cbv zeta.
  destruct i, j; unfold entry, mget, mrow, vget; cbn [r0 r1 r2 v0 v1 v2]; apply Rabs_le; lra.
Qed.
Lemma Q_sens : forall x y s x' y' s' D, x * x + y * y <= 0.27 * 0.27 -> x' * x' + y' * y' <= 0.27 * 0.27 ->
  Rabs (x - x') <= D -> Rabs (y - y') <= D ->
  fro (fun i j => entry (Q_matrix x y s) i j - entry (Q_matrix x' y' s') i j) <= 3 * D + 2 * Rabs (s - s').
Proof.
  intros x y s x' y' s' D H H' Hx Hy. rewrite !Q_Qin.
  eapply Rle_trans; [apply (fro_sub_tri _ (mm (rot3 I2 (- s)) (Qin x' y')))|]. apply Rplus_le_compat.
  - rewrite fro_mm_l by apply rot3_proper. apply Qin_sens; assumption.
  - rewrite fro_mm_r by (apply Qin_proper; lra). eapply Rle_trans; [apply fro_rot|].
    replace (- s - - s') with (- (s - s')) by ring. rewrite Rabs_Ropp. apply Rle_refl.
Qed.

(** The matrices at binary64 *)
Lemma apx_of_near : forall x r f b, near x r f -> val (lo b) <= r <= val (hi b) -> f <= val (er b) -> apx x r b.
Proof. intros x r f b [F H] K L. split; [exact F|]. split; [exact K|lra]. Qed.

Lemma c2i_ok : forall lm, good_libm lm -> forall (d : TT (b64A lm)) (d' : TT realA) bt f g bx bs m,
  apx (tt_centuries (A := b64A lm) d) (centuries d') bt -> Rabs (centuries d') <= 10 ->
  precession_nutation (A := b64A lm) d = Val m -> mfro m (NPB (centuries d')) f -> f <= 1 / 10 ^ 6 -> g <= 1 / 10 ^ 6 ->
  val (lo bx) <= -1/4 -> 1/4 <= val (hi bx) -> f <= val (er bx) ->
  b_cio bt bx bx = Some bs -> -1/2 <= val (lo bs) -> val (hi bs) <= 1/2 -> val (er bs) <= g ->
  exists q, celestial_to_intermediate (A := b64A lm) d = Val q /\ mfro q (C2I (centuries d')) (3 * f + 2 * g + 1.8 / 10 ^ 14).
Proof.
  intros lm G d d' bt f g bx bs m Ht Hc Em Hm Lf Lg B1 B2 B3 Eb S1 S2 S3.
  set (x := mget (A := b64A lm) m I2 I0). set (y := mget (A := b64A lm) m I2 I1). set (t := centuries d') in *.
  assert (NX : near x (pole_x t) f) by exact (mfro_near _ _ _ _ I2 I0 Hm). assert (NY : near y (pole_y t) f) by exact (mfro_near _ _ _ _ I2 I1 Hm).
  assert (PB : pole_x t * pole_x t + pole_y t * pole_y t <= 1 / 4 * (1 / 4)).
  { destruct (C38_pole_near_pf d' Hc) as (m' & E & U). cbv zeta in U. rewrite pn_exact in E.
    assert (OI : forall m m' : mat3 realA, Val m = Val m' -> m = m') by (intros; congruence). apply OI in E. subst m'. fold t in U. unfold pole_x, pole_y. lra. }
  destruct (sq_bound _ _ (1/4) ltac:(lra) PB) as [PX PY]. 
  pose proof (Rabs_le_inv _ _ PX) as PX'. pose proof (Rabs_le_inv _ _ PY) as PY'.
  assert (AX : apx x (pole_x t) bx) by (apply (apx_of_near _ _ f); [exact NX|lra|exact B3]).
  assert (AY : apx y (pole_y t) bx) by (apply (apx_of_near _ _ f); [exact NY|lra|exact B3]).
  destruct (cio_ok lm G d d' x y _ _ _ _ _ _ Ht AX AY Eb) as (s & Es & Fs & Rs & Ds). fold t in Rs, Ds. change (cio_sxy2 t - pole_x t * pole_y t / 2) with (cio_s t) in Rs, Ds.
  destruct NX as [FX DX]. destruct NY as [FY DY].
  assert (XB : B2R x * B2R x + B2R y * B2R y <= 0.27 * 0.27).
  { assert (A : Rabs (B2R x * B2R x - pole_x t * pole_x t) <= f * 0.26 + 1/4 * f).
    { apply prod_diff; try assumption. replace (B2R x) with ((B2R x - pole_x t) + pole_x t) by ring. eapply Rle_trans; [apply Rabs_triang|]. lra. }
    assert (A' : Rabs (B2R y * B2R y - pole_y t * pole_y t) <= f * 0.26 + 1/4 * f).
    { apply prod_diff; try assumption. replace (B2R y) with ((B2R y - pole_y t) + pole_y t) by ring. eapply Rle_trans; [apply Rabs_triang|]. lra. }
    apply Rabs_le_inv in A, A'. lra. }
  assert (SB : Rabs (B2R s) <= 1) by (apply Rabs_le_inv in Ds; apply Rabs_le; lra).
  destruct (c2i_from_ok lm G x y s FX FY Fs ltac:(lra) SB) as (q & Eq & Hq). exists q. split.
  { unfold celestial_to_intermediate. rewrite Em. change (bind (Val m) ?h) with (h m). cbv beta.
    unfold c2i_with_bpn, xy_from_bpn, c2i_with_xy. fold x y. rewrite Es. change (bind (Val s) ?h) with (h s). cbv beta. exact Eq. }
  eapply mfro_le; [eapply mfro_shift; [exact Hq|apply (Q_sens _ _ _ (pole_x t) (pole_y t) (cio_s t) f XB ltac:(lra) DX DY)]|]. lra.
Qed.

Lemma c2t_val : forall (A : arith) (d : TT A) (u : UT1 A) xp yp q, celestial_to_intermediate d = Val q ->
  celestial_to_terrestrial d u xp yp = Val (mcompose (prod3 I0 (neg A yp) I1 (neg A xp) I2 (lit A 0 0)) (mcompose (rotg I2 (rotation_angle u)) q)).
Proof. intros A d u xp yp q E. unfold celestial_to_terrestrial. rewrite E. reflexivity. Qed.

Lemma near_self : forall x : b64, fin x = true -> near x (B2R x) 0.
Proof. intros x F. split; [exact F|]. rewrite Rminus_diag_eq by reflexivity. rewrite Rabs_R0. apply Rle_refl. Qed.

Lemma c2t_ok : forall lm, good_libm lm -> forall (d : TT (b64A lm)) (u : UT1 (b64A lm)) (xp yp : b64) rx ry ex ey t era q f h,
  near xp rx ex -> near yp ry ey -> ex <= 1 / 10 ^ 6 -> ey <= 1 / 10 ^ 6 -> celestial_to_intermediate (A := b64A lm) d = Val q -> mfro q (C2I t) f -> proper (C2I t) -> f <= 1 / 10 ^ 6 ->
  near_angle (rotation_angle (A := b64A lm) u) era h -> h <= 1 / 10 ^ 6 ->
  exists m, celestial_to_terrestrial (A := b64A lm) d u xp yp = Val m /\
    mfro m (C2T t era rx ry) (1.02 * f + 2.02 * h + 2.1 * (ex + ey) + 2.2 / 10 ^ 14).
Proof.
  intros lm G d u xp yp rx ry ex ey t era q f h Nx Ny Lx Ly E Hq Pq Lf Hu Lh. eexists. split; [apply (c2t_val _ _ _ _ _ _ E)|].
  destruct lit_0 as [Z0 FZ]. pose proof (near_self _ FZ) as N0. rewrite Z0 in N0.
  pose proof (prod3_ok lm G I0 _ _ _ I1 _ _ _ I2 _ _ _ (near_angle_of_near _ _ _ (near_neg _ _ _ Ny))
    (near_angle_of_near _ _ _ (near_neg _ _ _ Nx)) (near_angle_of_near _ _ _ N0) ltac:(lra) ltac:(lra) ltac:(lra)) as HW.
  pose proof (mfro_rotg lm G I2 _ _ _ Hu) as HR. rewrite b52 in HR.
  assert (X0 : 0 <= ex) by (destruct Nx as [_ K]; eapply Rle_trans; [apply Rabs_pos|exact K]).
  assert (Y0 : 0 <= ey) by (destruct Ny as [_ K]; eapply Rle_trans; [apply Rabs_pos|exact K]).
  assert (F0 : 0 <= f) by (destruct Hq as [_ K]; eapply Rle_trans; [apply fro_nonneg|exact K]).
  assert (H0 : 0 <= h) by (destruct Hu as (_ & k & K); eapply Rle_trans; [apply Rabs_pos|exact K]).
  pose proof (mfro_compose lm G _ _ _ _ _ _ (rot3_proper I2 era) Pq HR Hq ltac:(lra) ltac:(lra)) as H1.
  assert (PW : proper (mm (mm (rot3 I0 (- ry)) (rot3 I1 (- rx))) (rot3 I2 0))) by prove_proper.
  pose proof (mfro_compose lm G _ _ _ _ _ _ PW (proper_mm _ _ (rot3_proper I2 era) Pq) HW H1 ltac:(lra) ltac:(lra)) as H2.
  assert (EC : C2T t era (rx) (ry) = mcompose (A := realA) (mm (mm (rot3 I0 (- ry)) (rot3 I1 (- rx))) (rot3 I2 0)) (mcompose (A := realA) (rot3 I2 era) (C2I t))).
  { unfold C2T. rewrite product_3. unfold mm at 1 2. rewrite compose_assoc. unfold W_matrix. rewrite product_3. reflexivity. }
  rewrite EC. eapply mfro_le; [exact H2|lra].
Qed.
