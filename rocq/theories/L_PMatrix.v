(** * Proofs of the vector and matrix properties C31-C34 *)

From Coq Require Import ZArith Reals Lra Lia Bool.
From Flocq Require Import Core BinarySingleNaN.
From Verif Require Import Outcome Arith ArithR ArithF Spec_Float M_Common Spec_Matrix.
From Verif Require Import L_ArithR L_ArithF L_Matrix L_Sym L_FromJulianF L_Flit.
Open Scope R_scope.

(** C31.  [compose] is the matrix product (rows by columns), [transpose] swaps
    the indices, [identity] and [zero] are the unit and null matrices. *)
Lemma C31_matrix_functions_pf : forall a b,
  is_product a b (mcompose (A := realA) a b) /\
  (forall i j, entry (mtranspose (A := realA) a) i j = entry a j i) /\
  (forall i j, entry (midentity (A := realA)) i j = kron i j) /\
  (forall i j, entry (mzero (A := realA)) i j = 0).
Proof.
  intros a b. split; [apply mcompose_product|]. split; [apply mtranspose_entry|].
  split; [apply midentity_entry|apply mzero_entry].
Qed.

(** C31.  The algebraic laws. *)
Lemma C31_matrix_laws_pf : forall a b c : mat3 realA,
  let compose := mcompose (A := realA) in let transpose := mtranspose (A := realA) in
  let identity := midentity (A := realA) in let zero := mzero (A := realA) in
  compose (compose a b) c = compose a (compose b c) /\
  compose identity a = a /\ compose a identity = a /\
  compose zero a = zero /\ compose a zero = zero /\
  transpose (transpose a) = a /\
  transpose (compose a b) = compose (transpose b) (transpose a).
Proof.
  intros a b c. cbv zeta. split; [apply compose_assoc|]. split; [apply compose_id_l|]. split; [apply compose_id_r|].
  repeat split; apply mat_ext; intros i j; use_product; ring.
Qed.

(** The product of two concrete matrices, which do not commute. *)
Example C31_example_pf :
  let v := V3 (A := realA) in let m := M3 (A := realA) in
  let a := m (v 1 2 0) (v 0 1 0) (v 0 0 1) in
  let b := m (v 1 0 0) (v 3 1 0) (v 0 0 1) in
  mcompose (A := realA) a b = m (v 7 2 0) (v 3 1 0) (v 0 0 1) /\
  mcompose (A := realA) b a = m (v 1 2 0) (v 3 7 0) (v 0 0 1).
Proof.
  cbv zeta. split; apply mat_ext; intros i j; use_product; destruct i, j; unfold entry;
    cbn [mget mrow vget r0 r1 r2 v0 v1 v2]; realA_ops; ring.
Qed.

(** C32 is false: [apply] multiplies a row vector (it acts as the transpose), so
    it reverses the order of [compose]. *)
Lemma C32_apply_compose_refuted_pf : exists (a b : mat3 realA) (x : vec3 realA),
  proper a /\ proper b /\
  mapply (A := realA) (mcompose (A := realA) a b) x <>
  mapply (A := realA) a (mapply (A := realA) b x).
Proof.
  exists (rot3 I0 (PI / 2)), (rot3 I2 (PI / 2)), (V3 (A := realA) 1 0 0).
  split; [apply rot3_proper|]. split; [apply rot3_proper|].
  intros E. apply (f_equal (fun v => coord v I1)) in E. revert E.
  unfold mapply. unfold coord. cbn [vget v0 v1 v2].
  fold (entry (mcompose (A := realA) (rot3 I0 (PI / 2)) (rot3 I2 (PI / 2)))).
  repeat match goal with |- context [mget (mcompose ?a ?b) ?i ?j] =>
    change (mget (mcompose a b) i j) with (entry (mcompose (A := realA) a b) i j) end.
  use_product. unfold entry, rot3. cbn [mget mrow vget r0 r1 r2 v0 v1 v2]. realA_ops.
  rewrite sin_PI2, cos_PI2. lra.
Qed.

(** C32, what holds: [apply] is row-vector multiplication, i.e. the column
    action of the transpose, and composes contravariantly. *)
Lemma C32_apply_row_partial_pf : forall (a b : mat3 realA) (x : vec3 realA),
  is_row_image a x (mapply (A := realA) a x) /\
  is_column_image (mtranspose (A := realA) a) x (mapply (A := realA) a x) /\
  mapply (A := realA) (mcompose (A := realA) a b) x = mapply (A := realA) b (mapply (A := realA) a x) /\
  mapply (A := realA) (midentity (A := realA)) x = x.
Proof.
  intros a b x. mat_open.
  split; [intros i; destruct i; mat_calc; ring|].
  split; [intros i; destruct i; mat_calc; ring|].
  split; apply vec_ext; intros i; destruct i; mat_calc; ring.
Qed.

(** C32, consequence: a proper rotation applied this way preserves lengths and angles. *)
Lemma C32_apply_isometry_partial_pf : forall (m : mat3 realA) (x y : vec3 realA), proper m ->
  sprod (mapply (A := realA) m x) (mapply (A := realA) m y) = sprod x y.
Proof.
  intros m x y [H _].
  pose proof (H I0 I0) as b00. pose proof (H I0 I1) as b01. pose proof (H I0 I2) as b02.
  pose proof (H I1 I1) as b11. pose proof (H I1 I2) as b12. pose proof (H I2 I2) as b22. clear H.
  unfold kron in *. unfold sprod.
  destruct (C32_apply_row_partial_pf m m x) as [Ex _]. destruct (C32_apply_row_partial_pf m m y) as [Ey _].
  rewrite !Ex, !Ey. clear Ex Ey.
  set (x0 := coord x I0). set (x1 := coord x I1). set (x2 := coord x I2).
  set (y0 := coord y I0). set (y1 := coord y I1). set (y2 := coord y I2).
  transitivity (x0*y0 * (entry m I0 I0 * entry m I0 I0 + entry m I0 I1 * entry m I0 I1 + entry m I0 I2 * entry m I0 I2)
      + (x0*y1 + x1*y0) * (entry m I0 I0 * entry m I1 I0 + entry m I0 I1 * entry m I1 I1 + entry m I0 I2 * entry m I1 I2)
      + (x0*y2 + x2*y0) * (entry m I0 I0 * entry m I2 I0 + entry m I0 I1 * entry m I2 I1 + entry m I0 I2 * entry m I2 I2)
      + x1*y1 * (entry m I1 I0 * entry m I1 I0 + entry m I1 I1 * entry m I1 I1 + entry m I1 I2 * entry m I1 I2)
      + (x1*y2 + x2*y1) * (entry m I1 I0 * entry m I2 I0 + entry m I1 I1 * entry m I2 I1 + entry m I1 I2 * entry m I2 I2)
      + x2*y2 * (entry m I2 I0 * entry m I2 I0 + entry m I2 I1 * entry m I2 I1 + entry m I2 I2 * entry m I2 I2)); [ring|].
  rewrite b00, b01, b02, b11, b12, b22. ring.
Qed.

(** [apply] sends the first unit vector to the first row. *)
Example C32_example_pf : let v := V3 (A := realA) in let a := M3 (A := realA) (v 1 2 0) (v 0 1 0) (v 0 0 1) in
  mapply (A := realA) a (v 1 0 0) = v 1 2 0 /\ mapply (A := realA) a (v 0 1 0) = v 0 1 0.
Proof. cbv zeta. unfold mapply. realA_ops. split; cbn [r0 r1 r2 v0 v1 v2 mget mrow vget]; f_equal; change (num realA) with R; ring. Qed.

(** C33.  For the axes 0, 1, 2: the textbook frame rotation; proper; fixes the
    axis; additive in the angle; the transpose is the rotation by the opposite
    angle and the inverse. *)
Lemma C33_rotation_pf : forall (ax : idx) (s t : R),
  rotation (A := realA) (axis_number ax) t = Val (rot3 ax t) /\
  proper (rot3 ax t) /\
  (forall i, entry (rot3 ax t) ax i = kron ax i /\ entry (rot3 ax t) i ax = kron i ax) /\
  mcompose (A := realA) (rot3 ax s) (rot3 ax t) = rot3 ax (s + t) /\
  mtranspose (A := realA) (rot3 ax t) = rot3 ax (- t) /\
  mcompose (A := realA) (rot3 ax t) (rot3 ax (- t)) = midentity (A := realA) /\
  rot3 ax 0 = midentity (A := realA).
Proof.
  intros ax s t. split.
  { destruct ax; cbn [axis_number]; [apply rotation_0|apply rotation_1|apply rotation_2]. }
  split; [apply rot3_proper|]. split.
  { intros i. destruct ax, i; unfold entry, rot3, kron; cbn [mget mrow vget r0 r1 r2 v0 v1 v2]; split; reflexivity. }
  split; [apply rot3_add|]. split; [apply rot3_neg|]. split; [|apply rot3_0].
  rewrite rot3_add. replace (t + - t) with 0 by ring. apply rot3_0.
Qed.

(** C33.  Any other axis panics, in any arithmetic. *)
Lemma C33_rotation_bad_axis_pf : forall (A : arith) (n : nat) (t : num A), (3 <= n)%nat ->
  rotation (A := A) n t = Panic.
Proof.
  intros A n t H. unfold rotation.
  assert (E : idx_of_nat n = None) by (destruct n as [|[|[|n]]]; try lia; reflexivity).
  rewrite E.
  destruct (idx_of_nat ((n + 1) mod 3)); [|reflexivity]. destruct (idx_of_nat ((n + 2) mod 3)); reflexivity.
Qed.

(** A quarter turn about the third axis. *)
Example C33_example_pf : rotation (A := realA) 2 (PI / 2) =
  Val (M3 (A := realA) (V3 (A := realA) 0 1 0) (V3 (A := realA) (-1) 0 0) (V3 (A := realA) 0 0 1)).
Proof.
  rewrite rotation_2. unfold rot3. rewrite sin_PI2, cos_PI2. reflexivity.
Qed.

Lemma vnorm_R : forall a : vec3 realA, vnorm (A := realA) a = R_sqrt.sqrt (sprod a a).
Proof. intros [x y z]. reflexivity. Qed.

Lemma sprod_pos : forall a, ~ zero_vec a -> 0 < sprod a a.
Proof.
  intros [x y z] H. unfold sprod, zero_vec, coord in *. cbn [vget v0 v1 v2] in *. change (num realA) with R in *.
  destruct (Req_dec x 0) as [->|X]; [|nra]. destruct (Req_dec y 0) as [->|Y]; [|nra].
  destruct (Req_dec z 0) as [->|Z]; [|nra]. exfalso. apply H. intros i. destruct i; reflexivity.
Qed.

Lemma cauchy : forall a b, sprod a b * sprod a b <= sprod a a * sprod b b.
Proof.
  intros [a0 a1 a2] [b0 b1 b2]. unfold sprod, coord. cbn [vget v0 v1 v2]. change (num realA) with R in *.
  assert (0 <= (a0*b1-a1*b0)*(a0*b1-a1*b0) + (a0*b2-a2*b0)*(a0*b2-a2*b0) + (a1*b2-a2*b1)*(a1*b2-a2*b1))
    by (apply Rplus_le_le_0_compat; [apply Rplus_le_le_0_compat|]; apply Rle_0_sqr).
  lra.
Qed.

Lemma vangle_R : forall a b, vangle (A := realA) a b =
  acos (sprod a b * (/ R_sqrt.sqrt (sprod a a) * / R_sqrt.sqrt (sprod b b))).
Proof.
  intros a b. unfold vangle, vnormalize. rewrite !vnorm_R. unfold vdot, vscale. cbn [v0 v1 v2]. realA_ops. rlit_in_goal.
  f_equal. unfold Rdiv. generalize (/ R_sqrt.sqrt (sprod a a)) (/ R_sqrt.sqrt (sprod b b)). intros p q. unfold sprod.
  destruct a as [a0 a1 a2], b as [b0 b1 b2]. unfold coord. cbn [vget v0 v1 v2]. change (num realA) with R in *. ring.
Qed.

(** C34.  Exact arithmetic: for non-zero vectors the angle is in [0, pi] and its
    cosine is a.b / (|a| |b|), so it is the geometric angle. *)
Lemma C34_angle_partial_pf : forall a b, ~ zero_vec a -> ~ zero_vec b ->
  let th := vangle (A := realA) a b in
  0 <= th <= PI /\
  sprod a b = R_sqrt.sqrt (sprod a a) * R_sqrt.sqrt (sprod b b) * cos th.
Proof.
  intros a b Ha Hb th. unfold th. rewrite vangle_R. split; [apply acos_bound|].
  pose proof (sprod_pos a Ha) as Pa. pose proof (sprod_pos b Hb) as Pb.
  pose proof (sqrt_lt_R0 _ Pa) as Qa. pose proof (sqrt_lt_R0 _ Pb) as Qb.
  pose proof (cauchy a b) as C.
  pose proof (sqrt_def (sprod a a) ltac:(lra)) as Sa. pose proof (sqrt_def (sprod b b) ltac:(lra)) as Sb.
  set (p := R_sqrt.sqrt (sprod a a)) in *. set (q := R_sqrt.sqrt (sprod b b)) in *.
  assert (Hpq : 0 < p * q) by nra.
  assert (K : - (p * q) <= sprod a b <= p * q).
  { assert (sprod a b * sprod a b <= (p * q) * (p * q)) by (rewrite <- Sa, <- Sb in C; lra). nra. }
  rewrite cos_acos; [field; lra|].
  rewrite <- Rinv_mult. assert (I : 0 < / (p * q)) by (apply Rinv_0_lt_compat; exact Hpq).
  assert (J : p * q * / (p * q) = 1) by (apply Rinv_r; lra). nra.
Qed.

(** C34.  Symmetric, invariant under positive scaling, 0 for parallel and pi for
    opposite vectors. *)
Lemma C34_angle_laws_partial_pf : forall a b c d, ~ zero_vec a -> ~ zero_vec b -> 0 < c -> 0 < d ->
  vangle (A := realA) a b = vangle (A := realA) b a /\
  vangle (A := realA) (vscale (A := realA) a c) (vscale (A := realA) b d) = vangle (A := realA) a b /\
  vangle (A := realA) a (vscale (A := realA) a c) = 0 /\
  vangle (A := realA) a (vneg (A := realA) a) = PI.
Proof.
  intros a b c d Ha Hb Hc Hd.
  assert (SC : forall u v x y, sprod (vscale (A := realA) u x) (vscale (A := realA) v y) = x * y * sprod u v).
  { intros [u0 u1 u2] [w0 w1 w2] x y. unfold sprod, vscale, coord. cbn [vget v0 v1 v2]. realA_ops.
    change (num realA) with R in *. ring. }
  pose proof (sprod_pos a Ha) as Pa. pose proof (sprod_pos b Hb) as Pb.
  assert (S1 : forall u, vscale (A := realA) u 1 = u).
  { intros [u0 u1 u2]. apply vec_ext. intros i. destruct i; unfold coord, vscale; cbn [vget v0 v1 v2]; realA_ops; ring. }
  assert (SQ : forall u x, 0 < x -> 0 < sprod u u -> R_sqrt.sqrt (x * x * sprod u u) = x * R_sqrt.sqrt (sprod u u)).
  { intros u x Hx Hu. rewrite sqrt_mult by nra. rewrite sqrt_square by lra. reflexivity. }
  assert (SELF : sprod a a * (/ R_sqrt.sqrt (sprod a a) * / R_sqrt.sqrt (sprod a a)) = 1).
  { rewrite <- Rinv_mult. rewrite sqrt_def by lra. apply Rinv_r. lra. }
  pose proof (sqrt_lt_R0 _ Pa) as Qa. pose proof (sqrt_lt_R0 _ Pb) as Qb.
  split; [|split; [|split]].
  - rewrite !vangle_R. f_equal.
    replace (sprod b a) with (sprod a b) by (unfold sprod; ring). ring.
  - rewrite !vangle_R, !SC, !SQ by assumption. f_equal. field. lra.
  - rewrite <- (S1 a) at 1. rewrite vangle_R, !SC, !SQ by (try assumption; lra).
    replace (1 * c * sprod a a * (/ (1 * R_sqrt.sqrt (sprod a a)) * / (c * R_sqrt.sqrt (sprod a a))))
      with (sprod a a * (/ R_sqrt.sqrt (sprod a a) * / R_sqrt.sqrt (sprod a a))) by (field; lra).
    rewrite SELF. apply acos_1.
  - assert (E : vneg (A := realA) a = vscale (A := realA) a (-1)).
    { destruct a as [a0 a1 a2]. apply vec_ext. intros i. destruct i; unfold coord, vscale, vneg; cbn [vget v0 v1 v2]; realA_ops; ring. }
    rewrite E. rewrite <- (S1 a) at 1. rewrite vangle_R, !SC.
    replace (1 * 1 * sprod a a) with (sprod a a) by ring.
    replace (-1 * -1 * sprod a a) with (sprod a a) by ring.
    replace (1 * -1 * sprod a a * (/ R_sqrt.sqrt (sprod a a) * / R_sqrt.sqrt (sprod a a)))
      with (- (sprod a a * (/ R_sqrt.sqrt (sprod a a) * / R_sqrt.sqrt (sprod a a)))) by ring.
    rewrite SELF, acos_opp, acos_1. apply Rminus_0_r.
Qed.

(** C34 is false in binary64: for (1,1,1) and itself the argument passed to
    acos is 1 + 2^-52, so a conforming acos returns NaN. *)
Lemma C34_angle_refuted_pf : forall lm,
  (forall x, 1 < B2R x -> is_nan (lm_acos lm x) = true) ->
  let v := V3 (A := b64A lm) (Flit 1 0) (Flit 1 0) (Flit 1 0) in
  is_nan (vangle (A := b64A lm) v v) = true.
Proof.
  intros lm H v. unfold vangle. change (nacos (b64A lm)) with (lm_acos lm). apply H.
  rewrite B2R_SF.
  assert (E : B2SF (vdot (A := b64A lm) (vnormalize (A := b64A lm) v) (vnormalize (A := b64A lm) v)) =
    SpecFloat.S754_finite false 4503599627370497 (-52)) by (vm_compute; reflexivity).
  rewrite E. unfold SF2R, F2R. cbn [Fnum Fexp cond_Zopp].
  change (bpow radix2 (-52)) with (/ 4503599627370496). lra.
Qed.

(** The right angle between (1,1,0) and (1,-1,0). *)
Example C34_example_pf :
  vangle (A := realA) (V3 (A := realA) 1 1 0) (V3 (A := realA) 1 (-1) 0) = PI / 2.
Proof.
  rewrite vangle_R. unfold sprod at 1, coord. cbn [vget v0 v1 v2].
  replace (1 * 1 + 1 * -1 + 0 * 0) with 0 by ring. rewrite Rmult_0_l. apply acos_0.
Qed.

(** ** Vector operations *)

Lemma Fmul_comm : forall x y, Fmul x y = Fmul y x.
Proof.
  intros x y. apply B2SF_inj. unfold Fmul.
  destruct x as [sx|sx| |sx mx ex Hx], y as [sy|sy| |sy my ey Hy]; cbn [Bmult B2SF]; try reflexivity;
    try (rewrite xorb_comm; reflexivity).
  rewrite !B2SF_SF2B. rewrite xorb_comm, Pos.mul_comm, Z.add_comm. reflexivity.
Qed.

Lemma Fmul_opp2 : forall x, Fmul (Bopp x) (Bopp x) = Fmul x x.
Proof.
  intros x. apply B2SF_inj. unfold Fmul.
  destruct x as [sx|sx| |sx mx ex Hx]; cbn [Bmult Bopp B2SF]; try reflexivity; try (destruct sx; reflexivity).
  rewrite !B2SF_SF2B. replace (xorb (negb sx) (negb sx)) with (xorb sx sx) by (destruct sx; reflexivity). reflexivity.
Qed.

(** C63.  Exact arithmetic: the vector functions are the componentwise ones, the
    scalar product and the Euclidean length. *)
Lemma C63_vector_functions_pf : forall (a b : vec3 realA) (c : R),
  (forall i, coord (vneg (A := realA) a) i = - coord a i /\
     coord (vscale (A := realA) a c) i = c * coord a i /\
     coord (vadd (A := realA) a b) i = coord a i + coord b i /\
     coord (vsub (A := realA) a b) i = coord a i - coord b i /\
     (~ zero_vec a -> coord (vnormalize (A := realA) a) i = coord a i / R_sqrt.sqrt (sprod a a))) /\
  vdot (A := realA) a b = sprod a b /\
  vnorm (A := realA) a = R_sqrt.sqrt (sprod a a).
Proof.
  intros a b c. split; [|split; [reflexivity|apply vnorm_R]].
  intros i. repeat split; try (destruct i; reflexivity).
  intros Ha. unfold vnormalize. rewrite vnorm_R. unfold coord, vscale.
  destruct i; cbn [vget v0 v1 v2]; realA_ops; rlit_in_goal; unfold Rdiv; ring.
Qed.

(** C63.  Laws of the length. *)
Lemma C63_norm_laws_pf : forall (a b : vec3 realA) (c : R),
  0 <= vnorm (A := realA) a /\
  (vnorm (A := realA) a = 0 <-> zero_vec a) /\
  vnorm (A := realA) (vscale (A := realA) a c) = Rabs c * vnorm (A := realA) a /\
  vnorm (A := realA) (vneg (A := realA) a) = vnorm (A := realA) a /\
  vnorm (A := realA) (vadd (A := realA) a b) <= vnorm (A := realA) a + vnorm (A := realA) b /\
  Rabs (vdot (A := realA) a b) <= vnorm (A := realA) a * vnorm (A := realA) b /\
  (~ zero_vec a -> vnorm (A := realA) (vnormalize (A := realA) a) = 1 /\
     a = vscale (A := realA) (vnormalize (A := realA) a) (vnorm (A := realA) a)).
Proof.
  assert (POS : forall a, 0 <= sprod a a).
  { intros [x y z]. unfold sprod, coord. cbn [vget v0 v1 v2]. change (num realA) with R in *.
    pose proof (Rle_0_sqr x). pose proof (Rle_0_sqr y). pose proof (Rle_0_sqr z). unfold Rsqr in *. lra. }
  assert (SC : forall a c, R_sqrt.sqrt (sprod (vscale (A := realA) a c) (vscale (A := realA) a c)) = Rabs c * R_sqrt.sqrt (sprod a a)).
  { intros a c. replace (sprod (vscale (A := realA) a c) (vscale (A := realA) a c)) with (Rsqr c * sprod a a).
    - rewrite sqrt_mult; [|apply Rle_0_sqr|apply POS]. rewrite sqrt_Rsqr_abs. reflexivity.
    - destruct a as [x y z]. unfold sprod, vscale, coord, Rsqr. cbn [vget v0 v1 v2]. realA_ops.
      change (num realA) with R in *. ring. }
  assert (CS : forall a b, Rabs (sprod a b) <= R_sqrt.sqrt (sprod a a) * R_sqrt.sqrt (sprod b b)).
  { intros a b. rewrite <- sqrt_mult by apply POS. rewrite <- sqrt_Rsqr_abs. apply sqrt_le_1_alt. unfold Rsqr. apply cauchy. }
  intros a b c. rewrite !vnorm_R. pose proof (POS a) as Pa. pose proof (POS b) as Pb.
  split; [apply sqrt_pos|]. split; [|split; [|split; [|split; [|split]]]].
  - split; intros H.
    + destruct (Req_dec (sprod a a) 0) as [E|N].
      * intros i. destruct a as [x y z]. unfold sprod, coord in E |- *. cbn [vget v0 v1 v2] in E. change (num realA) with R in *.
        assert (x = 0 /\ y = 0 /\ z = 0) as (-> & -> & ->) by (repeat split; nra). destruct i; reflexivity.
      * assert (0 < sprod a a) by lra. apply sqrt_lt_R0 in H0. lra.
    + unfold sprod. rewrite !H. rewrite !Rmult_0_l, !Rplus_0_l. apply sqrt_0.
  - apply SC.
  - replace (vneg (A := realA) a) with (vscale (A := realA) a (-1)).
    + rewrite SC. replace (Rabs (-1)) with 1 by (rewrite Rabs_left by lra; ring). apply Rmult_1_l.
    + apply vec_ext. intros i. destruct i; unfold coord, vscale, vneg; cbn [vget v0 v1 v2]; realA_ops; ring.
  - pose proof (sqrt_pos (sprod a a)) as Q1. pose proof (sqrt_pos (sprod b b)) as Q2.
    pose proof (CS a b) as C. pose proof (Rle_abs (sprod a b)) as D.
    pose proof (sqrt_def _ Pa) as S1. pose proof (sqrt_def _ Pb) as S2.
    apply Rsqr_incr_0_var; [|lra]. unfold Rsqr. rewrite sqrt_def by apply POS.
    replace (sprod (vadd (A := realA) a b) (vadd (A := realA) a b)) with (sprod a a + 2 * sprod a b + sprod b b).
    + nra.
    + destruct a as [x y z], b as [u v w]. unfold sprod, vadd, coord. cbn [vget v0 v1 v2]. realA_ops.
      change (num realA) with R in *. ring.
  - apply (CS a b).
  - intros Ha. pose proof (sprod_pos a Ha) as P. pose proof (sqrt_lt_R0 _ P) as Q.
    unfold vnormalize. rewrite !vnorm_R. realA_ops. rlit_in_goal. split.
    + rewrite SC. unfold Rdiv. rewrite Rmult_1_l, Rabs_pos_eq; [apply Rinv_l; lra|].
      left. apply Rinv_0_lt_compat, Q.
    + set (q := R_sqrt.sqrt (sprod a a)) in *.
      assert (G : forall x : R, x = q * (1 / q * x)) by (intros x; field; lra).
      apply vec_ext. intros i. destruct i; unfold coord, vscale; cbn [vget v0 v1 v2]; realA_ops; apply G.
Qed.

(** C63.  Binary64, bit for bit and for every input (NaN and infinities included). *)
Lemma C63_symmetry_b64_pf : forall lm (a b : vec3 (b64A lm)),
  vadd (A := b64A lm) a b = vadd (A := b64A lm) b a /\
  vdot (A := b64A lm) a b = vdot (A := b64A lm) b a /\
  vnorm (A := b64A lm) (vneg (A := b64A lm) a) = vnorm (A := b64A lm) a.
Proof.
  intros lm a b. unfold vadd, vdot, vnorm, vneg, sq. cbn [v0 v1 v2]. b64A_ops.
  rewrite !Fmul_opp2. split; [|split; [|reflexivity]].
  - rewrite (Fadd_comm (v0 a)), (Fadd_comm (v1 a)), (Fadd_comm (v2 a)). reflexivity.
  - rewrite (Fmul_comm (v0 a)), (Fmul_comm (v1 a)), (Fmul_comm (v2 a)). reflexivity.
Qed.

Lemma Fsqrt_ok : forall x, fin x = true -> 0 <= B2R x -> B2R (Fsqrt x) = rnd (R_sqrt.sqrt (B2R x)) /\ fin (Fsqrt x) = true.
Proof.
  intros x F P. destruct (Bsqrt_correct 53 1024 _ _ mode_NE x) as (A & B & _). split; [exact A|].
  unfold Fsqrt. rewrite B. destruct x as [s|s| |[|] m e H]; try reflexivity; try discriminate F.
  exfalso. assert (B2R (B754_finite true m e H) < 0) by (apply F2R_lt_0; reflexivity). lra.
Qed.

Lemma bpow_m53 : bpow radix2 (-53) = / 9007199254740992.
Proof. reflexivity. Qed.

(** Relative error of one operation, away from underflow. *)
Lemma rnd_rel_n : forall x t, 0 <= t -> bpow radix2 (-1021) <= t -> Rabs (rnd x - x) <= / 9007199254740992 * (Rabs x + t).
Proof.
  intros x t T0 T. pose proof (rnd_rel x) as H.
  replace (/ 2 * bpow radix2 (-52)) with (bpow radix2 (-53)) in H by (rewrite bpow_m53; change (bpow radix2 (-52)) with (/ 4503599627370496); lra).
  assert (bpow radix2 (-1074) = / 9007199254740992 * bpow radix2 (-1021)) by (rewrite <- bpow_m53, <- bpow_plus; reflexivity).
  rewrite bpow_m53 in H. assert (0 < bpow radix2 (-1021)) by apply bpow_gt_0. lra.
Qed.

Lemma norm_b64 : forall lm (a : vec3 (b64A lm)),
  fin (v0 a) = true -> fin (v1 a) = true -> fin (v2 a) = true ->
  Rabs (B2R (v0 a)) <= bpow radix2 500 -> Rabs (B2R (v1 a)) <= bpow radix2 500 -> Rabs (B2R (v2 a)) <= bpow radix2 500 ->
  forall S, S = B2R (v0 a) * B2R (v0 a) + B2R (v1 a) * B2R (v1 a) + B2R (v2 a) * B2R (v2 a) ->
  bpow radix2 (-800) <= S ->
  fin (vnorm (A := b64A lm) a) = true /\
  Rabs (B2R (vnorm (A := b64A lm) a) - R_sqrt.sqrt S) <= 3 * / 9007199254740992 * R_sqrt.sqrt S.
Proof.
  intros lm [x y z]. cbn [v0 v1 v2]. unfold vnorm, sq. cbn [v0 v1 v2]. b64A_ops.
  intros Fx Fy Fz Hx Hy Hz S DS HS.
  set (X := B2R x) in *. set (Y := B2R y) in *. set (Z := B2R z) in *.
  pose proof (bpow_gt_0 radix2 (-800)) as T0. pose proof (bpow_gt_0 radix2 500) as B0.
  assert (B2 : bpow radix2 1000 = bpow radix2 500 * bpow radix2 500) by (rewrite <- bpow_plus; reflexivity).
  assert (B3 : bpow radix2 1003 = 8 * bpow radix2 1000) by (change 1003%Z with (3 + 1000)%Z; rewrite bpow_plus; reflexivity).
  assert (SQ : forall w, Rabs w <= bpow radix2 500 -> 0 <= w * w <= bpow radix2 1000).
  { intros w Hw. pose proof (Rabs_pos w). assert (E : w * w = Rabs w * Rabs w) by (unfold Rabs; destruct (Rcase_abs w); ring).
    rewrite E, B2. split; nra. }
  pose proof (SQ X Hx) as QX. pose proof (SQ Y Hy) as QY. pose proof (SQ Z Hz) as QZ.
  assert (SM : forall w, 0 <= w <= bpow radix2 1003 -> small w).
  { intros w Hw. apply small_le with 1003%Z; [lia|]. rewrite Rabs_pos_eq; lra. }
  set (t := bpow radix2 (-900)). assert (Ht : 0 < t) by apply bpow_gt_0.
  assert (Ht2 : bpow radix2 (-1021) <= t) by (apply bpow_le; lia).
  assert (Ht3 : t <= bpow radix2 (-100) * S).
  { apply Rle_trans with (bpow radix2 (-100) * bpow radix2 (-800)); [rewrite <- bpow_plus; apply Rle_refl|].
    apply Rmult_le_compat_l; [apply bpow_ge_0|exact HS]. }
  assert (H100 : bpow radix2 (-100) <= / 1000000).
  { apply Rle_trans with (bpow radix2 (-20)); [apply bpow_le; lia|]. change (bpow radix2 (-20)) with (/ 1048576). lra. }
  assert (Ht4 : t <= / 1000000 * S).
  { assert (0 <= S) by lra. nra. }
  assert (MUL : forall w, fin w = true -> Rabs (B2R w) <= bpow radix2 500 ->
    fin (Fmul w w) = true /\ Rabs (B2R (Fmul w w) - B2R w * B2R w) <= / 9007199254740992 * (B2R w * B2R w + t)).
  { intros w Fw Hw. pose proof (SQ _ Hw) as Q. destruct (Fmul_ok w w Fw Fw) as [E F]; [apply SM; lra|].
    split; [exact F|]. rewrite E. pose proof (rnd_rel_n (B2R w * B2R w) t ltac:(lra) Ht2) as G.
    rewrite (Rabs_pos_eq (B2R w * B2R w)) in G by lra. exact G. }
  destruct (MUL x Fx Hx) as [Fx2 Ex]. destruct (MUL y Fy Hy) as [Fy2 Ey]. destruct (MUL z Fz Hz) as [Fz2 Ez].
  fold X in Ex. fold Y in Ey. fold Z in Ez. clear MUL.
  assert (T1000 : t <= bpow radix2 1000) by (apply bpow_le; lia).
  set (x2 := Fmul x x) in *. set (y2 := Fmul y y) in *. set (z2 := Fmul z z) in *.
  apply Rabs_le_inv in Ex, Ey, Ez.
  assert (Px : 0 <= B2R x2). { unfold x2. destruct (Fmul_ok x x Fx Fx) as [E _]; [apply SM; fold X; lra|]. rewrite E. fold X. rewrite <- (rnd_id 0) by apply generic_format_0. apply rnd_mono. lra. }
  assert (Py : 0 <= B2R y2). { unfold y2. destruct (Fmul_ok y y Fy Fy) as [E _]; [apply SM; fold Y; lra|]. rewrite E. fold Y. rewrite <- (rnd_id 0) by apply generic_format_0. apply rnd_mono. lra. }
  assert (Pz : 0 <= B2R z2). { unfold z2. destruct (Fmul_ok z z Fz Fz) as [E _]; [apply SM; fold Z; lra|]. rewrite E. fold Z. rewrite <- (rnd_id 0) by apply generic_format_0. apply rnd_mono. lra. }
  destruct (Fadd_ok x2 y2 Fx2 Fy2) as [Es Fs]; [apply SM; lra|].
  pose proof (rnd_rel_n (B2R x2 + B2R y2) t ltac:(lra) Ht2) as Gs. rewrite (Rabs_pos_eq (B2R x2 + B2R y2)) in Gs by lra.
  rewrite <- Es in Gs. apply Rabs_le_inv in Gs.
  assert (Ps : 0 <= B2R (Fadd x2 y2)). { rewrite Es. rewrite <- (rnd_id 0) by apply generic_format_0. apply rnd_mono. lra. }
  set (s := Fadd x2 y2) in *.
  destruct (Fadd_ok s z2 Fs Fz2) as [Er Fr]; [apply SM; lra|].
  pose proof (rnd_rel_n (B2R s + B2R z2) t ltac:(lra) Ht2) as Gr. rewrite (Rabs_pos_eq (B2R s + B2R z2)) in Gr by lra.
  rewrite <- Er in Gr. apply Rabs_le_inv in Gr.
  assert (Pr : 0 <= B2R (Fadd s z2)). { rewrite Er. rewrite <- (rnd_id 0) by apply generic_format_0. apply rnd_mono. lra. }
  set (r := Fadd s z2) in *.
  assert (ER : - (3.1 * / 9007199254740992 * S) <= B2R r - S <= 3.1 * / 9007199254740992 * S).
  { clear Ht3 H100 Hx Hy Hz QX QY QZ Es Er HS SM SQ. subst S. 
    set (xx := X * X) in *. set (yy := Y * Y) in *. set (zz := Z * Z) in *.
    clearbody xx yy zz.
    lra. }
  destruct (Fsqrt_ok r Fr Pr) as [Eq Fq]. split; [exact Fq|]. rewrite Eq.
  pose proof (rnd_rel_n (R_sqrt.sqrt (B2R r)) t ltac:(lra) Ht2) as Gq.
  pose proof (sqrt_pos (B2R r)) as P1. rewrite (Rabs_pos_eq (R_sqrt.sqrt (B2R r))) in Gq by exact P1.
  assert (S0 : 0 < S) by lra.
  pose proof (sqrt_lt_R0 S S0) as P2. pose proof (sqrt_def S ltac:(lra)) as D2. pose proof (sqrt_def (B2R r) Pr) as D1.
  assert (T5 : t <= / 1000000 * R_sqrt.sqrt S).
  { apply Rle_trans with (bpow radix2 (-100) * bpow radix2 (-400)).
    - rewrite <- bpow_plus. apply bpow_le. lia.
    - apply Rmult_le_compat; try apply bpow_ge_0; [exact H100|].
      rewrite <- (sqrt_square (bpow radix2 (-400))) by apply bpow_ge_0. apply sqrt_le_1_alt.
      rewrite <- bpow_plus. exact HS. }
  set (q := R_sqrt.sqrt (B2R r)) in *. set (p := R_sqrt.sqrt S) in *.
  assert (QL : 0.99 * p <= q).
  { destruct (Rle_lt_dec (0.99 * p) q) as [H|H]; [exact H|exfalso]. rewrite <- D2, <- D1 in ER.
    assert (q * q <= (0.99 * p) * (0.99 * p)) by (apply Rmult_le_compat; lra).
    assert (0 < p * p) by (apply Rmult_lt_0_compat; lra). lra. }
  assert (DQ : - (1.6 * / 9007199254740992 * p) <= q - p <= 1.6 * / 9007199254740992 * p).
  { assert (D : (q - p) * (q + p) = B2R r - S) by lra.
    assert (P3 : 0 < q + p) by lra. clear - D ER D2 P1 P2 P3 QL. assert (P0 : 0 < p * p) by (apply Rmult_lt_0_compat; lra).
    split.
    - destruct (Rle_lt_dec (- (1.6 * / 9007199254740992 * p)) (q - p)) as [H|H]; [exact H|exfalso].
      assert ((1.6 * / 9007199254740992 * p) * (1.99 * p) <= (p - q) * (q + p)) by (apply Rmult_le_compat; lra). lra.
    - destruct (Rle_lt_dec (q - p) (1.6 * / 9007199254740992 * p)) as [H|H]; [exact H|exfalso].
      assert ((1.6 * / 9007199254740992 * p) * (1.99 * p) <= (q - p) * (q + p)) by (apply Rmult_le_compat; lra). lra. }
  apply Rabs_le_inv in Gq. apply Rabs_le. lra.
Qed.

(** C63.  Binary64: when no component exceeds 2^500 and the length is at least
    2^-400, the length is accurate to 3 units of 2^-53 and every coordinate of the
    normalised vector to 8 of them. *)
Lemma C63_norm_accuracy_b64_pf : forall lm (a : vec3 (b64A lm)),
  (forall i, fin (vget (A := b64A lm) a i) = true /\ Rabs (B2R (vget (A := b64A lm) a i)) <= bpow radix2 500) ->
  let len := R_sqrt.sqrt (B2R (v0 a) ^ 2 + B2R (v1 a) ^ 2 + B2R (v2 a) ^ 2) in
  bpow radix2 (-400) <= len ->
  fin (vnorm (A := b64A lm) a) = true /\
  Rabs (B2R (vnorm (A := b64A lm) a) - len) <= 3 * bpow radix2 (-53) * len /\
  forall i, fin (vget (A := b64A lm) (vnormalize (A := b64A lm) a) i) = true /\
    Rabs (B2R (vget (A := b64A lm) (vnormalize (A := b64A lm) a) i) - B2R (vget (A := b64A lm) a i) / len)
      <= bpow radix2 (-50).
Proof.
  intros lm a H len HL.
  set (S := B2R (v0 a) * B2R (v0 a) + B2R (v1 a) * B2R (v1 a) + B2R (v2 a) * B2R (v2 a)).
  assert (ES : len = R_sqrt.sqrt S) by (unfold len, S; f_equal; ring).
  assert (PS : 0 <= S).
  { unfold S. pose proof (Rle_0_sqr (B2R (v0 a))). pose proof (Rle_0_sqr (B2R (v1 a))). pose proof (Rle_0_sqr (B2R (v2 a))).
    unfold Rsqr in *. lra. }
  pose proof (bpow_gt_0 radix2 (-400)) as B4.
  assert (HS : bpow radix2 (-800) <= S).
  { rewrite <- (sqrt_def S PS), <- ES. change (-800)%Z with (-400 + -400)%Z. rewrite bpow_plus. apply Rmult_le_compat; lra. }
  destruct (norm_b64 lm a (proj1 (H I0)) (proj1 (H I1)) (proj1 (H I2)) (proj2 (H I0)) (proj2 (H I1)) (proj2 (H I2)) S eq_refl HS) as [Fn En].
  rewrite <- ES in En. split; [exact Fn|]. split; [rewrite bpow_m53; exact En|].
  set (n := vnorm (A := b64A lm) a) in *.
  assert (L0 : 0 < len) by lra. apply Rabs_le_inv in En.
  assert (N0 : 0.9 * len <= B2R n <= 1.1 * len) by lra.
  assert (UP : len <= bpow radix2 502).
  { rewrite ES. rewrite <- (sqrt_square (bpow radix2 502)) by apply bpow_ge_0. apply sqrt_le_1_alt.
    assert (E2 : forall i, B2R (vget (A := b64A lm) a i) * B2R (vget (A := b64A lm) a i) <= bpow radix2 500 * bpow radix2 500).
    { intros i. pose proof (proj2 (H i)) as K. pose proof (Rabs_pos (B2R (vget (A := b64A lm) a i))).
      replace (B2R (vget (A := b64A lm) a i) * B2R (vget (A := b64A lm) a i)) with
        (Rabs (B2R (vget (A := b64A lm) a i)) * Rabs (B2R (vget (A := b64A lm) a i))) by (unfold Rabs; destruct (Rcase_abs _); ring).
      apply Rmult_le_compat; assumption. }
    pose proof (E2 I0) as K0. pose proof (E2 I1) as K1. pose proof (E2 I2) as K2. cbn [vget] in K0, K1, K2. unfold S.
    change 502%Z with (2 + 500)%Z. rewrite bpow_plus. change (bpow radix2 2) with 4.
    assert (0 <= bpow radix2 500 * bpow radix2 500) by (apply Rmult_le_pos; apply bpow_ge_0). lra. }
  destruct (Flit_int 1 ltac:(lia)) as [L1 F1].
  assert (I1 : 0 < / B2R n) by (apply Rinv_0_lt_compat; lra).
  assert (I2 : / B2R n <= bpow radix2 401).
  { apply Rle_trans with (/ (bpow radix2 (-401))); [|rewrite <- bpow_opp; apply Rle_refl].
    apply Rinv_le_contravar; [apply bpow_gt_0|]. change (-401)%Z with (-1 + -400)%Z. rewrite bpow_plus.
    change (bpow radix2 (-1)) with (/ 2). lra. }
  destruct (Fdiv_ok (Flit 1 0) n F1) as [Ec Fc]; [lra| |].
  { rewrite L1. apply small_le with 401%Z; [lia|]. unfold Rdiv. rewrite Rmult_1_l, Rabs_pos_eq by lra. exact I2. }
  rewrite L1 in Ec. unfold Rdiv in Ec. rewrite Rmult_1_l in Ec.
  assert (J : bpow radix2 (-600) <= / 1000000 * / B2R n).
  { apply Rle_trans with (/ 1000000 * bpow radix2 (-503)).
    - change (-600)%Z with (-97 + -503)%Z. rewrite bpow_plus. apply Rmult_le_compat_r; [apply bpow_ge_0|].
      apply Rle_trans with (bpow radix2 (-20)); [apply bpow_le; lia|]. change (bpow radix2 (-20)) with (/ 1048576). lra.
    - apply Rmult_le_compat_l; [lra|]. change (-503)%Z with (- (503))%Z. rewrite bpow_opp. apply Rinv_le_contravar; [lra|].
      change 503%Z with (1 + 502)%Z. rewrite bpow_plus. change (bpow radix2 1) with 2. lra. }
  pose proof (rnd_rel_n (/ B2R n) (bpow radix2 (-600)) ltac:(apply bpow_ge_0) ltac:(apply bpow_le; lia)) as Gc.
  rewrite (Rabs_pos_eq (/ B2R n)) in Gc by lra. rewrite <- Ec in Gc. apply Rabs_le_inv in Gc.
  set (c := Fdiv (Flit 1 0) n) in *.
  assert (CL : Rabs (B2R c * len - 1) <= 5 * / 9007199254740992).
  { assert (EI : / B2R n * B2R n = 1) by (apply Rinv_l; lra).
    set (i := / B2R n) in *. clearbody i. apply Rabs_le.
    assert (A1 : i * len - 1 = i * (len - B2R n)) by lra.
    assert (A2 : i * len <= 1.2) by (assert (i * (0.9 * len) <= i * B2R n) by (apply Rmult_le_compat_l; lra); lra).
    assert (A3 : - (3 * / 9007199254740992 * (i * len)) <= i * (len - B2R n) <= 3 * / 9007199254740992 * (i * len)).
    { replace (3 * / 9007199254740992 * (i * len)) with (i * (3 * / 9007199254740992 * len)) by ring.
      replace (- (i * (3 * / 9007199254740992 * len))) with (i * (- (3 * / 9007199254740992 * len))) by ring.
      split; apply Rmult_le_compat_l; lra. }
    assert (A4 : - (1.1 * / 9007199254740992 * (i * len)) <= (B2R c - i) * len <= 1.1 * / 9007199254740992 * (i * len)).
    { replace (1.1 * / 9007199254740992 * (i * len)) with ((1.1 * / 9007199254740992 * i) * len) by ring.
      replace (- (1.1 * / 9007199254740992 * i * len)) with ((- (1.1 * / 9007199254740992 * i)) * len) by ring.
      split; apply Rmult_le_compat_r; lra. }
    split; lra. }
  intros i.
  assert (XI : Rabs (B2R (vget (A := b64A lm) a i)) <= len).
  { rewrite ES. rewrite <- sqrt_Rsqr_abs. apply sqrt_le_1_alt. unfold S, Rsqr.
    pose proof (Rle_0_sqr (B2R (v0 a))). pose proof (Rle_0_sqr (B2R (v1 a))). pose proof (Rle_0_sqr (B2R (v2 a))). unfold Rsqr in *.
    destruct i; cbn [vget]; lra. }
  assert (EV : vget (A := b64A lm) (vnormalize (A := b64A lm) a) i = Fmul c (vget (A := b64A lm) a i)) by (destruct i; reflexivity).
  rewrite EV. set (x := vget (A := b64A lm) a i) in *.
  apply Rabs_le_inv in CL. apply Rabs_le_inv in XI.
  assert (CX : B2R c * B2R x = B2R x / len + (B2R c * len - 1) * (B2R x / len)) by (field; lra).
  assert (Q : -1 <= B2R x / len <= 1).
  { split; apply Rmult_le_reg_r with len; try lra; unfold Rdiv; rewrite Rmult_assoc, Rinv_l by lra; lra. }
  set (w := B2R x / len) in *.
  assert (A5 : Rabs ((B2R c * len - 1) * w) <= 5 * / 9007199254740992 * 1).
  { rewrite Rabs_mult. apply Rmult_le_compat; try apply Rabs_pos; apply Rabs_le; lra. }
  apply Rabs_le_inv in A5.
  assert (A6 : Rabs (B2R c * B2R x) <= 2) by (rewrite CX; apply Rabs_le; lra).
  destruct (Fmul_ok c x Fc (proj1 (H i))) as [Ex Fx].
  { apply small_le with 1%Z; [lia|]. exact A6. }
  split; [exact Fx|]. rewrite Ex.
  pose proof (rnd_error (B2R c * B2R x) 1 ltac:(lia) A6) as G. apply Rabs_le_inv in G.
  change (bpow radix2 (1 - 53)) with (/ 4503599627370496) in G. change (bpow radix2 (-50)) with (/ 1125899906842624).
  apply Rabs_le. rewrite CX in *. lra.
Qed.

(** (3,4,12) has length 13, also in binary64. *)
Example C63_example_pf :
  vnorm (A := realA) (V3 (A := realA) 3 4 12) = 13 /\
  (forall lm, B2SF (vnorm (A := b64A lm) (V3 (A := b64A lm) (FofZ 3) (FofZ 4) (FofZ 12))) = B2SF (FofZ 13)).
Proof.
  split.
  - rewrite vnorm_R. unfold sprod, coord. cbn [vget v0 v1 v2].
    replace (3 * 3 + 4 * 4 + 12 * 12) with (13 * 13) by ring. apply sqrt_square. lra.
  - intros lm. vm_compute. reflexivity.
Qed.
