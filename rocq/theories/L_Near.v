(** * How far a product of small rotations can move a vector *)

From Coq Require Import ZArith Reals Lra Lia Bool.
From Verif Require Import Outcome Arith ArithR M_Common M_Frames Spec_Matrix.
From Verif Require Import L_ArithR L_Matrix L_PMatrix L_Frames.
Open Scope R_scope.

Definition nrm (v : vec3 realA) : R := R_sqrt.sqrt (sprod v v).
Definition act (m : mat3 realA) (v : vec3 realA) : vec3 realA := mapply (A := realA) m v.
Definition sub (u v : vec3 realA) : vec3 realA := vsub (A := realA) u v.
Definition addv (u v : vec3 realA) : vec3 realA := vadd (A := realA) u v.

Ltac vec_calc := unfold sub, addv, vsub, vadd, sprod, coord; cbn [vget v0 v1 v2]; realA_ops; change (num realA) with R in *.

Lemma sprod_nonneg : forall v, 0 <= sprod v v.
Proof. intros [x y z]. unfold sprod, coord. cbn [vget v0 v1 v2]. change (num realA) with R in *. nra. Qed.

Lemma nrm_pos : forall v, 0 <= nrm v.
Proof. intros v. apply sqrt_pos. Qed.
Lemma nrm_sq : forall v, nrm v * nrm v = sprod v v.
Proof. intros v. apply sqrt_def. apply sprod_nonneg. Qed.
Lemma nrm_le : forall v c, 0 <= c -> sprod v v <= c * c -> nrm v <= c.
Proof. intros v c Hc H. pose proof (nrm_pos v). pose proof (nrm_sq v). nra. Qed.

Lemma nrm_triangle : forall u v, nrm (addv u v) <= nrm u + nrm v.
Proof.
  intros u v. pose proof (nrm_pos u). pose proof (nrm_pos v). apply nrm_le; [lra|].
  pose proof (nrm_sq u) as U. pose proof (nrm_sq v) as V. pose proof (cauchy u v) as C.
  rewrite <- U, <- V in C.
  assert (sprod u v <= nrm u * nrm v).
  { assert (0 <= nrm u * nrm v) by nra. apply Rnot_lt_le. intros L.
    replace (nrm u * nrm u * (nrm v * nrm v)) with (nrm u * nrm v * (nrm u * nrm v)) in C by ring. nra. }
  assert (E : sprod (addv u v) (addv u v) = sprod u u + 2 * sprod u v + sprod v v).
  { destruct u as [u0 u1 u2], v as [w0 w1 w2]. vec_calc. ring. }
  rewrite E, <- U, <- V. lra.
Qed.

Lemma act_nrm : forall m v, proper m -> nrm (act m v) = nrm v.
Proof. intros m v H. unfold nrm, act. rewrite (C32_apply_isometry_partial_pf m v v H). reflexivity. Qed.

Lemma act_mm : forall a b v, act (mm a b) v = act b (act a v).
Proof. intros a b v. apply (C32_apply_row_partial_pf a b v). Qed.

Lemma act_sub : forall m u v, act m (sub u v) = sub (act m u) (act m v).
Proof.
  intros m [x0 x1 x2] [y0 y1 y2]. apply vec_ext. intros i.
  destruct i; unfold act, mapply, sub, vsub, coord; cbn [vget v0 v1 v2 mget mrow r0 r1 r2]; realA_ops; ring.
Qed.

(** Every vector is moved by at most [d] times its length. *)
Definition near (m : mat3 realA) (d : R) : Prop := forall v, nrm (sub (act m v) v) <= d * nrm v.

Lemma one_minus_cos : forall x, 2 * (1 - cos x) <= x * x.
Proof.
  intros x. replace x with (2 * (x / 2)) at 1 by field. rewrite cos_2a_sin.
  assert (S : sin (x / 2) * sin (x / 2) <= x / 2 * (x / 2)).
  { destruct (Rtotal_order (x / 2) 0) as [H|[H|H]].
    - pose proof (sin_lt_x (- (x / 2)) ltac:(lra)) as L. rewrite sin_neg in L.
      destruct (Rle_dec (sin (x / 2)) 0); [nra|].
      assert (sin (x/2) <= - (x / 2)).
      { pose proof (SIN_bound (x/2)). destruct (Rlt_dec (- (x/2)) 1); [|lra].
        assert (0 <= sin (- (x/2))) by (pose proof PI2_1; apply sin_ge_0; lra). rewrite sin_neg in H1. lra. }
      nra.
    - rewrite H, sin_0. lra.
    - pose proof (sin_lt_x (x / 2) H) as L.
      destruct (Rle_dec 0 (sin (x / 2))); [nra|].
      assert (- (x / 2) <= sin (x/2)).
      { pose proof (SIN_bound (x/2)). destruct (Rlt_dec (x/2) 1); [|lra].
        assert (0 <= sin (x/2)) by (pose proof PI2_1; apply sin_ge_0; lra). lra. }
      nra. }
  lra.
Qed.

Lemma near_rot : forall ax t, near (rot3 ax t) (Rabs t).
Proof.
  intros ax t v. pose proof (nrm_pos v). pose proof (Rabs_pos t) as P. apply nrm_le; [nra|].
  assert (E : Rabs t * Rabs t = t * t) by (rewrite <- Rabs_mult; apply Rabs_pos_eq; nra).
  replace (Rabs t * nrm v * (Rabs t * nrm v)) with (Rabs t * Rabs t * (nrm v * nrm v)) by ring.
  rewrite E, nrm_sq. pose proof (one_minus_cos t) as C. pose proof (sin2_cos2 t) as S. unfold Rsqr in S.
  destruct v as [x y z]. clear H P E.
  assert (G : forall a b c : R, 2 * (1 - cos t) * (a * a + b * b) <= t * t * (a * a + b * b + c * c)).
  { intros a b c. assert (0 <= a * a + b * b) by nra. assert (0 <= c * c) by nra. assert (0 <= t * t) by nra. nra. }
  assert (K : forall a b : R, (cos t * a - sin t * b - a) * (cos t * a - sin t * b - a) +
     (sin t * a + cos t * b - b) * (sin t * a + cos t * b - b) = 2 * (1 - cos t) * (a * a + b * b)).
  { intros a b.
    transitivity ((sin t * sin t + cos t * cos t) * (a * a + b * b) - 2 * cos t * (a * a + b * b) + (a * a + b * b)); [ring|].
    rewrite S. ring. }
  destruct ax; unfold act, mapply, rot3; vec_calc; cbn [mget mrow vget v0 v1 v2 r0 r1 r2]; realA_ops.
  - eapply Rle_trans; [|apply (Rle_trans _ _ _ (G y z x))]; [|lra].
    rewrite <- (K y z). apply Req_le. ring.
  - eapply Rle_trans; [|apply (Rle_trans _ _ _ (G z x y))]; [|lra].
    rewrite <- (K z x). apply Req_le. ring.
  - eapply Rle_trans; [|apply (Rle_trans _ _ _ (G x y z))]; [|lra].
    rewrite <- (K x y). apply Req_le. ring.
Qed.

Lemma near_mm : forall a b x y, near a x -> near b y -> proper b -> near (mm a b) (x + y).
Proof.
  intros a b x y Ha Hb Pb v. rewrite act_mm.
  assert (E : sub (act b (act a v)) v = addv (act b (sub (act a v) v)) (sub (act b v) v)).
  { rewrite act_sub. apply vec_ext. intros i.
    destruct i; unfold sub, addv, vsub, vadd, coord; cbn [vget v0 v1 v2]; realA_ops; ring. }
  rewrite E. eapply Rle_trans; [apply nrm_triangle|]. rewrite act_nrm by exact Pb.
  pose proof (Ha v). pose proof (Hb v). lra.
Qed.

Lemma near_le : forall a x y, near a x -> x <= y -> near a y.
Proof. intros a x y H L v. pose proof (H v). pose proof (nrm_pos v). nra. Qed.

(** Conjugation by a rotation about one axis. *)
Lemma near_conj : forall ax c m x, near m x -> near (mm (mm (rot3 ax (- c)) m) (rot3 ax c)) x.
Proof.
  intros ax c m x H v. rewrite !act_mm.
  set (w := act (rot3 ax (- c)) v).
  assert (E : v = act (rot3 ax c) w).
  { unfold w. rewrite <- act_mm, mm_rot. replace (- c + c) with 0 by ring. rewrite rot3_0.
    symmetry. apply (C32_apply_row_partial_pf (midentity (A := realA)) (midentity (A := realA)) v). }
  rewrite E at 1. rewrite <- act_sub, act_nrm by apply rot3_proper.
  eapply Rle_trans; [apply H|]. unfold w. rewrite act_nrm by apply rot3_proper. lra.
Qed.

Lemma near_nutation : forall e dp de,
  near (mm (mm (rot3 I0 (- (e + de))) (rot3 I2 (- dp))) (rot3 I0 e)) (Rabs dp + Rabs de).
Proof.
  intros e dp de.
  replace (rot3 I0 (- (e + de))) with (mm (rot3 I0 (- de)) (rot3 I0 (- e))) by (rewrite mm_rot; f_equal; ring).
  rewrite !mm_assoc.
  rewrite Rplus_comm. apply near_mm.
  - rewrite <- (Rabs_Ropp de). apply near_rot.
  - rewrite <- mm_assoc. apply near_conj. rewrite <- (Rabs_Ropp dp). apply near_rot.
  - prove_proper.
Qed.

Lemma near_rp : forall chi om ps, near (rpR chi om ps) (Rabs chi + (Rabs ps + Rabs (om - EPS0 (A := realA)))).
Proof.
  intros chi om ps. unfold rpR. rewrite !mm_assoc. apply near_mm; [apply near_rot| |prove_proper].
  rewrite <- mm_assoc. set (e := EPS0 (A := realA)).
  pose proof (near_nutation e ps (om - e)) as H. replace (e + (om - e)) with om in H by ring. exact H.
Qed.

(** Third row of a matrix that moves vectors by less than sqrt 2. *)
Lemma near_row3 : forall m d, proper m -> near m d -> d * d < 2 ->
  entry m I2 I2 >= 1 - d * d / 2 /\
  entry m I2 I0 * entry m I2 I0 + entry m I2 I1 * entry m I2 I1 + entry m I2 I2 * entry m I2 I2 = 1.
Proof.
  intros m d [P1 _] H Hd. pose proof (P1 I2 I2) as U. unfold kron in U. split; [|lra].
  pose proof (H (V3 (A := realA) 0 0 1)) as K.
  assert (N : nrm (V3 (A := realA) 0 0 1) = 1).
  { unfold nrm, sprod, coord. cbn [vget v0 v1 v2]. replace (0 * 0 + 0 * 0 + 1 * 1) with 1 by ring. apply sqrt_1. }
  rewrite N, Rmult_1_r in K.
  pose proof (nrm_pos (sub (act m (V3 (A := realA) 0 0 1)) (V3 (A := realA) 0 0 1))) as P0.
  pose proof (nrm_sq (sub (act m (V3 (A := realA) 0 0 1)) (V3 (A := realA) 0 0 1))) as SQ.
  set (n := nrm _) in *.
  assert (E : sprod (sub (act m (V3 (A := realA) 0 0 1)) (V3 (A := realA) 0 0 1)) (sub (act m (V3 (A := realA) 0 0 1)) (V3 (A := realA) 0 0 1))
    = 2 - 2 * entry m I2 I2).
  { transitivity (entry m I2 I0 * entry m I2 I0 + entry m I2 I1 * entry m I2 I1 + entry m I2 I2 * entry m I2 I2 - 2 * entry m I2 I2 + 1);
     [|lra]. clear. unfold act, mapply, entry. vec_calc. ring. }
  rewrite E in SQ. nra.
Qed.
