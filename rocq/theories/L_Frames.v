(** * Lemmas on the frame matrices (exact arithmetic) *)

From Coq Require Import ZArith Reals Lra Lia Bool List.
From Flocq Require Import Core.
From Verif Require Import Outcome Arith ArithR M_Common M_Time M_Earth M_Locator M_Frames Spec_Matrix.
From Verif Require Import L_ArithR L_Matrix.
Open Scope R_scope.

Ltac rots := repeat (rewrite ?rotation_0, ?rotation_1, ?rotation_2; cbn [bind]).

Definition mm (a b : mat3 realA) : mat3 realA := mcompose (A := realA) a b.

Lemma polar_motion_R : forall xp yp sp, polar_motion_matrix (A := realA) xp yp sp =
  Val (mm (mm (rot3 I0 (- yp)) (rot3 I1 (- xp))) (rot3 I2 sp)).
Proof. intros. unfold polar_motion_matrix. rots. realA_ops. rewrite compose_id_l. reflexivity. Qed.

Lemma nutation_matrix_R : forall e dp de, nutation_matrix (A := realA) e dp de =
  Val (mm (mm (rot3 I0 (- (e + de))) (rot3 I2 (- dp))) (rot3 I0 e)).
Proof. intros. unfold nutation_matrix. rots. realA_ops. rewrite compose_id_l. reflexivity. Qed.

(** The parts of [bias_and_precession]. *)
Definition rbR : mat3 realA :=
  mm (mm (rot3 I0 (- (snd (fst (frame_bias (A := realA)))))) (rot3 I1 (fst (fst (frame_bias (A := realA))) * sin (EPS0 (A := realA)))))
     (rot3 I2 (snd (frame_bias (A := realA)))).
Definition rpR (chi om ps : R) : mat3 realA :=
  mm (mm (mm (rot3 I2 chi) (rot3 I0 (- om))) (rot3 I2 (- ps))) (rot3 I0 (EPS0 (A := realA))).
Definition psiaR (t : R) : R := psia77 (A := realA) t + - Rlit 29965 (-5) * (PI / 648000) * t.
Definition omaR (t : R) : R := oma77 (A := realA) t + - Rlit 2524 (-5) * (PI / 648000) * t.
Definition chiaR (t : R) : R := chia (A := realA) t.
Definition rpRt (t : R) : mat3 realA := rpR (chiaR t) (omaR t) (psiaR t).

Lemma bias_precession_R : forall d, let t := tt_centuries (A := realA) d in
  bias_and_precession (A := realA) d = Val (rbR, rpRt t, mm (rpRt t) rbR).
Proof.
  intros d t. unfold bias_and_precession. fold t. unfold frame_bias, precession_rate. fold t.
  rots. unfold rpRt, rpR, rbR, psiaR, omaR, chiaR, mm, frame_bias. cbn [fst snd]. realA_ops. rewrite !compose_id_l. reflexivity.
Qed.

Lemma c2i_from_xys_R : forall x y s,
  let r2 := x * x + y * y in
  let e := if Rlt_bool 0 r2 then Ratan2 y x else 0 in
  let d := atan (R_sqrt.sqrt (r2 / (1 - r2))) in
  c2i_from_xys (A := realA) x y s = Val (mm (mm (rot3 I2 (- (e + s))) (rot3 I1 d)) (rot3 I2 e)).
Proof.
  intros x y s r2 e d. unfold c2i_from_xys. rots. realA_ops. rlit_in_goal. rewrite compose_id_l.
  fold r2. fold e d. reflexivity.
Qed.

Lemma c2t_from_cio_R : forall q era w, c2t_from_cio (A := realA) q era w = Val (mm w (mm (rot3 I2 era) q)).
Proof. intros. unfold c2t_from_cio. rots. reflexivity. Qed.

Lemma proper_mm : forall a b, proper a -> proper b -> proper (mm a b).
Proof. apply proper_compose. Qed.
Ltac prove_proper := repeat first [apply proper_mm | apply rot3_proper | assumption].

Lemma rbR_proper : proper rbR.
Proof. unfold rbR. prove_proper. Qed.
Lemma rpRt_proper : forall t, proper (rpRt t).
Proof. intros. unfold rpRt, rpR. prove_proper. Qed.

Lemma mm_assoc : forall a b c, mm (mm a b) c = mm a (mm b c).
Proof. apply compose_assoc. Qed.
Lemma mm_rot : forall ax s t, mm (rot3 ax s) (rot3 ax t) = rot3 ax (s + t).
Proof. apply rot3_add. Qed.

(** ** atan2 *)

Lemma cos_atan2 : forall x y r, 0 < r -> r * r = x * x + y * y ->
  cos (Ratan2 y x) = x / r /\ sin (Ratan2 y x) = y / r.
Proof.
  intros x y r Hr E. unfold Ratan2.
  assert (G : x <> 0 -> R_sqrt.sqrt (1 + Rsqr (y / x)) = r / Rabs x).
  { intros Hx. replace (1 + Rsqr (y / x)) with ((r / Rabs x) * (r / Rabs x)).
    - apply sqrt_square. apply Rmult_le_pos; [lra|]. apply Rlt_le, Rinv_0_lt_compat, Rabs_pos_lt, Hx.
    - unfold Rsqr. assert (Rabs x * Rabs x = x * x) by (rewrite <- Rabs_mult; apply Rabs_pos_eq; nra).
      assert (Rabs x <> 0) by (apply Rabs_no_R0; exact Hx).
      replace (r / Rabs x * (r / Rabs x)) with (r * r / (Rabs x * Rabs x)) by (field; assumption).
      rewrite H, E. field. exact Hx. }
  destruct (Rlt_bool_spec 0 x) as [Hx|Hx].
  - rewrite cos_atan, sin_atan, G by lra. rewrite Rabs_pos_eq by lra. split; field; lra.
  - destruct (Rlt_bool_spec x 0) as [Hx'|Hx'].
    + assert (C : cos (atan (y / x)) = - x / r) by (rewrite cos_atan, G by lra; rewrite Rabs_left by lra; field; lra).
      assert (S : sin (atan (y / x)) = - y / r) by (rewrite sin_atan, G by lra; rewrite Rabs_left by lra; field; lra).
      destruct (Rle_bool 0 y).
      * rewrite neg_cos, neg_sin, C, S. split; field; lra.
      * unfold Rminus. rewrite cos_plus, sin_plus, cos_neg, sin_neg, cos_PI, sin_PI, C, S. split; field; lra.
    + assert (x = 0) by lra. subst x.
      destruct (Rlt_bool_spec 0 y) as [Hy|Hy].
      * rewrite cos_PI2, sin_PI2. assert (r = y) by nra. subst r. split; field; lra.
      * destruct (Rlt_bool_spec y 0) as [Hy'|Hy'].
        -- rewrite cos_neg, sin_neg, cos_PI2, sin_PI2. assert (r = - y) by nra. subst r. split; field; lra.
        -- assert (y = 0) by lra. subst y. nra.
Qed.

(** The angle d of c2ixys: sin d = r, cos d = sqrt(1 - r^2). *)
Lemma c2i_angle_d : forall r2, 0 <= r2 < 1 -> let d := atan (R_sqrt.sqrt (r2 / (1 - r2))) in
  cos d = R_sqrt.sqrt (1 - r2) /\ sin d = R_sqrt.sqrt r2.
Proof.
  intros r2 H d. unfold d. rewrite cos_atan, sin_atan. unfold Rsqr.
  assert (Q : 0 <= r2 / (1 - r2)) by (apply Rmult_le_pos; [lra|apply Rlt_le, Rinv_0_lt_compat; lra]).
  rewrite sqrt_def by exact Q.
  replace (1 + r2 / (1 - r2)) with (/ (1 - r2)) by (field; lra).
  assert (P : 0 < R_sqrt.sqrt (1 - r2)) by (apply sqrt_lt_R0; lra).
  replace (R_sqrt.sqrt (r2 / (1 - r2))) with (R_sqrt.sqrt r2 * R_sqrt.sqrt (/ (1 - r2)))
    by (rewrite <- sqrt_mult by (try lra; apply Rlt_le, Rinv_0_lt_compat; lra); reflexivity).
  rewrite sqrt_inv.
  split; field; lra.
Qed.
