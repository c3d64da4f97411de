(** * Error bounds: vectors, directions and angles *)

From Coq Require Import ZArith Reals Lra Lia Bool List Psatz.
From Flocq Require Import Core BinarySingleNaN.
From Verif Require Import Outcome Arith ArithR ArithF Spec_Float Spec_Accuracy M_Common Spec_Matrix Spec_Sun.
From Verif Require Import L_ArithF L_ArithR L_Matrix L_PMatrix L_Apx L_ApxMod L_ApxAngle L_Fro L_ApxFrames.
Import ListNotations.
Open Scope R_scope.

(** Length of a triple of reals *)
Definition hl (f : idx -> R) : R := hyp (hyp (f I0) (f I1)) (f I2).
Lemma hl_nonneg : forall f, 0 <= hl f.
Proof. intros. apply hyp_nonneg. Qed.
Lemma hl_sq : forall f, hl f * hl f = f I0 * f I0 + f I1 * f I1 + f I2 * f I2.
Proof. intros. unfold hl. rewrite !hyp_sq. reflexivity. Qed.
Lemma hl_le : forall f c, 0 <= c -> f I0 * f I0 + f I1 * f I1 + f I2 * f I2 <= c * c -> hl f <= c.
Proof. intros f c C H. apply sq_le; [exact C|]. rewrite hl_sq. exact H. Qed.
Lemma hl_ext : forall f g, (forall i, f i = g i) -> hl f = hl g.
Proof. intros f g H. unfold hl. rewrite !H. reflexivity. Qed.
Lemma hl_tri : forall f g, hl (fun i => f i + g i) <= hl f + hl g.
Proof.
  intros. unfold hl. eapply Rle_trans; [|apply hyp_tri].
  apply hyp_mono1. rewrite Rabs_pos_eq by apply hyp_nonneg. apply hyp_tri.
Qed.
Lemma hl_scale : forall c f, hl (fun i => c * f i) = Rabs c * hl f.
Proof.
  intros c f. pose proof (hl_nonneg f) as P. pose proof (Rabs_pos c) as Q. pose proof (hl_nonneg (fun i => c * f i)) as N.
  assert (E : hl (fun i => c * f i) * hl (fun i => c * f i) = (Rabs c * hl f) * (Rabs c * hl f)).
  { rewrite hl_sq. replace (Rabs c * hl f * (Rabs c * hl f)) with ((Rabs c * Rabs c) * (hl f * hl f)) by ring.
    rewrite hl_sq, <- Rabs_mult, Rabs_pos_eq by apply Rle_0_sqr. ring. }
  assert (0 <= Rabs c * hl f) by (apply Rmult_le_pos; assumption).
  apply Rle_antisym; apply sq_le; try assumption; rewrite E; apply Rle_refl.
Qed.
Lemma hl_opp : forall f, hl (fun i => - f i) = hl f.
Proof. intros f. rewrite (hl_ext _ (fun i => -1 * f i)) by (intros; ring). rewrite hl_scale. replace (Rabs (-1)) with 1 by (rewrite Rabs_left; lra). ring. Qed.
Lemma hl_ge : forall f i, Rabs (f i) <= hl f.
Proof.
  intros f i. apply abs_le_sq; [apply hl_nonneg|]. rewrite hl_sq.
  pose proof (Rle_0_sqr (f I0)). pose proof (Rle_0_sqr (f I1)). pose proof (Rle_0_sqr (f I2)). unfold Rsqr in *. destruct i; lra.
Qed.
Lemma hl_comp : forall f c, (forall i, Rabs (f i) <= c) -> hl f <= 1.7321 * c.
Proof.
  intros f c H. assert (C : 0 <= c) by (eapply Rle_trans; [apply Rabs_pos|apply (H I0)]).
  apply hl_le; [lra|].
  assert (P : forall i, f i * f i <= c * c).
  { intros i. replace (f i * f i) with (Rabs (f i) * Rabs (f i)) by (rewrite <- Rabs_mult; apply Rabs_pos_eq, Rle_0_sqr).
    pose proof (Rabs_pos (f i)). apply Rmult_le_compat; try assumption; apply H. }
  pose proof (P I0). pose proof (P I1). pose proof (P I2).
  replace (1.7321 * c * (1.7321 * c)) with (1.7321 * 1.7321 * (c * c)) by ring. assert (0 <= c * c) by (apply Rle_0_sqr).
  lra.
Qed.
Definition rdot (f g : idx -> R) : R := f I0 * g I0 + f I1 * g I1 + f I2 * g I2.
Lemma rdot_cs : forall f g, Rabs (rdot f g) <= hl f * hl g.
Proof.
  intros f g. pose proof (hl_nonneg f). pose proof (hl_nonneg g). apply abs_le_sq; [apply Rmult_le_pos; assumption|].
  replace (hl f * hl g * (hl f * hl g)) with ((hl f * hl f) * (hl g * hl g)) by ring. rewrite !hl_sq. unfold rdot.
  pose proof (Rle_0_sqr (f I0 * g I1 - f I1 * g I0)). pose proof (Rle_0_sqr (f I0 * g I2 - f I2 * g I0)).
  pose proof (Rle_0_sqr (f I1 * g I2 - f I2 * g I1)). unfold Rsqr in *. lra.
Qed.

(** Directions of close vectors are close. *)
Lemma dir_close : forall f g d, hl (fun i => f i - g i) <= d -> 0 < hl f -> 0 < hl g ->
  hl (fun i => f i / hl f - g i / hl g) <= 2 * d / hl g.
Proof.
  intros f g d H Pf Pg. 
  assert (L : Rabs (hl g - hl f) <= d).
  { pose proof (hl_tri (fun i => f i - g i) g) as T1. rewrite (hl_ext _ f) in T1 by (intros; ring).
    pose proof (hl_tri (fun i => - (f i - g i)) f) as T2. rewrite (hl_ext _ g) in T2 by (intros; ring). rewrite hl_opp in T2.
    apply Rabs_le. lra. }
  rewrite (hl_ext _ (fun i => / hl g * (f i - g i) + (/ hl f - / hl g) * f i)) by (intros; field; lra).
  eapply Rle_trans; [apply hl_tri|]. rewrite !hl_scale.
  rewrite (Rabs_pos_eq (/ hl g)) by (left; apply Rinv_0_lt_compat; exact Pg).
  replace (/ hl f - / hl g) with ((hl g - hl f) * / (hl f * hl g)) by (field; lra).
  rewrite Rabs_mult, (Rabs_pos_eq (/ (hl f * hl g))) by (left; apply Rinv_0_lt_compat, Rmult_lt_0_compat; assumption).
  replace (Rabs (hl g - hl f) * / (hl f * hl g) * hl f) with (Rabs (hl g - hl f) * / hl g) by (field; lra).
  assert (0 < / hl g) by (apply Rinv_0_lt_compat; exact Pg).
  replace (2 * d / hl g) with (/ hl g * d + d * / hl g) by (field; lra).
  apply Rplus_le_compat; [apply Rmult_le_compat_l|apply Rmult_le_compat_r]; lra.
Qed.

(** ** Binary64 vectors close to exact ones *)
Definition cF {lm} (v : vec3 (b64A lm)) : idx -> R := fun i => B2R (vget (A := b64A lm) v i).
Definition vnear {lm} (v : vec3 (b64A lm)) (v' : vec3 realA) (d : R) : Prop :=
  (forall i, fin (vget (A := b64A lm) v i) = true) /\ hl (fun i => cF v i - coord v' i) <= d.
Lemma vnear_le : forall lm (v : vec3 (b64A lm)) v' d e, vnear v v' d -> d <= e -> vnear v v' e.
Proof. intros lm v v' d e [F H] L. split; [exact F|lra]. Qed.
Lemma vnear_near : forall lm (v : vec3 (b64A lm)) v' d i, vnear v v' d -> near (vget (A := b64A lm) v i) (coord v' i) d.
Proof. intros lm v v' d i [F H]. split; [apply F|]. eapply Rle_trans; [apply (hl_ge (fun i => cF v i - coord v' i) i)|exact H]. Qed.
Lemma vnear_of : forall lm (v : vec3 (b64A lm)) v' d, (forall i, near (vget (A := b64A lm) v i) (coord v' i) d) -> vnear v v' (1.7321 * d).
Proof. intros lm v v' d H. split; [intros i; apply H|]. apply hl_comp. intros i. apply H. Qed.
Lemma vnear_len : forall lm (v : vec3 (b64A lm)) v' d, vnear v v' d -> Rabs (hl (cF v) - hl (coord v')) <= d.
Proof.
  intros lm v v' d [_ H].
  pose proof (hl_tri (fun i => cF v i - coord v' i) (coord v')) as T1. rewrite (hl_ext _ (cF v)) in T1 by (intros; ring).
  pose proof (hl_tri (fun i => - (cF v i - coord v' i)) (cF v)) as T2. rewrite (hl_ext _ (coord v')) in T2 by (intros; ring). rewrite hl_opp in T2.
  apply Rabs_le. lra.
Qed.
Lemma length3_hl : forall v, length3 v = hl (coord v).
Proof.
  intros v. unfold length3. pose proof (hl_nonneg (coord v)). rewrite <- (sqrt_square (hl (coord v))) by assumption.
  rewrite hl_sq. reflexivity.
Qed.

(** Normalisation *)
Lemma normalize_ok : forall lm (v : vec3 (b64A lm)) v' d l h, vnear v v' d -> l <= hl (coord v') <= h -> 1 / 10 <= l -> d <= l / 100 -> h <= 10 ^ 15 ->
  (forall i, fin (vget (A := b64A lm) (vnormalize (A := b64A lm) v) i) = true) /\
  hl (fun i => cF (vnormalize (A := b64A lm) v) i - coord v' i / hl (coord v')) <= 2 * d / l + 1.54 / 10 ^ 15.
Proof.
  intros lm v v' d l h H L L1 D Hh. pose proof (vnear_len _ _ _ _ H) as V. apply Rabs_le_inv in V. destruct H as [F H].
  assert (D0 : 0 <= d) by (eapply Rle_trans; [apply hl_nonneg|exact H]).
  assert (B5 : 10 ^ 15 <= bpow radix2 500 / 2).
  { apply Rle_trans with (bpow radix2 52 / 2); [change (bpow radix2 52) with 4503599627370496; lra|].
    apply Rmult_le_compat_r; [lra|]. apply bpow_le. lia. }
  assert (E : R_sqrt.sqrt (B2R (v0 v) ^ 2 + B2R (v1 v) ^ 2 + B2R (v2 v) ^ 2) = hl (cF v)).
  { pose proof (hl_nonneg (cF v)) as P. rewrite <- (sqrt_square (hl (cF v))) by assumption. rewrite hl_sq.
    f_equal. unfold cF. cbn [vget]. ring. }
  destruct (C63_norm_accuracy_b64_pf lm v) as (_ & _ & N).
  { intros i. split; [apply F|]. pose proof (hl_ge (cF v) i) as G. unfold cF in G at 1. lra. }
  { rewrite E. apply Rle_trans with (bpow radix2 (-5)); [apply bpow_le; lia|]. change (bpow radix2 (-5)) with (/ 32). lra. }
  rewrite E in N. split; [intros i; apply N|].
  rewrite (hl_ext _ (fun i => (cF (vnormalize (A := b64A lm) v) i - cF v i / hl (cF v)) + (cF v i / hl (cF v) - coord v' i / hl (coord v')))) by (intros; ring).
  eapply Rle_trans; [apply hl_tri|]. 
  pose proof (dir_close (cF v) (coord v') d H ltac:(lra) ltac:(lra)) as K.
  assert (K2 : hl (fun i => cF (vnormalize (A := b64A lm) v) i - cF v i / hl (cF v)) <= 1.7321 * bpow radix2 (-50)).
  { apply hl_comp. intros i. apply N. }
  change (bpow radix2 (-50)) with (/ 1125899906842624) in K2.
  assert (2 * d / hl (coord v') <= 2 * d / l).
  { unfold Rdiv. apply Rmult_le_compat_l; [lra|]. apply Rinv_le_contravar; lra. }
  lra.
Qed.

Definition dotE {A : arith} (x y z u v w : num A) : num A := vdot (V3 x y z) (V3 u v w).
Lemma dotE_eval : forall (A : arith) (x y z u v w : num A),
  eval A [x; y; z; u; v; w] (dotE (A := exprA) (EVar 0) (EVar 1) (EVar 2) (EVar 3) (EVar 4) (EVar 5)) = dotE x y z u v w.
Proof. reflexivity. Qed.
Lemma vdot_ok : forall lm, good_libm lm -> forall a b : vec3 (b64A lm),
  (forall i, fin (vget (A := b64A lm) a i) = true) -> (forall i, fin (vget (A := b64A lm) b i) = true) ->
  (forall i, Rabs (cF a i) <= 1.001) -> (forall i, Rabs (cF b i) <= 1.001) ->
  near (vdot (A := b64A lm) a b) (rdot (cF a) (cF b)) (9 / 10000000000000000).
Proof.
  intros lm G [x y z] [u v w] Fa Fb Ba Bb.
  pose proof (apx_ent x (Fa I0) (Ba I0)) as Ax. pose proof (apx_ent y (Fa I1) (Ba I1)) as Ay. pose proof (apx_ent z (Fa I2) (Ba I2)) as Az.
  pose proof (apx_ent u (Fb I0) (Bb I0)) as Au. pose proof (apx_ent v (Fb I1) (Bb I1)) as Av. pose proof (apx_ent w (Fb I2) (Bb I2)) as Aw.
  pose proof (checkb_ok lm G _ _ _ (dotE (A := exprA) (EVar 0) (EVar 1) (EVar 2) (EVar 3) (EVar 4) (EVar 5))
    (B (-4 * one) (4 * one) (9 * one / 10000000000000000))
    (apxl_cons Ax (apxl_cons Ay (apxl_cons Az (apxl_cons Au (apxl_cons Av (apxl_cons Aw apxl_nil))))))) as K.
  rewrite (dotE_eval (b64A lm)), (dotE_eval realA) in K. specialize (K ltac:(vm_compute; reflexivity)).
  split; [apply K|].
  replace (rdot (cF (V3 (A := b64A lm) x y z)) (cF (V3 (A := b64A lm) u v w))) with (dotE (A := realA) (B2R x) (B2R y) (B2R z) (B2R u) (B2R v) (B2R w)) by reflexivity.
  apply (apx_err _ _ _ _ _ K); vm_compute; reflexivity.
Qed.

(** The argument of [acos] in [vangle]. *)
Definition cosF {lm} (a b : vec3 (b64A lm)) : b64 := vdot (A := b64A lm) (vnormalize (A := b64A lm) a) (vnormalize (A := b64A lm) b).
Lemma vangle_gen : forall (A : arith) (a b : vec3 A), vangle a b = nacos A (vdot (vnormalize a) (vnormalize b)).
Proof. reflexivity. Qed.
Lemma vangle_F : forall lm (a b : vec3 (b64A lm)), vangle (A := b64A lm) a b = lm_acos lm (cosF a b).
Proof. intros lm a b. unfold cosF. rewrite (vangle_gen (b64A lm)). generalize (vdot (A := b64A lm) (vnormalize (A := b64A lm) a) (vnormalize (A := b64A lm) b)). reflexivity. Qed.
Lemma cos_ok : forall lm, good_libm lm -> forall (a b : vec3 (b64A lm)) a' b' da db la ha lb hb,
  vnear a a' da -> vnear b b' db -> la <= hl (coord a') <= ha -> lb <= hl (coord b') <= hb ->
  1 / 10 <= la -> 1 / 10 <= lb -> da <= la / 10000 -> db <= lb / 10000 -> ha <= 10 ^ 15 -> hb <= 10 ^ 15 ->
  near (cosF a b) (sprod a' b' / (hl (coord a') * hl (coord b'))) (1.001 * (2 * da / la + 2 * db / lb) + 4.1 / 10 ^ 15).
Proof.
  intros lm G a b a' b' da db la ha lb hb Na Nb La Lb L1 L2 Da Db Ha Hb.
  destruct (normalize_ok lm a a' da la ha Na La L1 ltac:(lra) Ha) as [Fa Ea].
  destruct (normalize_ok lm b b' db lb hb Nb Lb L2 ltac:(lra) Hb) as [Fb Eb].
  set (x := vnormalize (A := b64A lm) a) in *. set (y := vnormalize (A := b64A lm) b) in *.
  set (p := fun i => coord a' i / hl (coord a')). set (q := fun i => coord b' i / hl (coord b')).
  assert (UP : forall f, 0 < hl f -> hl (fun i => f i / hl f) = 1).
  { intros f Pf. rewrite (hl_ext _ (fun i => / hl f * f i)) by (intros; field; lra). rewrite hl_scale, Rabs_pos_eq by (left; apply Rinv_0_lt_compat, Pf).
    field. lra. }
  assert (Up : hl p = 1) by (apply UP; lra). assert (Uq : hl q = 1) by (apply UP; lra).
  set (ea := 2 * da / la + 1.54 / 10 ^ 15) in *. set (eb := 2 * db / lb + 1.54 / 10 ^ 15) in *.
  assert (Q : forall d l, d <= l / 10000 -> 1 / 10 <= l -> 2 * d / l <= 2 / 10000).
  { intros d l Hd Hl. apply Rmult_le_reg_r with l; [lra|]. replace (2 * d / l * l) with (2 * d) by (field; lra). lra. }
  assert (Sa : ea <= 2.01 / 10000) by (unfold ea; specialize (Q da la Da L1); lra).
  assert (Sb : eb <= 2.01 / 10000) by (unfold eb; specialize (Q db lb Db L2); lra).
  assert (Ea0 : 0 <= ea) by (eapply Rle_trans; [apply hl_nonneg|exact Ea]).
  assert (Eb0 : 0 <= eb) by (eapply Rle_trans; [apply hl_nonneg|exact Eb]).
  assert (BX : hl (cF x) <= 1 + ea).
  { pose proof (hl_tri (fun i => cF x i - p i) p) as T. rewrite (hl_ext _ (cF x)) in T by (intros; ring). unfold p in Ea, T. fold p in T. lra. }
  assert (BY : hl (cF y) <= 1 + eb).
  { pose proof (hl_tri (fun i => cF y i - q i) q) as T. rewrite (hl_ext _ (cF y)) in T by (intros; ring). unfold q in Eb, T. fold q in T. lra. }
  destruct (vdot_ok lm G x y Fa Fb) as [FD ED].
  { intros i. pose proof (hl_ge (cF x) i). lra. }
  { intros i. pose proof (hl_ge (cF y) i). lra. }
  assert (EC : cosF a b = vdot (A := b64A lm) x y) by (unfold cosF, x, y; reflexivity).
  rewrite EC. clear EC. set (z := vdot (A := b64A lm) x y) in *. clearbody z. split; [exact FD|]. clear FD. set (c := B2R z) in *. clearbody c.
  clearbody x y.
  assert (EQ : sprod a' b' / (hl (coord a') * hl (coord b')) = rdot p q).
  { unfold rdot, p, q, sprod. field. lra. }
  rewrite EQ.
  replace (c - rdot p q) with ((c - rdot (cF x) (cF y)) + (rdot (fun i => cF x i - p i) (cF y) + rdot p (fun i => cF y i - q i)))
    by (unfold rdot; ring).
  eapply Rle_trans; [apply Rabs_triang|]. pose proof (Rabs_triang (rdot (fun i => cF x i - p i) (cF y)) (rdot p (fun i => cF y i - q i))) as T.
  pose proof (rdot_cs (fun i => cF x i - p i) (cF y)) as C1. pose proof (rdot_cs p (fun i => cF y i - q i)) as C2. rewrite Up in C2.
  fold p in Ea. fold q in Eb. change (hl (fun i => cF x i - p i) <= ea) in Ea. change (hl (fun i => cF y i - q i) <= eb) in Eb.
  assert (C3 : hl (fun i => cF x i - p i) * hl (cF y) <= ea * (1 + eb)).
  { apply Rmult_le_compat; try apply hl_nonneg; assumption. }
  assert (C4 : ea * eb <= ea * (2.01 / 10000)) by (apply Rmult_le_compat_l; lra).
  assert (N : forall d l, 0 <= d -> 1 / 10 <= l -> 0 <= 2 * d / l).
  { intros d l Hd Hl. apply Rmult_le_pos; [lra|left; apply Rinv_0_lt_compat; lra]. }
  pose proof (N da la ltac:(eapply Rle_trans; [apply hl_nonneg|apply Na]) L1). pose proof (N db lb ltac:(eapply Rle_trans; [apply hl_nonneg|apply Nb]) L2).
  assert (QA : ea = 2 * da / la + 1.54 / 10 ^ 15) by reflexivity. assert (QB : eb = 2 * db / lb + 1.54 / 10 ^ 15) by reflexivity.
  set (ua := 2 * da / la) in *. set (ub := 2 * db / lb) in *. clearbody ea eb ua ub. clear - ED T C1 C2 C3 C4 QA QB Sa Sb Ea Eb H H0.
  set (w1 := hl (fun i => cF x i - p i)) in *. set (w2 := hl (fun i => cF y i - q i)) in *. clearbody w1 w2. 
  set (w3 := rdot (fun i => cF x i - p i) (cF y)) in *. set (w4 := rdot p (fun i => cF y i - q i)) in *. clearbody w3 w4.
  set (w5 := w1 * hl (cF y)) in *. clearbody w5. set (w6 := ea * eb) in *. replace (ea * (1 + eb)) with (ea + w6) in C3 by (unfold w6; ring). clearbody w6.
  lra.
Qed.

(** A matrix applied to a vector *)
Lemma col_val : forall (A : arith) (m : mat3 A) (v : vec3 A) i, vget (mapply (mtranspose m) v) i =
  dotE (mget m i I0) (mget m i I1) (mget m i I2) (v0 v) (v1 v) (v2 v).
Proof. intros A m v [| |]; reflexivity. Qed.
Definition b_au : bnd := b_sym 200000000000.
Lemma col_ok : forall lm, good_libm lm -> forall (m : mat3 (b64A lm)) (m' : mat3 realA) (v : vec3 (b64A lm)) v' f d,
  mfro m m' f -> proper m' -> vnear v v' d -> f <= 1 / 1000 -> d <= 10 ^ 9 -> hl (coord v') <= 160000000000 ->
  vnear (mapply (A := b64A lm) (mtranspose (A := b64A lm) m) v) (mapply (A := realA) (mtranspose (A := realA) m') v')
    (f * hl (coord v') + 1.001 * d + 4 / 10 ^ 4).
Proof.
  intros lm G m m' v v' f d [Fm Hm] P [Fv Hv] Lf Ld Lv.
  assert (D0 : 0 <= d) by (eapply Rle_trans; [apply hl_nonneg|exact Hv]).
  assert (F0 : 0 <= f) by (eapply Rle_trans; [apply fro_nonneg|exact Hm]).
  pose proof (vnear_len lm v v' d (conj Fv Hv)) as LV. apply Rabs_le_inv in LV.
  assert (Bm : forall i j, Rabs (B2R (mget (A := b64A lm) m i j)) <= 1.001).
  { intros i j. pose proof (fro_ge (errm m m') i j) as K. pose proof (entry_1 m' i j P) as L. unfold errm in K at 1.
    replace (B2R (mget (A := b64A lm) m i j)) with ((B2R (mget (A := b64A lm) m i j) - entry m' i j) + entry m' i j) by ring.
    eapply Rle_trans; [apply Rabs_triang|]. lra. }
  assert (Bv : forall i, -200000000000 <= cF v i <= 200000000000).
  { intros i. pose proof (hl_ge (cF v) i) as K. apply Rabs_le_inv. lra. }
  assert (R : forall i, near (vget (A := b64A lm) (mapply (A := b64A lm) (mtranspose (A := b64A lm) m) v) i)
    (rdot (fun j => B2R (mget (A := b64A lm) m i j)) (cF v)) (20 / 100000)).
  { intros i. rewrite (col_val (b64A lm)).
    pose proof (apx_ent _ (Fm i I0) (Bm i I0)) as A0. pose proof (apx_ent _ (Fm i I1) (Bm i I1)) as A1. pose proof (apx_ent _ (Fm i I2) (Bm i I2)) as A2.
    pose proof (apx_var _ (-200000000000) 200000000000 (Fv I0) (Bv I0)) as V0. pose proof (apx_var _ (-200000000000) 200000000000 (Fv I1) (Bv I1)) as V1.
    pose proof (apx_var _ (-200000000000) 200000000000 (Fv I2) (Bv I2)) as V2.
    pose proof (checkb_ok lm G _ _ _ (dotE (A := exprA) (EVar 0) (EVar 1) (EVar 2) (EVar 3) (EVar 4) (EVar 5))
      (B (-1000000000000 * one) (1000000000000 * one) (20 * one / 100000))
      (apxl_cons A0 (apxl_cons A1 (apxl_cons A2 (apxl_cons V0 (apxl_cons V1 (apxl_cons V2 apxl_nil))))))) as K.
    rewrite (dotE_eval (b64A lm)), (dotE_eval realA) in K. specialize (K ltac:(vm_compute; reflexivity)).
    split; [apply K|].
    change (rdot (fun j => B2R (mget (A := b64A lm) m i j)) (cF v)) with (dotE (A := realA) (B2R (mget (A := b64A lm) m i I0)) (B2R (mget (A := b64A lm) m i I1)) (B2R (mget (A := b64A lm) m i I2))
      (B2R (vget (A := b64A lm) v I0)) (B2R (vget (A := b64A lm) v I1)) (B2R (vget (A := b64A lm) v I2))).
    apply (apx_err _ _ _ _ _ K); vm_compute; reflexivity. }
  split; [intros i; apply R|].
  assert (EC : forall i, coord (mapply (A := realA) (mtranspose (A := realA) m') v') i = rdot (entry m' i) (coord v')).
  { intros i. unfold coord. rewrite (col_val realA). reflexivity. }
  rewrite (hl_ext _ (fun i => ((cF (mapply (A := b64A lm) (mtranspose (A := b64A lm) m) v) i - rdot (fun j => B2R (mget (A := b64A lm) m i j)) (cF v)) +
     rdot (errm m m' i) (cF v)) + rdot (entry m' i) (fun j => cF v j - coord v' j))).
  2:{ intros i. rewrite EC. unfold rdot, errm. ring. }
  eapply Rle_trans; [apply hl_tri|]. pose proof (hl_tri (fun i => cF (mapply (A := b64A lm) (mtranspose (A := b64A lm) m) v) i - rdot (fun j => B2R (mget (A := b64A lm) m i j)) (cF v))
     (fun i => rdot (errm m m' i) (cF v))) as T.
  assert (H1 : hl (fun i => cF (mapply (A := b64A lm) (mtranspose (A := b64A lm) m) v) i - rdot (fun j => B2R (mget (A := b64A lm) m i j)) (cF v)) <= 1.7321 * (20 / 100000)).
  { apply hl_comp. intros i. apply R. }
  assert (H2 : hl (fun i => rdot (errm m m' i) (cF v)) <= f * hl (cF v)).
  { apply Rle_trans with (fro (errm m m') * hl (cF v)); [|apply Rmult_le_compat_r; [apply hl_nonneg|exact Hm]].
    apply hl_le; [apply Rmult_le_pos; [apply fro_nonneg|apply hl_nonneg]|].
    replace (fro (errm m m') * hl (cF v) * (fro (errm m m') * hl (cF v))) with ((fro (errm m m') * fro (errm m m')) * (hl (cF v) * hl (cF v))) by ring.
    rewrite fro_sq, !Rmult_plus_distr_r.
    assert (Q : forall i, rdot (errm m m' i) (cF v) * rdot (errm m m' i) (cF v) <= erow (errm m m') i * erow (errm m m') i * (hl (cF v) * hl (cF v))).
    { intros i. pose proof (rdot_cs (errm m m' i) (cF v)) as C. change (hl (errm m m' i)) with (erow (errm m m') i) in C.
      replace (erow (errm m m') i * erow (errm m m') i * (hl (cF v) * hl (cF v))) with ((erow (errm m m') i * hl (cF v)) * (erow (errm m m') i * hl (cF v))) by ring.
      replace (rdot (errm m m' i) (cF v) * rdot (errm m m' i) (cF v)) with (Rabs (rdot (errm m m' i) (cF v)) * Rabs (rdot (errm m m' i) (cF v))) by (rewrite <- Rabs_mult; apply Rabs_pos_eq, Rle_0_sqr).
      apply Rmult_le_compat; try apply Rabs_pos; exact C. }
    pose proof (Q I0). pose proof (Q I1). pose proof (Q I2). lra. }
  assert (H3 : hl (fun i => rdot (entry m' i) (fun j => cF v j - coord v' j)) <= d).
  { eapply Rle_trans; [|exact Hv]. set (e := fun j => cF v j - coord v' j).
    apply hl_le; [apply hl_nonneg|]. rewrite hl_sq.
    pose proof (proper_transpose m' P) as [PT _]. 
    pose proof (PT I0 I0) as p00. pose proof (PT I0 I1) as p01. pose proof (PT I0 I2) as p02. pose proof (PT I1 I1) as p11.
    pose proof (PT I1 I2) as p12. pose proof (PT I2 I2) as p22. rewrite !mtranspose_entry in p00. rewrite !mtranspose_entry in p01. rewrite !mtranspose_entry in p02.
    rewrite !mtranspose_entry in p11. rewrite !mtranspose_entry in p12. rewrite !mtranspose_entry in p22. unfold kron in *.
    unfold rdot. apply Req_le. set (x := e I0). set (y := e I1). set (z := e I2).
    transitivity (x * x * (entry m' I0 I0 * entry m' I0 I0 + entry m' I1 I0 * entry m' I1 I0 + entry m' I2 I0 * entry m' I2 I0)
      + y * y * (entry m' I0 I1 * entry m' I0 I1 + entry m' I1 I1 * entry m' I1 I1 + entry m' I2 I1 * entry m' I2 I1)
      + z * z * (entry m' I0 I2 * entry m' I0 I2 + entry m' I1 I2 * entry m' I1 I2 + entry m' I2 I2 * entry m' I2 I2)
      + 2 * x * y * (entry m' I0 I0 * entry m' I0 I1 + entry m' I1 I0 * entry m' I1 I1 + entry m' I2 I0 * entry m' I2 I1)
      + 2 * x * z * (entry m' I0 I0 * entry m' I0 I2 + entry m' I1 I0 * entry m' I1 I2 + entry m' I2 I0 * entry m' I2 I2)
      + 2 * y * z * (entry m' I0 I1 * entry m' I0 I2 + entry m' I1 I1 * entry m' I1 I2 + entry m' I2 I1 * entry m' I2 I2)); [ring|].
    rewrite p00, p01, p02, p11, p12, p22. ring. }
  assert (f * hl (cF v) <= f * hl (coord v') + 1 / 1000 * d).
  { apply Rle_trans with (f * (hl (coord v') + d)); [apply Rmult_le_compat_l; lra|]. assert (f * d <= 1 / 1000 * d) by (apply Rmult_le_compat_r; lra). lra. }
  lra.
Qed.
