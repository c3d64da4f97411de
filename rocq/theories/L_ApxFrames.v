(** * Error bounds: frame matrices *)

From Coq Require Import ZArith Reals Lra Lia Bool List.
From Flocq Require Import Core BinarySingleNaN.
From Verif Require Import Outcome Arith ArithR ArithF Spec_Float Spec_Accuracy M_Common M_Time M_Earth M_Locator M_Frames Spec_Matrix Spec_Frames Spec_Series.
From Verif Require Import L_ArithF L_ArithR L_Matrix L_Frames L_PFrames L_Closed L_Apx L_ApxMod L_ApxAngle L_ApxNut L_Fro.
Import ListNotations.
Open Scope R_scope.

Lemma near_angle_of_near : forall x r e, near x r e -> near_angle x r e.
Proof. intros x r e [F H]. split; [exact F|]. exists 0%Z. replace (r + IZR 0 * (2 * PI)) with r by (simpl; ring). exact H. Qed.
Lemma near_le : forall x r e f, near x r e -> e <= f -> near x r f.
Proof. intros x r e f [F H] L. split; [exact F|lra]. Qed.
Lemma near_angle_le : forall x r e f, near_angle x r e -> e <= f -> near_angle x r f.
Proof. intros x r e f (F & k & H) L. split; [exact F|]. exists k. lra. Qed.
Lemma near_neg : forall x r e, near x r e -> near (Bopp x) (- r) e.
Proof.
  intros x r e [F H]. split; [rewrite is_finite_Bopp; exact F|]. rewrite B2R_Bopp.
  replace (- B2R x - - r) with (- (B2R x - r)) by ring. rewrite Rabs_Ropp. exact H.
Qed.
Lemma near_angle_neg : forall x r e, near_angle x r e -> near_angle (Bopp x) (- r) e.
Proof.
  intros x r e (F & k & H). split; [rewrite is_finite_Bopp; exact F|]. exists (- k)%Z. rewrite B2R_Bopp, opp_IZR.
  replace (- B2R x - (- r + - IZR k * (2 * PI))) with (- (B2R x - (r + IZR k * (2 * PI)))) by ring. rewrite Rabs_Ropp. exact H.
Qed.

Definition chk (env : list bnd) (e : expr) (m d : Z) : bool :=
  match bound env e with Some b => ((0 <? d) && (er b * d <=? m * one))%Z | None => false end.
Lemma chk_near : forall lm, good_libm lm -> forall xs rs bs e m d, apxl xs rs bs -> chk bs e m d = true ->
  near (eval (b64A lm) xs e) (eval realA rs e) (IZR m / IZR d).
Proof.
  intros lm G xs rs bs e m d H C. unfold chk in C. destruct (bound bs e) as [b|] eqn:E; [|discriminate C].
  apply andb_true_iff in C. destruct C as [C1 C2]. pose proof (bound_ok lm G _ _ _ H _ _ E) as K.
  split; [apply K|apply (apx_err _ _ _ _ _ K C1 C2)].
Qed.

(** The angles, as functions of the centuries *)
Section Angles.
Context {A : arith}.
Local Notation lit := (lit A).
Local Open Scope num_scope.
Definition aB1 : num A := - ((- lit 68192 (-7)) * c_as2r A).
Definition aB2 : num A := (- lit 41775 (-6)) * c_as2r A * nsin A (EPS0 (A := A)).
Definition aB3 : num A := (- lit 146 (-4)) * c_as2r A.
Definition aP1 (t : num A) : num A := chia t.
Definition aP2 (t : num A) : num A := - (oma77 t + (- lit 2524 (-5)) * c_as2r A * t).
Definition aP3 (t : num A) : num A := - (psia77 t + (- lit 29965 (-5)) * c_as2r A * t).
Definition aP4 : num A := EPS0 (A := A).
Definition aE (t : num A) : num A :=
  c_as2r A * (lit 84381448 (-3) + (- lit 468150 (-4) + (- lit 59 (-5) + lit 1813 (-6) * t) * t) * t)
  + (- lit 2524 (-5)) * c_as2r A * t.
End Angles.
Lemma angle_evals : forall (A : arith) (t : num A),
  eval A [t] (aB1 (A := exprA)) = aB1 /\ eval A [t] (aB2 (A := exprA)) = aB2 /\ eval A [t] (aB3 (A := exprA)) = aB3 /\
  eval A [t] (aP1 (A := exprA) (EVar 0)) = aP1 t /\ eval A [t] (aP2 (A := exprA) (EVar 0)) = aP2 t /\
  eval A [t] (aP3 (A := exprA) (EVar 0)) = aP3 t /\ eval A [t] (aP4 (A := exprA)) = aP4 /\ eval A [t] (aE (A := exprA) (EVar 0)) = aE t.
Proof. intros. repeat split. Qed.


(** Products of rotations *)
Definition rotg {A : arith} (ax : idx) (x : num A) : mat3 A :=
  match rotation (axis_number ax) x with Val m => m | Panic => mzero end.
Definition prod3 {A : arith} (a1 : idx) (x1 : num A) (a2 : idx) (x2 : num A) (a3 : idx) (x3 : num A) : mat3 A :=
  mcompose (mcompose (mcompose midentity (rotg a1 x1)) (rotg a2 x2)) (rotg a3 x3).
Definition prod4 {A : arith} (a1 : idx) (x1 : num A) (a2 : idx) (x2 : num A) (a3 : idx) (x3 : num A) (a4 : idx) (x4 : num A) : mat3 A :=
  mcompose (prod3 a1 x1 a2 x2 a3 x3) (rotg a4 x4).

Lemma rotg_R : forall ax x, rotg (A := realA) ax x = rot3 ax x.
Proof. intros [| |] x; unfold rotg, axis_number; rewrite ?rotation_0, ?rotation_1, ?rotation_2; reflexivity. Qed.
Lemma prod3_R : forall a1 x1 a2 x2 a3 x3, prod3 (A := realA) a1 x1 a2 x2 a3 x3 = mm (mm (rot3 a1 x1) (rot3 a2 x2)) (rot3 a3 x3).
Proof. intros. unfold prod3. rewrite !rotg_R, compose_id_l. reflexivity. Qed.
Lemma prod4_R : forall a1 x1 a2 x2 a3 x3 a4 x4, prod4 (A := realA) a1 x1 a2 x2 a3 x3 a4 x4 =
  mm (mm (mm (rot3 a1 x1) (rot3 a2 x2)) (rot3 a3 x3)) (rot3 a4 x4).
Proof. intros. unfold prod4. rewrite prod3_R, rotg_R. reflexivity. Qed.

Lemma mfro_rotg : forall lm, good_libm lm -> forall ax x r e, near_angle x r e ->
  mfro (rotg (A := b64A lm) ax x) (rot3 ax r) (2 * (e + bpow radix2 (-52))).
Proof.
  intros lm G ax x r e H. destruct (mfro_rotation lm G ax x r e H) as (m & E & K). unfold rotg. rewrite E. exact K.
Qed.
Lemma b52 : bpow radix2 (-52) = / 4503599627370496.
Proof. reflexivity. Qed.

Lemma mfro_step : forall lm, good_libm lm -> forall M M' f ax x r e, proper M' -> mfro M M' f -> near_angle x r e ->
  f <= 1 / 1000 -> e <= 1 / 10000 ->
  mfro (mcompose (A := b64A lm) M (rotg (A := b64A lm) ax x)) (mm M' (rot3 ax r)) (f + 2.02 * e + 3.76 / 10 ^ 15).
Proof.
  intros lm G M M' f ax x r e P HM Hx Lf Le. pose proof (mfro_rotg lm G ax x r e Hx) as HR. rewrite b52 in HR.
  eapply mfro_le; [apply (mfro_compose lm G M _ M' _ f _ P (rot3_proper ax r) HM HR Lf)|].
  - lra.
  - assert (0 <= e) by (destruct Hx as (_ & k & Hx); eapply Rle_trans; [apply Rabs_pos|exact Hx]). lra.
Qed.
Lemma mfro_id_rot : forall lm, good_libm lm -> forall ax x r e, near_angle x r e -> e <= 1 / 10000 ->
  mfro (mcompose (A := b64A lm) (midentity (A := b64A lm)) (rotg (A := b64A lm) ax x)) (rot3 ax r) (2.02 * e + 3.76 / 10 ^ 15).
Proof.
  intros lm G ax x r e H L. pose proof (mfro_step lm G _ _ 0 ax x r e proper_identity (mfro_identity lm) H ltac:(lra) L) as K.
  unfold mm in K. rewrite compose_id_l in K. eapply mfro_le; [exact K|lra].
Qed.

Lemma prod3_ok : forall lm, good_libm lm -> forall a1 x1 r1 e1 a2 x2 r2 e2 a3 x3 r3 e3,
  near_angle x1 r1 e1 -> near_angle x2 r2 e2 -> near_angle x3 r3 e3 -> e1 <= 1 / 10000 -> e2 <= 1 / 10000 -> e3 <= 1 / 10000 ->
  mfro (prod3 (A := b64A lm) a1 x1 a2 x2 a3 x3) (mm (mm (rot3 a1 r1) (rot3 a2 r2)) (rot3 a3 r3)) (2.02 * (e1 + e2 + e3) + 1.128 / 10 ^ 14).
Proof.
  intros lm G a1 x1 r1 e1 a2 x2 r2 e2 a3 x3 r3 e3 H1 H2 H3 L1 L2 L3. unfold prod3.
  pose proof (mfro_id_rot lm G a1 x1 r1 e1 H1 L1) as K1.
  pose proof (mfro_step lm G _ _ _ a2 x2 r2 e2 (rot3_proper a1 r1) K1 H2 ltac:(lra) L2) as K2.
  pose proof (mfro_step lm G _ _ _ a3 x3 r3 e3 (proper_mm _ _ (rot3_proper a1 r1) (rot3_proper a2 r2)) K2 H3 ltac:(lra) L3) as K3.
  eapply mfro_le; [exact K3|lra].
Qed.
Lemma prod4_ok : forall lm, good_libm lm -> forall a1 x1 r1 e1 a2 x2 r2 e2 a3 x3 r3 e3 a4 x4 r4 e4,
  near_angle x1 r1 e1 -> near_angle x2 r2 e2 -> near_angle x3 r3 e3 -> near_angle x4 r4 e4 ->
  e1 <= 1 / 10000 -> e2 <= 1 / 10000 -> e3 <= 1 / 10000 -> e4 <= 1 / 10000 ->
  mfro (prod4 (A := b64A lm) a1 x1 a2 x2 a3 x3 a4 x4) (mm (mm (mm (rot3 a1 r1) (rot3 a2 r2)) (rot3 a3 r3)) (rot3 a4 r4))
    (2.02 * (e1 + e2 + e3 + e4) + 1.504 / 10 ^ 14).
Proof.
  intros lm G a1 x1 r1 e1 a2 x2 r2 e2 a3 x3 r3 e3 a4 x4 r4 e4 H1 H2 H3 H4 L1 L2 L3 L4. unfold prod4.
  pose proof (prod3_ok lm G a1 _ _ _ a2 _ _ _ a3 _ _ _ H1 H2 H3 L1 L2 L3) as K.
  pose proof (mfro_step lm G _ _ _ a4 x4 r4 e4 (proper_mm _ _ (proper_mm _ _ (rot3_proper a1 r1) (rot3_proper a2 r2)) (rot3_proper a3 r3)) K H4 ltac:(lra) L4) as K4.
  eapply mfro_le; [exact K4|lra].
Qed.

(** The model's matrices in this form, for every arithmetic *)
Definition rbG {A : arith} : mat3 A := prod3 I0 (aB1 (A := A)) I1 (aB2 (A := A)) I2 (aB3 (A := A)).
Definition rpG {A : arith} (t : num A) : mat3 A := prod4 I2 (aP1 t) I0 (aP2 t) I2 (aP3 t) I0 (aP4 (A := A)).
Lemma bp_val : forall (A : arith) (d : TT A), bias_and_precession d =
  Val (rbG, rpG (tt_centuries d), mcompose (rpG (tt_centuries d)) rbG).
Proof. reflexivity. Qed.
Definition nG {A : arith} (e dp de : num A) : mat3 A := prod3 I0 (neg A (add A e de)) I2 (neg A dp) I0 e.
Lemma nm_val : forall (A : arith) (e dp de : num A), nutation_matrix e dp de = Val (nG e dp de).
Proof. reflexivity. Qed.
Lemma pm_val : forall (A : arith) (xp yp sp : num A), polar_motion_matrix xp yp sp = Val (prod3 I0 (neg A yp) I1 (neg A xp) I2 sp).
Proof. reflexivity. Qed.
Lemma pnt_val : forall (A : arith) (d : TT A) dp de, exists pn, pn_from_tt_with_nutation d dp de = Val pn /\
  pn_rbpn pn = mcompose (nG (aE (tt_centuries d)) dp de) (mcompose (rpG (tt_centuries d)) rbG) /\
  pn_rbp pn = mcompose (rpG (tt_centuries d)) rbG /\ pn_rn pn = nG (aE (tt_centuries d)) dp de /\ pn_epsa pn = aE (tt_centuries d).
Proof. intros A d dp de. eexists. split; [reflexivity|]. repeat split. Qed.

(** The exact sides *)
Lemma rbG_R : rbG (A := realA) = B_matrix.
Proof.
  pose proof (proj1 (proj2 (proj2 C37_matrix_products_pf)) (MkTT (A := realA) 0 0)) as H. rewrite bp_val in H. 
  apply (f_equal (fun o => match o with Val (x, _, _) => x | Panic => rbG (A := realA) end)) in H. exact H.
Qed.
Lemma rpG_R : forall d, rpG (A := realA) (tt_centuries (A := realA) d) = P_matrix (centuries d).
Proof.
  intros d. pose proof (proj1 (proj2 (proj2 C37_matrix_products_pf)) d) as H. rewrite bp_val in H.
  apply (f_equal (fun o => match o with Val (_, x, _) => x | Panic => rbG (A := realA) end)) in H. exact H.
Qed.
Lemma nG_R : forall e dp de, nG (A := realA) e dp de = N_matrix e dp de.
Proof.
  intros e dp de. pose proof (proj1 (proj2 C37_matrix_products_pf) e dp de) as H. rewrite nm_val in H.
  apply (f_equal (fun o => match o with Val x => x | Panic => nG (A := realA) e dp de end)) in H. exact H.
Qed.
Lemma aE_R : forall d, aE (A := realA) (tt_centuries (A := realA) d) = eps_A (centuries d).
Proof.
  intros d. destruct (proj1 (proj2 (proj2 (proj2 C37_matrix_products_pf))) d 0 0) as (pn & E & H & _).
  destruct (pnt_val realA d 0 0) as (pn' & E' & _ & _ & _ & H'). rewrite E in E'.
  apply (f_equal (fun o => match o with Val x => x | Panic => pn end)) in E'. cbv beta iota in E'. rewrite <- E' in H'. rewrite <- H', H. reflexivity.
Qed.

Record errs : Type := MkErrs { q1 : Z; q2 : Z; q3 : Z; qE : Z; qS : Z; qD : Z }.
Definition den : Z := 1000000000000000000.
Definition frames_chk (ba bb : bnd) (q : errs) : bool :=
  match b_cent ba bb with
  | Some bt =>
    match b_nut bt, bound [bt] (aE (A := exprA) (EVar 0)) with
    | Some (bp, be), Some bE =>
      chk [bt] (aP1 (A := exprA) (EVar 0)) (q1 q) den && chk [bt] (aP2 (A := exprA) (EVar 0)) (q2 q) den &&
      chk [bt] (aP3 (A := exprA) (EVar 0)) (q3 q) den && chk [bt] (aE (A := exprA) (EVar 0)) (qE q) den &&
      chk [bE; be] (EAdd (EVar 0) (EVar 1)) (qS q) den && chk [bp] (EVar 0) (qD q) den
    | _, _ => false
    end
  | None => false
  end.

Lemma nutation_exact : forall d, nutation (A := realA) d = Val (nut_dpsi (centuries d), nut_deps (centuries d)).
Proof. exact nutation_closed. Qed.

Definition qr (z : Z) : R := IZR z / IZR den.
Lemma frames_angles : forall lm, good_libm lm -> forall a b ra rb ba bb q, apx a ra ba -> apx b rb bb -> frames_chk ba bb q = true ->
  let d := MkTT (A := b64A lm) a b in let d' := MkTT (A := realA) ra rb in
  let t := tt_centuries (A := b64A lm) d in let t' := tt_centuries (A := realA) d' in
  near (aP1 (A := b64A lm) t) (aP1 (A := realA) t') (qr (q1 q)) /\ near (aP2 (A := b64A lm) t) (aP2 (A := realA) t') (qr (q2 q)) /\
  near (aP3 (A := b64A lm) t) (aP3 (A := realA) t') (qr (q3 q)) /\ near (aE (A := b64A lm) t) (aE (A := realA) t') (qr (qE q)) /\
  exists dp de, nutation (A := b64A lm) d = Val (dp, de) /\ near dp (nut_dpsi (centuries d')) (qr (qD q)) /\
    near (Fadd (aE (A := b64A lm) t) de) (aE (A := realA) t' + nut_deps (centuries d')) (qr (qS q)).
Proof.
  intros lm G a b ra rb ba bb q Ha Hb C d d' t t'. unfold frames_chk in C.
  destruct (b_cent ba bb) as [bt|] eqn:Et; [|discriminate C]. destruct (b_nut bt) as [[bp be]|] eqn:En; [|discriminate C].
  destruct (bound [bt] (aE (A := exprA) (EVar 0))) as [bE|] eqn:EE; [|discriminate C].
  rewrite !andb_true_iff in C. destruct C as [[[[[C1 C2] C3] C4] C5] C6].
  pose proof (cent_ok lm G _ _ _ _ _ _ _ Ha Hb Et) as Ht.
  assert (Ht' : apx t t' bt) by (unfold t, t'; rewrite centuries_R; exact Ht).
  destruct (angle_evals (b64A lm) t) as (_ & _ & _ & F1 & F2 & F3 & _ & FE).
  destruct (angle_evals realA t') as (_ & _ & _ & R1 & R2 & R3 & _ & RE).
  split; [rewrite <- F1, <- R1; exact (chk_near lm G _ _ _ _ _ _ (apxl_cons Ht' apxl_nil) C1)|].
  split; [rewrite <- F2, <- R2; exact (chk_near lm G _ _ _ _ _ _ (apxl_cons Ht' apxl_nil) C2)|].
  split; [rewrite <- F3, <- R3; exact (chk_near lm G _ _ _ _ _ _ (apxl_cons Ht' apxl_nil) C3)|].
  split; [rewrite <- FE, <- RE; exact (chk_near lm G _ _ _ _ _ _ (apxl_cons Ht' apxl_nil) C4)|].
  destruct (nut_ok lm G d d' _ _ _ Ht En) as (dp & de & E & Hdp & Hde). exists dp, de. split; [exact E|].
  pose proof (bound_ok lm G _ _ _ (apxl_cons Ht' apxl_nil) _ _ EE) as KE. change (apx (eval (b64A lm) [t] (aE (A := exprA) (EVar 0))) (eval realA [t'] (aE (A := exprA) (EVar 0))) bE) in KE.
  rewrite FE, RE in KE. split.
  - exact (chk_near lm G _ _ _ _ _ _ (apxl_cons Hdp apxl_nil) C6).
  - exact (chk_near lm G _ _ _ _ _ _ (apxl_cons KE (apxl_cons Hde apxl_nil)) C5).
Qed.

Lemma bias_angles : forall lm, good_libm lm ->
  near (aB1 (A := b64A lm)) (aB1 (A := realA)) (1 / 10 ^ 18) /\ near (aB2 (A := b64A lm)) (aB2 (A := realA)) (1 / 10 ^ 18) /\
  near (aB3 (A := b64A lm)) (aB3 (A := realA)) (1 / 10 ^ 18) /\ near (aP4 (A := b64A lm)) (aP4 (A := realA)) (1.4 / 10 ^ 16).
Proof.
  intros lm G. destruct (angle_evals (b64A lm) (Flit 0 0)) as (F1 & F2 & F3 & _ & _ & _ & F4 & _).
  destruct (angle_evals realA (Rlit 0 0)) as (R1 & R2 & R3 & _ & _ & _ & R4 & _).
  rewrite <- F1, <- F2, <- F3, <- F4, <- R1, <- R2, <- R3, <- R4.
  replace (1 / 10 ^ 18) with (1 / 1000000000000000000) by lra. replace (1.4 / 10 ^ 16) with (14 / 100000000000000000) by lra.
  pose proof (apxl_cons apx_zero apxl_nil) as Z. 
  split; [|split; [|split]]; (apply (chk_near lm G _ _ _ _ _ _ Z); vm_compute; reflexivity).
Qed.

Lemma rb_ok : forall lm, good_libm lm -> mfro (rbG (A := b64A lm)) B_matrix (1.13 / 10 ^ 14).
Proof.
  intros lm G. rewrite <- rbG_R. unfold rbG at 2. rewrite prod3_R. destruct (bias_angles lm G) as (N1 & N2 & N3 & _).
  eapply mfro_le; [apply (prod3_ok lm G I0 _ _ _ I1 _ _ _ I2 _ _ _ (near_angle_of_near _ _ _ N1) (near_angle_of_near _ _ _ N2) (near_angle_of_near _ _ _ N3))|]; lra.
Qed.
Lemma B_proper : proper B_matrix.
Proof. rewrite <- rbR_R. apply rbR_proper. Qed.
Lemma P_proper : forall t, proper (P_matrix t).
Proof. intros t. rewrite <- rpRt_R. apply rpRt_proper. Qed.
Lemma N_proper : forall e dp de, proper (N_matrix e dp de).
Proof. intros. rewrite <- nG_R. unfold nG. rewrite prod3_R. repeat apply proper_mm; apply rot3_proper. Qed.

Definition qok (q : errs) : Prop := qr (q1 q) <= 1 / 10 ^ 12 /\ qr (q2 q) <= 1 / 10 ^ 12 /\ qr (q3 q) <= 1 / 10 ^ 12 /\ qr (qE q) <= 1 / 10 ^ 12 /\
  qr (qS q) <= 1 / 10 ^ 12 /\ qr (qD q) <= 1 / 10 ^ 12.

Lemma rp_ok : forall lm, good_libm lm -> forall a b ra rb ba bb q, apx a ra ba -> apx b rb bb -> frames_chk ba bb q = true -> qok q ->
  mfro (rpG (A := b64A lm) (tt_centuries (A := b64A lm) (MkTT (A := b64A lm) a b))) (P_matrix (centuries (MkTT (A := realA) ra rb)))
    (2.02 * (qr (q1 q) + qr (q2 q) + qr (q3 q)) + 1.54 / 10 ^ 14).
Proof.
  intros lm G a b ra rb ba bb q Ha Hb C Q. destruct (frames_angles lm G a b ra rb ba bb q Ha Hb C) as (N1 & N2 & N3 & _).
  destruct (bias_angles lm G) as (_ & _ & _ & N4). destruct Q as (Q1 & Q2 & Q3 & _).
  rewrite <- rpG_R. unfold rpG at 2. rewrite prod4_R.
  eapply mfro_le; [apply (prod4_ok lm G I2 _ _ _ I0 _ _ _ I2 _ _ _ I0 _ _ _ (near_angle_of_near _ _ _ N1) (near_angle_of_near _ _ _ N2) (near_angle_of_near _ _ _ N3) (near_angle_of_near _ _ _ N4))|]; lra.
Qed.

Lemma rbpn_ok : forall lm, good_libm lm -> forall a b ra rb ba bb q, apx a ra ba -> apx b rb bb -> frames_chk ba bb q = true -> qok q ->
  let t := centuries (MkTT (A := realA) ra rb) in
  exists m, precession_nutation (A := b64A lm) (MkTT (A := b64A lm) a b) = Val m /\
  mfro m (product [N_matrix (eps_A t) (nut_dpsi t) (nut_deps t); P_matrix t; B_matrix])
    (2.05 * (qr (q1 q) + qr (q2 q) + qr (q3 q) + qr (qE q) + qr (qS q) + qr (qD q)) + 4.54 / 10 ^ 14).
Proof.
  intros lm G a b ra rb ba bb q Ha Hb C Q t.
  pose proof (rp_ok lm G a b ra rb ba bb q Ha Hb C Q) as HP. pose proof (rb_ok lm G) as HB.
  destruct (frames_angles lm G a b ra rb ba bb q Ha Hb C) as (_ & _ & _ & NE & dp & de & EN & ND & NS).
  destruct Q as (Q1 & Q2 & Q3 & Q4 & Q5 & Q6).
  set (d := MkTT (A := b64A lm) a b) in *. fold t in HP, ND, NS. set (d' := MkTT (A := realA) ra rb) in *.
  destruct (pnt_val (b64A lm) d dp de) as (pn & EP & RB & _). 
  exists (pn_rbpn (A := b64A lm) pn). split.
  { unfold precession_nutation, pn_from_tt. rewrite EN. change (bind (Val (dp, de)) ?f) with (f (dp, de)). cbv beta iota.
    rewrite EP. reflexivity. }
  assert (HN : mfro (nG (A := b64A lm) (aE (A := b64A lm) (tt_centuries (A := b64A lm) d)) dp de) (N_matrix (eps_A t) (nut_dpsi t) (nut_deps t))
     (2.02 * (qr (qS q) + qr (qD q) + qr (qE q)) + 1.128 / 10 ^ 14)).
  { rewrite <- nG_R. unfold nG at 2. rewrite prod3_R. unfold t at 1 4. rewrite <- aE_R.
    apply (prod3_ok lm G I0 _ _ _ I2 _ _ _ I0 _ _ _ (near_angle_of_near _ _ _ (near_neg _ _ _ NS)) (near_angle_of_near _ _ _ (near_neg _ _ _ ND)) (near_angle_of_near _ _ _ NE)); lra. }
  rewrite RB. rewrite product_3. unfold mm. rewrite compose_assoc.
  assert (N0 : 0 <= qr (q1 q) /\ 0 <= qr (q2 q) /\ 0 <= qr (q3 q) /\ 0 <= qr (qE q) /\ 0 <= qr (qS q) /\ 0 <= qr (qD q)).
  { destruct (frames_angles lm G a b ra rb ba bb q Ha Hb C) as (M1 & M2 & M3 & _).
    assert (NN : forall x r e, near x r e -> 0 <= e) by (intros x r e [_ H]; eapply Rle_trans; [apply Rabs_pos|exact H]).
    split; [eapply NN, M1|]. split; [eapply NN, M2|]. split; [eapply NN, M3|]. split; [eapply NN, NE|]. split; [eapply NN, NS|eapply NN, ND]. }
  pose proof (mfro_compose lm G _ _ _ _ _ _ (P_proper t) B_proper HP HB ltac:(lra) ltac:(lra)) as HPB.
  pose proof (mfro_compose lm G _ _ _ _ _ _ (N_proper _ _ _) (proper_mm _ _ (P_proper t) B_proper) HN HPB ltac:(lra) ltac:(lra)) as H.
  eapply mfro_le; [exact H|lra].
Qed.
