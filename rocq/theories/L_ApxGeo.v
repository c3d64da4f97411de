(** * Error bounds: geodetic to geocentric coordinates on WGS84 *)

From Coq Require Import ZArith Reals Lra Lia Bool List.
From Flocq Require Import Core BinarySingleNaN.
From Verif Require Import Outcome Arith ArithR ArithF Spec_Float Spec_Accuracy M_Common M_Ellipsoid Spec_Matrix.
From Verif Require Import L_ArithF L_ArithR L_Apx L_ApxMod L_ApxAngle L_ApxFrames.
Import ListNotations.
Open Scope R_scope.

Section Geo.
Context {A : arith}.
Local Notation lit := (lit A).
Local Open Scope num_scope.
Definition geoW : num A := let w := lit 1 0 - lit 1 0 / lit 298257223563 (-9) in w * w.
Definition geoD (sp cp : num A) : num A := cp * cp + geoW * sp * sp.
Definition geoX (d sp cp s c h : num A) : num A := (lit 6378137 0 / nsqrt A d + h) * cp * c.
Definition geoZ (d sp cp h : num A) : num A := (geoW * (lit 6378137 0 / nsqrt A d) + h) * sp.
End Geo.
Lemma geo_val : forall (A : arith) (c : EllipsoidConverter A) l ph h, cv_el c = WGS84 ->
  geodetic_to_geocentric c (MkGeod l ph h) =
  let sp := nsin A ph in let cp := ncos A ph in let s := nsin A l in let k := ncos A l in
  let d := geoD sp cp in
  if ltb A (lit A 0 0) d then Ok (V3 (geoX d sp cp s k h) (geoX d sp cp k s h) (geoZ d sp cp h)) else Err BadCoordinates.
Proof. intros A c l ph h E. unfold geodetic_to_geocentric. rewrite E. reflexivity. Qed.
Lemma conv_el : forall (A : arith) (el : Ellipsoid A) c, conv_new el = Ok c -> cv_el c = el.
Proof.
  intros A el c H. unfold conv_new in H.
  repeat match type of H with (if ?b then _ else _) = _ => destruct b; [discriminate H|] end.
  apply (f_equal (fun o => match o with Ok x => x | Err _ => c end)) in H. cbv beta iota in H. rewrite <- H. reflexivity.
Qed.
Lemma geo_eval : forall (A : arith) (x0 x1 x2 x3 x4 x5 : num A),
  eval A [x0; x1] (geoD (A := exprA) (EVar 0) (EVar 1)) = geoD x0 x1 /\
  eval A [x0; x1; x2; x3; x4; x5] (geoX (A := exprA) (EVar 0) (EVar 1) (EVar 2) (EVar 3) (EVar 4) (EVar 5)) = geoX x0 x1 x2 x3 x4 x5 /\
  eval A [x0; x1; x2; x3; x4; x5] (geoZ (A := exprA) (EVar 0) (EVar 1) (EVar 2) (EVar 5)) = geoZ x0 x1 x2 x5.
Proof. intros. repeat split. Qed.

Definition b_unit (e : Z) : bnd := B (- one) one e.
Definition b_geoD (e : Z) : option bnd := match bound [b_unit e; b_unit e] (geoD (A := exprA) (EVar 0) (EVar 1)) with
  | Some b => Some (B (99 * one / 100) (101 * one / 100) (er b)) | None => None end.
Definition b_geoX (e : Z) (bh : bnd) : option bnd := match b_geoD e with
  | Some d => bound [d; b_unit e; b_unit e; b_unit e; b_unit e; bh] (geoX (A := exprA) (EVar 0) (EVar 1) (EVar 2) (EVar 3) (EVar 4) (EVar 5)) | None => None end.
Definition b_geoZ (e : Z) (bh : bnd) : option bnd := match b_geoD e with
  | Some d => bound [d; b_unit e; b_unit e; b_unit e; b_unit e; bh] (geoZ (A := exprA) (EVar 0) (EVar 1) (EVar 2) (EVar 5)) | None => None end.
Definition geo_chk (e : Z) (bh : bnd) (m d : Z) : bool :=
  match b_geoD e, b_geoX e bh, b_geoZ e bh with
  | Some bd, Some bx, Some bz => ((er bd <=? one / 2) && (0 <? d) && (er bx * d <=? m * one) && (er bz * d <=? m * one))%Z
  | _, _, _ => false
  end.

Lemma fr_eq : Rlit 1 0 / Rlit 298257223563 (-9) = 1 / 298.257223563.
Proof. unfold Rlit. change (1 * 10 ^ 0)%Z with 1%Z. change (Z.pow_pos 10 9) with 1000000000%Z. lra. Qed.
Lemma geoW_R : geoW (A := realA) = (1 - 1 / 298.257223563) ^ 2 :> R.
Proof.
  unfold geoW. realA_ops. cbv zeta. rewrite fr_eq.
  assert (E : Rlit 1 0 = 1) by (apply (Rlit_0 1)). rewrite E. simpl. lra.
Qed.
Lemma geoD_R : forall t, geoD (A := realA) (sin t) (cos t) = cos t ^ 2 + (1 - 1 / 298.257223563) ^ 2 * sin t ^ 2 :> R.
Proof. intros t. unfold geoD. rewrite geoW_R. realA_ops. simpl. lra. Qed.
Lemma geoD_range : forall t, 0.99 <= geoD (A := realA) (sin t) (cos t) <= 1.
Proof.
  intros t. rewrite geoD_R. pose proof (sin2_cos2 t) as H. unfold Rsqr in H.
  assert (0 <= sin t * sin t) by (apply Rle_0_sqr). assert (0 <= cos t * cos t) by (apply Rle_0_sqr).
  set (s := sin t * sin t) in *. set (c := cos t * cos t) in *.
  replace (cos t ^ 2) with c by (unfold c; ring). replace (sin t ^ 2) with s by (unfold s; ring).
  split; [|nra]. nra.
Qed.
Lemma val_c99 : val (99 * one / 100) <= 0.99.
Proof. replace 0.99 with (IZR 99 / IZR 100) by lra. apply val_dec; [lia|]. vm_compute. discriminate. Qed.
Lemma val_c101 : 1 <= val (101 * one / 100).
Proof. rewrite <- val_one. apply val_le. vm_compute. discriminate. Qed.
Lemma val_c99' : 0.98 <= val (99 * one / 100).
Proof.
  replace 0.98 with (val (98 * one) / 100) by (rewrite val_int; lra). 
  apply Rmult_le_reg_r with 100; [lra|]. replace (val (98 * one) / 100 * 100) with (val (98 * one)) by field.
  unfold val. rewrite Rmult_assoc, (Rmult_comm uu), <- Rmult_assoc, <- mult_IZR. apply (val_le (98 * one) (99 * one / 100 * 100)).
  vm_compute. discriminate.
Qed.

(** [e] bounds the error of the four sines and cosines. *)
Lemma geo_ok : forall lm, good_libm lm -> forall l ph h rl rp rh bl bp bh e m d,
  apx l rl bl -> apx ph rp bp -> apx h rh bh -> (er bl + 2 ^ 76 <=? e)%Z = true -> (er bp + 2 ^ 76 <=? e)%Z = true ->
  geo_chk e bh m d = true ->
  forall c, cv_el (A := b64A lm) c = WGS84 (A := b64A lm) -> exists v,
  geodetic_to_geocentric (A := b64A lm) c (MkGeod (A := b64A lm) l ph h) = Ok v /\
  let N := 6378137 / R_sqrt.sqrt (cos rp ^ 2 + (1 - 1 / 298.257223563) ^ 2 * sin rp ^ 2) in
  near (v0 (A := b64A lm) v) ((N + rh) * cos rp * cos rl) (IZR m / IZR d) /\
  near (v1 (A := b64A lm) v) ((N + rh) * cos rp * sin rl) (IZR m / IZR d) /\
  near (v2 (A := b64A lm) v) (((1 - 1 / 298.257223563) ^ 2 * N + rh) * sin rp) (IZR m / IZR d).
Proof.
  intros lm G l ph h rl rp rh bl bp bh e m d Hl Hp Hh El Ep C c Ec.
  assert (U : forall x r b, apx x r b -> (er b + 2 ^ 76 <=? e)%Z = true -> apx (lm_sin lm x) (sin r) (b_unit e) /\ apx (lm_cos lm x) (cos r) (b_unit e)).
  { intros x r b H E. split; (eapply apx_weaken; [first [apply (apx_sin lm G _ _ _ H)|apply (apx_cos lm G _ _ _ H)]|]);
      unfold bleb, b_trig, b_unit; cbn [lo hi er]; rewrite !Z.leb_refl; exact E. }
  destruct (U _ _ _ Hl El) as [Sl Cl]. destruct (U _ _ _ Hp Ep) as [Sp Cp]. clear U.
  rewrite (geo_val (b64A lm) c l ph h Ec). cbv zeta.
  unfold geo_chk in C. destruct (b_geoD e) as [bd|] eqn:Ed; [|discriminate C].
  assert (Hd : apx (geoD (A := b64A lm) (lm_sin lm ph) (lm_cos lm ph)) (geoD (A := realA) (sin rp) (cos rp)) bd).
  { unfold b_geoD in Ed. destruct (bound _ _) as [b|] eqn:Eb in Ed; [|discriminate Ed].
    pose proof (bound_ok lm G _ _ _ (apxl_cons Sp (apxl_cons Cp apxl_nil)) _ _ Eb) as K.
    rewrite (proj1 (geo_eval (b64A lm) _ _ (lm_sin lm ph) (lm_sin lm ph) (lm_sin lm ph) (lm_sin lm ph))) in K.
    rewrite (proj1 (geo_eval realA _ _ 0 0 0 0)) in K.
    apply (f_equal (fun o => match o with Some x => x | None => b end)) in Ed. cbv beta iota in Ed. rewrite <- Ed.
    apply (apx_refine _ _ _ _ _ K). pose proof (geoD_range rp). pose proof val_c99. pose proof val_c101. lra. }
  destruct (b_geoX e bh) as [bx|] eqn:Ex; [|discriminate C]. destruct (b_geoZ e bh) as [bz|] eqn:Ez; [|discriminate C].
  apply andb_true_iff in C. destruct C as [C C4]. apply andb_true_iff in C. destruct C as [C C3].
  apply andb_true_iff in C. destruct C as [C1 C2].
  change (nsin (b64A lm)) with (lm_sin lm). change (ncos (b64A lm)) with (lm_cos lm).
  set (D := geoD (A := b64A lm) (lm_sin lm ph) (lm_cos lm ph)) in *.
  assert (P : ltb (b64A lm) (Arith.lit (b64A lm) 0 0) D = true).
  { destruct Hd as (Fd & _ & Hd). b64A_ops.
    destruct lit_0 as [L0 F0].
    rewrite Bltb_correct by assumption. apply Rlt_bool_true. rewrite L0.
    pose proof (geoD_range rp). assert (val (er bd) <= 1 / 2).
    { apply (val_dec (er bd) 1 2); [lia|]. apply Z.leb_le in C1. change one with (one / 2 * 2)%Z. lia. }
    apply Rabs_le_inv in Hd. lra. }
  rewrite P.
  set (L1 := apxl_cons Hd (apxl_cons Sp (apxl_cons Cp (apxl_cons Sl (apxl_cons Cl (apxl_cons Hh apxl_nil)))))).
  set (L2 := apxl_cons Hd (apxl_cons Sp (apxl_cons Cp (apxl_cons Cl (apxl_cons Sl (apxl_cons Hh apxl_nil)))))).
  unfold b_geoX in Ex. rewrite Ed in Ex. unfold b_geoZ in Ez. rewrite Ed in Ez.
  pose proof (bound_ok lm G _ _ _ L1 _ _ Ex) as KX. pose proof (bound_ok lm G _ _ _ L2 _ _ Ex) as KY.
  pose proof (bound_ok lm G _ _ _ L1 _ _ Ez) as KZ. clear L1 L2.
  rewrite (proj1 (proj2 (geo_eval (b64A lm) _ _ _ _ _ _))) in KX. rewrite (proj1 (proj2 (geo_eval realA _ _ _ _ _ _))) in KX.
  rewrite (proj1 (proj2 (geo_eval (b64A lm) _ _ _ _ _ _))) in KY. rewrite (proj1 (proj2 (geo_eval realA _ _ _ _ _ _))) in KY.
  rewrite (proj2 (proj2 (geo_eval (b64A lm) _ _ _ _ _ _))) in KZ. rewrite (proj2 (proj2 (geo_eval realA _ _ _ _ _ _))) in KZ.
  eexists. split; [reflexivity|]. cbn [v0 v1 v2]. cbv zeta. rewrite <- geoD_R.
  assert (T : forall x r r' b, apx x r b -> r = r' -> (er b * d <=? m * one)%Z = true -> near x r' (IZR m / IZR d)).
  { intros x r r' b H <- E. split; [apply H|]. apply (apx_err _ _ _ _ _ H C2 E). }
  assert (L6 : Rlit 6378137 0 = 6378137) by (apply (Rlit_0 6378137)).
  split; [|split].
  - apply (T _ _ _ _ KX); [|exact C3]. unfold geoX. realA_ops. rewrite L6. reflexivity.
  - apply (T _ _ _ _ KY); [|exact C3]. unfold geoX. realA_ops. rewrite L6. reflexivity.
  - apply (T _ _ _ _ KZ); [|exact C4]. unfold geoZ. rewrite geoW_R. realA_ops. rewrite L6. reflexivity.
Qed.
