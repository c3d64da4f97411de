(** * Error bounds: CIO locator *)

From Coq Require Import ZArith Reals Lra Lia Bool List.
From Flocq Require Import Core BinarySingleNaN.
From Verif Require Import Outcome Arith ArithR ArithF Spec_Float Spec_Accuracy M_Common M_Time M_Fundargs T_Cio M_Earth M_Locator M_Frames
  Spec_Matrix Spec_Frames Spec_Series.
From Verif Require Import L_ArithF L_ArithR L_FromJulianF L_Flit L_PFrames L_Series L_Closed L_Apx L_ApxMod L_ApxAngle L_ApxNut.
Import ListNotations.
Open Scope R_scope.

(** ** Fundamental arguments *)

Definition redc {A : arith} (m e : Z) (x : num A) : num A := mul A (add A (lit A m e) (rem A x (TURNAS (A := A)))) (c_as2r A).
Definition hor4 {A : arith} (t a b c d : num A) : num A :=
  mul A t (add A a (mul A t (add A b (mul A t (add A c (mul A t d)))))).
Definition p_l {A : arith} (t : num A) : num A :=
  hor4 t (lit A 17179159232178 (-4)) (lit A 318792 (-4)) (lit A 51635 (-6)) (neg A (lit A 24470 (-8))).
Definition p_lp {A : arith} (t : num A) : num A :=
  hor4 t (lit A 1295965810481 (-4)) (neg A (lit A 5532 (-4))) (lit A 136 (-6)) (neg A (lit A 1149 (-8))).
Definition p_f {A : arith} (t : num A) : num A :=
  hor4 t (lit A 17395272628478 (-4)) (neg A (lit A 127512 (-4))) (neg A (lit A 1037 (-6))) (lit A 417 (-8)).
Definition p_d {A : arith} (t : num A) : num A :=
  hor4 t (lit A 16029616012090 (-4)) (neg A (lit A 63706 (-4))) (lit A 6593 (-6)) (neg A (lit A 3169 (-8))).
Definition p_om {A : arith} (t : num A) : num A :=
  hor4 t (neg A (lit A 69628905431 (-4))) (lit A 74722 (-4)) (lit A 7702 (-6)) (neg A (lit A 5939 (-8))).
Definition p_ve {A : arith} (t : num A) : num A := add A (lit A 3176146697 (-9)) (mul A (lit A 10213285546211 (-10)) t).
Definition p_e {A : arith} (t : num A) : num A := add A (lit A 1753470314 (-9)) (mul A (lit A 6283075849991 (-10)) t).

Lemma cio_args_eq : forall (A : arith) (t : num A), cio_args t =
  [redc 485868249036 (-6) (p_l t); redc 1287104793048 (-6) (p_lp t); redc 335779526232 (-6) (p_f t);
   redc 1072260703692 (-6) (p_d t); redc 450160398036 (-6) (p_om t);
   rem A (p_ve t) (c_two_pi A); rem A (p_e t) (c_two_pi A); pa03 t].
Proof. reflexivity. Qed.

Definition b_redc (m e : Z) (b : bnd) : option bnd :=
  obind (b_rem b b_turn) (fun q => obind (b_lit m e) (fun c => obind (b_add c q) (fun s => b_mul s b_as2r))).
Lemma apxm_redc : forall lm m e x r a b, apx x r a -> b_redc m e a = Some b ->
  apxm (redc (A := b64A lm) m e x) (redc (A := realA) m e r) b.
Proof.
  intros lm m e x r a b H E. unfold b_redc, obind in E.
  destruct (b_rem a b_turn) as [q|] eqn:Eq; [|discriminate E]. destruct (b_lit m e) as [c|] eqn:Ec; [|discriminate E].
  destruct (b_add c q) as [s|] eqn:Es; [|discriminate E].
  destruct (apx_rem_both _ _ _ _ _ _ _ H apx_turn Eq) as (k & K). unfold redc. rewrite turnas_R. unfold TURNAS.
  b64A_ops. realA_ops. pose proof (apx_add _ _ _ _ _ _ _ (apx_lit _ _ _ Ec) K Es) as S.
  apply (apxm_arcsec _ _ k _ _) with (2 := E). rewrite Rplus_assoc. exact S.
Qed.

Lemma redc_step : forall lm, good_libm lm -> forall m e (f : forall A : arith, num A -> num A),
  (forall A (t : num A), eval A [t] (f exprA (EVar 0)) = f A t) ->
  forall t r bt b, apx t r bt -> obind (bound [bt] (f exprA (EVar 0))) (b_redc m e) = Some b ->
  apxm (redc (A := b64A lm) m e (f (b64A lm) t)) (redc (A := realA) m e (f realA r)) b.
Proof.
  intros lm G m e f Ef t r bt b H E. unfold obind in E. destruct (bound [bt] (f exprA (EVar 0))) as [p|] eqn:Ep; [|discriminate E].
  apply (apxm_redc lm _ _ _ _ _ _) with (2 := E). rewrite <- (Ef (b64A lm) t), <- (Ef realA r).
  apply (bound_ok lm G _ _ _ (apxl_cons H apxl_nil) _ _ Ep).
Qed.
Lemma remtp_step : forall lm, good_libm lm -> forall (f : forall A : arith, num A -> num A),
  (forall A (t : num A), eval A [t] (f exprA (EVar 0)) = f A t) ->
  forall t r bt b, apx t r bt -> obind (bound [bt] (f exprA (EVar 0))) (fun p => b_rem p b_two_pi) = Some b ->
  apxm (rem (b64A lm) (f (b64A lm) t) (c_two_pi (b64A lm))) (rem realA (f realA r) (c_two_pi realA)) b.
Proof.
  intros lm G f Ef t r bt b H E. unfold obind in E. destruct (bound [bt] (f exprA (EVar 0))) as [p|] eqn:Ep; [|discriminate E].
  b64A_ops. realA_ops. apply (apxm_rem_both _ _ _ _) with (2 := E). apply apxm_of_apx. rewrite <- (Ef (b64A lm) t), <- (Ef realA r).
  apply (bound_ok lm G _ _ _ (apxl_cons H apxl_nil) _ _ Ep).
Qed.

Definition b_cargs (bt : bnd) : option (list bnd) :=
  obind (obind (bound [bt] (p_l (A := exprA) (EVar 0))) (b_redc 485868249036 (-6))) (fun b0 =>
  obind (obind (bound [bt] (p_lp (A := exprA) (EVar 0))) (b_redc 1287104793048 (-6))) (fun b1 =>
  obind (obind (bound [bt] (p_f (A := exprA) (EVar 0))) (b_redc 335779526232 (-6))) (fun b2 =>
  obind (obind (bound [bt] (p_d (A := exprA) (EVar 0))) (b_redc 1072260703692 (-6))) (fun b3 =>
  obind (obind (bound [bt] (p_om (A := exprA) (EVar 0))) (b_redc 450160398036 (-6))) (fun b4 =>
  obind (obind (bound [bt] (p_ve (A := exprA) (EVar 0))) (fun p => b_rem p b_two_pi)) (fun b5 =>
  obind (obind (bound [bt] (p_e (A := exprA) (EVar 0))) (fun p => b_rem p b_two_pi)) (fun b6 =>
  obind (bound [bt] (pa03 (A := exprA) (EVar 0))) (fun b7 => Some [b0; b1; b2; b3; b4; b5; b6; b7])))))))).

Lemma p_l_eval : forall (A : arith) (t : num A), eval A [t] (p_l (A := exprA) (EVar 0)) = p_l t.
Proof. reflexivity. Qed.
Lemma p_lp_eval : forall (A : arith) (t : num A), eval A [t] (p_lp (A := exprA) (EVar 0)) = p_lp t.
Proof. reflexivity. Qed.
Lemma p_f_eval : forall (A : arith) (t : num A), eval A [t] (p_f (A := exprA) (EVar 0)) = p_f t.
Proof. reflexivity. Qed.
Lemma p_d_eval : forall (A : arith) (t : num A), eval A [t] (p_d (A := exprA) (EVar 0)) = p_d t.
Proof. reflexivity. Qed.
Lemma p_om_eval : forall (A : arith) (t : num A), eval A [t] (p_om (A := exprA) (EVar 0)) = p_om t.
Proof. reflexivity. Qed.
Lemma p_ve_eval : forall (A : arith) (t : num A), eval A [t] (p_ve (A := exprA) (EVar 0)) = p_ve t.
Proof. reflexivity. Qed.
Lemma p_e_eval : forall (A : arith) (t : num A), eval A [t] (p_e (A := exprA) (EVar 0)) = p_e t.
Proof. reflexivity. Qed.
Lemma pa03_eval : forall (A : arith) (t : num A), eval A [t] (pa03 (A := exprA) (EVar 0)) = pa03 t.
Proof. reflexivity. Qed.

Lemma cargs_ok : forall lm, good_libm lm -> forall t r bt bl, apx t r bt -> b_cargs bt = Some bl ->
  apxml (cio_args (A := b64A lm) t) (cio_args (A := realA) r) bl.
Proof.
  intros lm G t r bt bl H E. unfold b_cargs in E.
  destruct (obind_some E) as (b0 & E0 & E'). clear E. rename E' into E.
  destruct (obind_some E) as (b1 & E1 & E'). clear E. rename E' into E.
  destruct (obind_some E) as (b2 & E2 & E'). clear E. rename E' into E.
  destruct (obind_some E) as (b3 & E3 & E'). clear E. rename E' into E.
  destruct (obind_some E) as (b4 & E4 & E'). clear E. rename E' into E.
  destruct (obind_some E) as (b5 & E5 & E'). clear E. rename E' into E.
  destruct (obind_some E) as (b6 & E6 & E'). clear E. rename E' into E.
  destruct (obind_some E) as (b7 & E7 & E'). clear E. rename E' into E.
  pose proof (redc_step lm G 485868249036 (-6) (@p_l) p_l_eval _ _ _ _ H E0) as H0.
  pose proof (redc_step lm G 1287104793048 (-6) (@p_lp) p_lp_eval _ _ _ _ H E1) as H1.
  pose proof (redc_step lm G 335779526232 (-6) (@p_f) p_f_eval _ _ _ _ H E2) as H2.
  pose proof (redc_step lm G 1072260703692 (-6) (@p_d) p_d_eval _ _ _ _ H E3) as H3.
  pose proof (redc_step lm G 450160398036 (-6) (@p_om) p_om_eval _ _ _ _ H E4) as H4.
  pose proof (remtp_step lm G (@p_ve) p_ve_eval _ _ _ _ H E5) as H5.
  pose proof (remtp_step lm G (@p_e) p_e_eval _ _ _ _ H E6) as H6.
  assert (H7 : apxm (pa03 (A := b64A lm) t) (pa03 (A := realA) r) b7).
  { apply apxm_of_apx. rewrite <- (pa03_eval (b64A lm)), <- (pa03_eval realA).
    apply (bound_ok lm G _ _ _ (apxl_cons H apxl_nil) _ _ E7). }
  clear E0 E1 E2 E3 E4 E5 E6 E7.
  assert (EB : [b0; b1; b2; b3; b4; b5; b6; b7] = bl) by congruence. rewrite <- EB. clear E EB.
  rewrite (cio_args_eq (b64A lm)), (cio_args_eq realA).
  exact (apxml_cons H0 (apxml_cons H1 (apxml_cons H2 (apxml_cons H3 (apxml_cons H4 (apxml_cons H5 (apxml_cons H6 (apxml_cons H7 apxml_nil)))))))).
Qed.

(** ** One row *)

Definition vars8 : list expr := [EVar 0; EVar 1; EVar 2; EVar 3; EVar 4; EVar 5; EVar 6; EVar 7].
Lemma cioarg_eval : forall (A : arith) row (x0 x1 x2 x3 x4 x5 x6 x7 : num A),
  eval A [x0; x1; x2; x3; x4; x5; x6; x7] (cioarg_val exprA row vars8) = cioarg_val A row [x0; x1; x2; x3; x4; x5; x6; x7].
Proof. reflexivity. Qed.

Lemma cioarg_ok : forall lm, good_libm lm -> forall t r bl row b,
  apxml (cio_args (A := b64A lm) t) (cio_args (A := realA) r) bl -> bound bl (cioarg_val exprA row vars8) = Some b ->
  apxm (cioarg_val (b64A lm) row (cio_args (A := b64A lm) t)) (cioarg_val realA row (cio_args (A := realA) r)) b.
Proof.
  intros lm G t r bl row b H E. destruct (apxml_shift _ _ _ H) as (ks & L & M).
  apply (bound_ok lm G _ _ _ M) in E. clear H M. unfold cio_args in *.
  destruct ks as [|k0 [|k1 [|k2 [|k3 [|k4 [|k5 [|k6 [|k7 [|k8 ks]]]]]]]]]; try discriminate L. cbn [shifted] in E.
  rewrite (cioarg_eval (b64A lm)), (cioarg_eval realA) in E.
  set (n := fun q => nth q row 0%Z).
  exists (n 0%nat * k0 + n 1%nat * k1 + n 2%nat * k2 + n 3%nat * k3 + n 4%nat * k4 + n 5%nat * k5 + n 6%nat * k6 + n 7%nat * k7)%Z.
  match goal with |- apx _ ?u _ => match type of E with apx _ ?v _ => assert (EQ : @eq R u v) end end; [|rewrite EQ; exact E].
  unfold cioarg_val. cbn [seq fold_left nth]. realA_ops. rewrite !plus_IZR, !mult_IZR. unfold n.
  generalize (l03 (A := realA) r) (lp03 (A := realA) r) (f03 (A := realA) r) (d03 (A := realA) r) (om03 (A := realA) r)
    (ve03 (A := realA) r) (e03 (A := realA) r) (pa03 (A := realA) r) (Rlit 0 0).
  change (num realA) with R. intros. ring.
Qed.

Definition rowE2 {A : arith} (c0 c1 acc s c : num A) : num A := add A acc (add A (mul A c0 s) (mul A c1 c)).
Definition b_crow (k : nat) (bl : list bnd) (st : bnd) (i : nat) : option bnd :=
  obind (bound bl (cioarg_val exprA (nth i (nth k KSS []) []) vars8)) (fun ba =>
  let tr := b_trig ba in
  bound [st; tr; tr] (rowE2 (A := exprA) (sss exprA k i 0) (sss exprA k i 1) (EVar 0) (EVar 1) (EVar 2))).
Lemma row2_eval : forall (A : arith) k i (acc s c : num A),
  eval A [acc; s; c] (rowE2 (A := exprA) (sss exprA k i 0) (sss exprA k i 1) (EVar 0) (EVar 1) (EVar 2)) =
  rowE2 (sss A k i 0) (sss A k i 1) acc s c.
Proof. reflexivity. Qed.

Lemma crow_ok : forall lm, good_libm lm -> forall t r k bl sF sR sb i sb',
  apxml (cio_args (A := b64A lm) t) (cio_args (A := realA) r) bl -> apx sF sR sb ->
  b_crow k bl sb i = Some sb' ->
  apx (cio_step (b64A lm) k (cio_args (A := b64A lm) t) sF i) (cio_step realA k (cio_args (A := realA) r) sR i) sb'.
Proof.
  intros lm G t r k bl sF sR sb i sb' Hl H E. unfold b_crow, obind in E.
  destruct (bound bl (cioarg_val exprA (nth i (nth k KSS []) []) vars8)) as [ba|] eqn:Ea; [|discriminate E].
  pose proof (cioarg_ok lm G t r bl _ ba Hl Ea) as K.
  pose proof (apxm_sin lm G _ _ _ K) as Ks. pose proof (apxm_cos lm G _ _ _ K) as Kc.
  apply (bound_ok lm G _ _ _ (apxl_cons H (apxl_cons Ks (apxl_cons Kc apxl_nil)))) in E.
  rewrite (row2_eval (b64A lm)), (row2_eval realA) in E. exact E.
Qed.

Definition b_csum (bl : list bnd) (k : nat) : option bnd :=
  obind (bound [] (spv exprA k)) (fun s => ofold (b_crow k bl) (rev (seq 0 (length (nth k KSS [])))) s).

Lemma csum_ok : forall lm, good_libm lm -> forall t r k bl sb,
  apxml (cio_args (A := b64A lm) t) (cio_args (A := realA) r) bl -> b_csum bl k = Some sb ->
  apx (cio_sum (b64A lm) k (cio_args (A := b64A lm) t) (spv (b64A lm) k)) (cio_sum realA k (cio_args (A := realA) r) (spv realA k)) sb.
Proof.
  intros lm G t r k bl sb Hl E. unfold b_csum in E. destruct (bound [] (spv exprA k)) as [s|] eqn:Es; [|discriminate E]. cbn [obind] in E.
  assert (S0 : apx (spv (b64A lm) k) (spv realA k) s) by exact (bound_ok lm G [] [] [] apxl_nil _ _ Es).
  unfold cio_sum. revert S0 E. generalize (spv (b64A lm) k) (spv realA k). clear Es. revert s.
  induction (rev (seq 0 (length (nth k KSS [])))) as [|i l IH]; intros s sF sR S0 E; cbn [ofold] in E.
  - assert (s = sb) as <- by congruence. exact S0.
  - destruct (b_crow k bl s i) as [s1|] eqn:E1; [|discriminate E]. cbn [obind] in E. cbn [fold_left].
    apply (IH s1); [|exact E]. apply (crow_ok lm G t r k bl sF sR s i s1 Hl S0 E1).
Qed.

(** ** The locator *)

Definition polyE {A : arith} (t w0 w1 w2 w3 w4 w5 : num A) : num A :=
  mul A (add A w0 (mul A (add A w1 (mul A (add A w2 (mul A (add A w3 (mul A (add A w4 (mul A w5 t)) t)) t)) t)) t)) (c_as2r A).
Lemma poly_eval : forall (A : arith) (t w0 w1 w2 w3 w4 : num A),
  eval A [t; w0; w1; w2; w3; w4] (polyE (A := exprA) (EVar 0) (EVar 1) (EVar 2) (EVar 3) (EVar 4) (EVar 5) (spv exprA 5)) =
  polyE t w0 w1 w2 w3 w4 (spv A 5).
Proof. reflexivity. Qed.
Lemma cio_poly_eq : forall (A : arith) (t : num A), cio_poly A t =
  let fa := cio_args t in
  polyE t (cio_sum A 0 fa (spv A 0)) (cio_sum A 1 fa (spv A 1)) (cio_sum A 2 fa (spv A 2)) (cio_sum A 3 fa (spv A 3))
    (cio_sum A 4 fa (spv A 4)) (spv A 5).
Proof. reflexivity. Qed.

Definition b_cpoly (bt : bnd) : option bnd :=
  obind (b_cargs bt) (fun bl =>
  obind (b_csum bl 0) (fun w0 => obind (b_csum bl 1) (fun w1 => obind (b_csum bl 2) (fun w2 => obind (b_csum bl 3) (fun w3 =>
  obind (b_csum bl 4) (fun w4 =>
  bound [bt; w0; w1; w2; w3; w4] (polyE (A := exprA) (EVar 0) (EVar 1) (EVar 2) (EVar 3) (EVar 4) (EVar 5) (spv exprA 5)))))))).

Lemma cpoly_ok : forall lm, good_libm lm -> forall t r bt b, apx t r bt -> b_cpoly bt = Some b ->
  apx (cio_poly (b64A lm) t) (cio_poly realA r) b.
Proof.
  intros lm G t r bt b Ht E. unfold b_cpoly in E. destruct (b_cargs bt) as [bl|] eqn:El; [|discriminate E]. cbn [obind] in E.
  destruct (obind_some E) as (w0 & E0 & E'). clear E. rename E' into E.
  destruct (obind_some E) as (w1 & E1 & E'). clear E. rename E' into E.
  destruct (obind_some E) as (w2 & E2 & E'). clear E. rename E' into E.
  destruct (obind_some E) as (w3 & E3 & E'). clear E. rename E' into E.
  destruct (obind_some E) as (w4 & E4 & E'). clear E. rename E' into E.
  pose proof (cargs_ok lm G t r bt bl Ht El) as Hl.
  apply (csum_ok lm G t r _ _ _ Hl) in E0, E1, E2, E3, E4.
  apply (bound_ok lm G _ _ _ (apxl_cons Ht (apxl_cons E0 (apxl_cons E1 (apxl_cons E2 (apxl_cons E3 (apxl_cons E4 apxl_nil))))))) in E.
  rewrite (poly_eval (b64A lm)), (poly_eval realA) in E. rewrite !cio_poly_eq. cbv zeta. exact E.
Qed.

Definition endE {A : arith} (w x y : num A) : num A := sub A w (div A (mul A x y) (lit A 2 0)).
Lemma end_eval : forall (A : arith) (w x y : num A), eval A [w; x; y] (endE (A := exprA) (EVar 0) (EVar 1) (EVar 2)) = endE w x y.
Proof. reflexivity. Qed.
Lemma cio_end : forall (A : arith) (d : TT A) x y, cio d x y = Val (endE (cio_poly A (tt_centuries d)) x y).
Proof. intros A d x y. exact (cio_val A d x y). Qed.

Definition b_cio (bt bx by' : bnd) : option bnd :=
  obind (b_cpoly bt) (fun w => bound [w; bx; by'] (endE (A := exprA) (EVar 0) (EVar 1) (EVar 2))).

Lemma cio_ok : forall lm, good_libm lm -> forall (d : TT (b64A lm)) (d' : TT realA) (x y : b64) rx ry bt bx by' b,
  apx (tt_centuries (A := b64A lm) d) (centuries d') bt -> apx x rx bx -> apx y ry by' -> b_cio bt bx by' = Some b ->
  exists s : b64, cio (A := b64A lm) d x y = Val s /\ apx s (cio_sxy2 (centuries d') - rx * ry / 2) b.
Proof.
  intros lm G d d' x y rx ry bt bx by' b Ht Hx Hy E. unfold b_cio in E. destruct (b_cpoly bt) as [w|] eqn:Ew; [|discriminate E].
  cbn [obind] in E. pose proof (cpoly_ok lm G _ _ _ _ Ht Ew) as Hw.
  apply (bound_ok lm G _ _ _ (apxl_cons Hw (apxl_cons Hx (apxl_cons Hy apxl_nil)))) in E.
  rewrite (end_eval (b64A lm)), (end_eval realA) in E.
  pose proof (cio_end realA d' rx ry) as N. rewrite cio_closed, centuries_R in N.
  assert (OI : forall x x' : R, Val x = Val x' -> x = x') by (intros; congruence). apply OI in N. rewrite N.
  rewrite cio_end. exists (endE (A := b64A lm) (cio_poly (b64A lm) (tt_centuries (A := b64A lm) d)) x y). split; [reflexivity|exact E].
Qed.

Lemma cio_chk : forall lm, good_libm lm -> forall a b r s (x y : b64) rx ry ba bb bx by' c, apx a r ba -> apx b s bb ->
  apx x rx bx -> apx y ry by' -> b_chk (obind (b_cent ba bb) (fun bt => b_cio bt bx by')) c = true ->
  exists s00 : b64, cio (A := b64A lm) (MkTT (A := b64A lm) a b) x y = Val s00 /\
    apx s00 (cio_sxy2 (centuries (MkTT (A := realA) r s)) - rx * ry / 2) c.
Proof.
  intros lm G a b r s x y rx ry ba bb bx by' c Ha Hb Hx Hy H. destruct (b_cent ba bb) as [bt|] eqn:Et; [|discriminate H]. cbn [obind] in H.
  destruct (b_chk_ok _ _ H) as (c1 & E1 & L1). pose proof (cent_ok lm G _ _ _ _ _ _ _ Ha Hb Et) as Ht.
  destruct (cio_ok lm G _ _ _ _ _ _ _ _ _ _ Ht Hx Hy E1) as (v & E & Hv).
  exists v. split; [exact E|]. eapply apx_weaken; eassumption.
Qed.
