(** * Error bounds: nutation *)

From Coq Require Import ZArith Reals Lra Lia Bool List.
From Flocq Require Import Core BinarySingleNaN.
From Verif Require Import Outcome Arith ArithR ArithF Spec_Float Spec_Accuracy M_Common M_Time M_Fundargs T_Nut M_Earth M_Locator M_Frames
  Spec_Matrix Spec_Frames Spec_Series.
From Verif Require Import L_ArithF L_ArithR L_FromJulianF L_Flit L_PFrames L_Series L_Closed L_Apx L_ApxMod L_ApxAngle.
Import ListNotations.
Open Scope R_scope.

(** ** Angles reduced with the remainder operator, on both sides *)

Lemma rrem_shift : forall r P, exists k : Z, Rrem r P = r + IZR k * P.
Proof. intros r P. exists (- Ztrunc (r / P))%Z. unfold Rrem. rewrite opp_IZR. ring. Qed.

Lemma apx_rem_both : forall x y r P a c b, apx x r a -> apx y P c -> b_rem a c = Some b ->
  exists k : Z, apx (Frem x y) (Rrem r P + IZR k * P) b.
Proof.
  intros x y r P a c b Hx Hy E. destruct (apx_rem _ _ _ _ _ _ _ Hx Hy E) as (k & K). destruct (rrem_shift r P) as (j & J).
  exists (k - j)%Z. rewrite J, minus_IZR. replace (r + IZR j * P + (IZR k - IZR j) * P) with (r + IZR k * P) by ring. exact K.
Qed.

Lemma apxm_rem_both : forall x r a b, apxm x r a -> b_rem a b_two_pi = Some b ->
  apxm (Frem x (Flit 6283185307179586476925287 (-24))) (Rrem r (2 * PI)) b.
Proof.
  intros x r a b H E. apply (apxm_rem _ _ _ _ H) in E. destruct (rrem_shift r (2 * PI)) as (j & ->). apply apxm_same, E.
Qed.

Definition b_turn : bnd := Eval compute in B (1296000 * one) (1296000 * one) 0.
Lemma apx_turn : apx (Flit 1296000 0) 1296000 b_turn.
Proof. apply (apx_lit 1296000 0). reflexivity. Qed.

(** arcseconds, up to whole turns, to radians *)
Lemma apxm_arcsec : forall x q k b c, apx x (q + IZR k * 1296000) b -> b_mul b b_as2r = Some c ->
  apxm (Fmul x (Flit 4848136811095359935899141 (-30))) (q * (PI / 648000)) c.
Proof.
  intros x q k b c H E. exists k. pose proof (apx_mul _ _ _ _ _ _ _ H apx_as2r E) as K.
  replace (q * (PI / 648000) + IZR k * (2 * PI)) with ((q + IZR k * 1296000) * (PI / 648000)) by lra. exact K.
Qed.

(** ** Delaunay arguments of the nutation series *)

Definition pre_el {A : arith} (t : num A) : num A := add A (lit A 485868249036 (-6)) (mul A (lit A 17179159232178 (-4)) t).
Definition pre_elp {A : arith} (t : num A) : num A := add A (lit A 128710479305 (-5)) (mul A (lit A 1295965810481 (-4)) t).
Definition pre_f {A : arith} (t : num A) : num A := add A (lit A 335779526232 (-6)) (mul A (lit A 17395272628478 (-4)) t).
Definition pre_d {A : arith} (t : num A) : num A := add A (lit A 107226070369 (-5)) (mul A (lit A 16029616012090 (-4)) t).
Definition pre_om {A : arith} (t : num A) : num A := sub A (lit A 450160398036 (-6)) (mul A (lit A 69628905431 (-4)) t).
Definition red {A : arith} (x : num A) : num A := mul A (rem A x (TURNAS (A := A))) (c_as2r A).

Lemma red_eqs : forall (A : arith) (t : num A),
  nut_el t = red (pre_el t) /\ nut_elp t = red (pre_elp t) /\ nut_f t = red (pre_f t) /\
  nut_d t = red (pre_d t) /\ nut_om t = red (pre_om t).
Proof. intros. repeat split. Qed.

Definition b_red (b : bnd) : option bnd := obind (b_rem b b_turn) (fun q => b_mul q b_as2r).
Lemma apxm_red : forall lm x r a b, apx x r a -> b_red a = Some b -> apxm (red (A := b64A lm) x) (red (A := realA) r) b.
Proof.
  intros lm x r a b H E. unfold b_red, obind in E. destruct (b_rem a b_turn) as [q|] eqn:Eq; [|discriminate E].
  destruct (apx_rem_both _ _ _ _ _ _ _ H apx_turn Eq) as (k & K). unfold red. rewrite turnas_R. unfold TURNAS.
  b64A_ops. realA_ops. apply (apxm_arcsec _ _ _ _ _ K E).
Qed.

Definition b_nargs (bt : bnd) : option (list bnd) :=
  obind (obind (bound [bt] (pre_el (A := exprA) (EVar 0))) b_red) (fun b0 =>
  obind (obind (bound [bt] (pre_elp (A := exprA) (EVar 0))) b_red) (fun b1 =>
  obind (obind (bound [bt] (pre_f (A := exprA) (EVar 0))) b_red) (fun b2 =>
  obind (obind (bound [bt] (pre_d (A := exprA) (EVar 0))) b_red) (fun b3 =>
  obind (obind (bound [bt] (pre_om (A := exprA) (EVar 0))) b_red) (fun b4 => Some [b0; b1; b2; b3; b4]))))).

(** Several numbers, each up to its own number of turns. *)
Inductive apxml : list b64 -> list R -> list bnd -> Prop :=
| apxml_nil : apxml [] [] []
| apxml_cons : forall x r b xs rs bs, apxm x r b -> apxml xs rs bs -> apxml (x :: xs) (r :: rs) (b :: bs).
Arguments apxml_cons {x r b xs rs bs}.

Fixpoint shifted (rs : list R) (ks : list Z) : list R :=
  match rs, ks with
  | r :: rs', k :: ks' => (r + IZR k * (2 * PI)) :: shifted rs' ks'
  | _, _ => []
  end.
Lemma apxml_shift : forall xs rs bs, apxml xs rs bs -> exists ks, length ks = length rs /\ apxl xs (shifted rs ks) bs.
Proof.
  intros xs rs bs H. induction H as [|x r b xs rs bs (k & K) _ (ks & L & M)].
  - exists []. split; [reflexivity|apply apxl_nil].
  - exists (k :: ks). split; [cbn [length]; congruence|]. cbn [shifted]. apply apxl_cons; assumption.
Qed.

Definition nut_list {A : arith} (t : num A) : list (num A) := [nut_el t; nut_elp t; nut_f t; nut_d t; nut_om t].

Lemma red_step : forall lm, good_libm lm -> forall (f : forall A : arith, num A -> num A),
  (forall A (t : num A), eval A [t] (f exprA (EVar 0)) = f A t) ->
  forall t r bt b, apx t r bt -> obind (bound [bt] (f exprA (EVar 0))) b_red = Some b ->
  apxm (red (A := b64A lm) (f (b64A lm) t)) (red (A := realA) (f realA r)) b.
Proof.
  intros lm G f Ef t r bt b H E. unfold obind in E. destruct (bound [bt] (f exprA (EVar 0))) as [p|] eqn:Ep; [|discriminate E].
  apply (apxm_red lm _ _ _ _) with (2 := E). rewrite <- (Ef (b64A lm) t), <- (Ef realA r).
  apply (bound_ok lm G _ _ _ (apxl_cons H apxl_nil) _ _ Ep).
Qed.

Lemma nargs_ok : forall lm, good_libm lm -> forall t r bt bl, apx t r bt -> b_nargs bt = Some bl ->
  apxml (nut_list (A := b64A lm) t) (nut_list (A := realA) r) bl.
Proof.
  intros lm G t r bt bl H E. unfold b_nargs in E.
  destruct (obind (bound [bt] (pre_el (A := exprA) (EVar 0))) b_red) as [b0|] eqn:E0; [|discriminate E].
  destruct (obind (bound [bt] (pre_elp (A := exprA) (EVar 0))) b_red) as [b1|] eqn:E1; [|discriminate E].
  destruct (obind (bound [bt] (pre_f (A := exprA) (EVar 0))) b_red) as [b2|] eqn:E2; [|discriminate E].
  destruct (obind (bound [bt] (pre_d (A := exprA) (EVar 0))) b_red) as [b3|] eqn:E3; [|discriminate E].
  destruct (obind (bound [bt] (pre_om (A := exprA) (EVar 0))) b_red) as [b4|] eqn:E4; [|discriminate E].
  cbn [obind] in E. assert ([b0; b1; b2; b3; b4] = bl) as <- by congruence. unfold nut_list.
  repeat apply apxml_cons; [| | | | |apply apxml_nil].
  - apply (red_step lm G (@pre_el) (fun _ _ => eq_refl) _ _ _ _ H E0).
  - apply (red_step lm G (@pre_elp) (fun _ _ => eq_refl) _ _ _ _ H E1).
  - apply (red_step lm G (@pre_f) (fun _ _ => eq_refl) _ _ _ _ H E2).
  - apply (red_step lm G (@pre_d) (fun _ _ => eq_refl) _ _ _ _ H E3).
  - apply (red_step lm G (@pre_om) (fun _ _ => eq_refl) _ _ _ _ H E4).
Qed.

(** ** One row *)

Definition lin5 {A : arith} (row : list Z) (x0 x1 x2 x3 x4 : num A) : num A :=
  let n q := of_int A (nth q row 0%Z) in
  add A (add A (add A (add A (mul A (n 0%nat) x0) (mul A (n 1%nat) x1)) (mul A (n 2%nat) x2)) (mul A (n 3%nat) x3)) (mul A (n 4%nat) x4).
Lemma lin5_eval : forall (A : arith) row (x0 x1 x2 x3 x4 : num A),
  eval A [x0; x1; x2; x3; x4] (lin5 (A := exprA) row (EVar 0) (EVar 1) (EVar 2) (EVar 3) (EVar 4)) = lin5 row x0 x1 x2 x3 x4.
Proof. reflexivity. Qed.

Definition b_narg (row : list Z) (bl : list bnd) : option bnd :=
  obind (bound bl (lin5 (A := exprA) row (EVar 0) (EVar 1) (EVar 2) (EVar 3) (EVar 4))) (fun p => b_rem p b_two_pi).

Lemma nut_arg_lin : forall (A : arith) i (t : num A), nut_arg A i t =
  rem A (lin5 (nth i NALS []) (nut_el t) (nut_elp t) (nut_f t) (nut_d t) (nut_om t)) (c_two_pi A).
Proof. reflexivity. Qed.

Lemma narg_ok : forall lm, good_libm lm -> forall t r bl i b,
  apxml (nut_list (A := b64A lm) t) (nut_list (A := realA) r) bl -> b_narg (nth i NALS []) bl = Some b ->
  apxm (nut_arg (b64A lm) i t) (nut_arg realA i r) b.
Proof.
  intros lm G t r bl i b H E. unfold b_narg, obind in E.
  destruct (bound bl (lin5 (A := exprA) (nth i NALS []) (EVar 0) (EVar 1) (EVar 2) (EVar 3) (EVar 4))) as [p|] eqn:Ep; [|discriminate E].
  destruct (apxml_shift _ _ _ H) as (ks & L & M).
  apply (bound_ok lm G _ _ _ M) in Ep. clear H M. unfold nut_list in *.
  destruct ks as [|k0 [|k1 [|k2 [|k3 [|k4 [|k5 ks]]]]]]; try discriminate L. cbn [shifted] in Ep.
  rewrite !lin5_eval in Ep.
  rewrite !nut_arg_lin. cbn [b64A realA rem c_two_pi].
  apply (apxm_rem_both _ _ p b); [|exact E].
  set (n := fun q => nth q (nth i NALS []) 0%Z).
  exists (n 0%nat * k0 + n 1%nat * k1 + n 2%nat * k2 + n 3%nat * k3 + n 4%nat * k4)%Z.
  match goal with |- apx _ ?u _ => match type of Ep with apx _ ?v _ => assert (EQ : @eq R u v) end end; [|rewrite EQ; exact Ep].
  unfold lin5. realA_ops. rewrite !plus_IZR, !mult_IZR. unfold n.
  generalize (nut_el (A := realA) r) (nut_elp (A := realA) r) (nut_f (A := realA) r) (nut_d (A := realA) r) (nut_om (A := realA) r).
  change (num realA) with R. intros. ring.
Qed.

Definition rowE1 {A : arith} (c0 c1 c2 : num A) (acc t s c : num A) : num A :=
  add A acc (add A (mul A (add A c0 (mul A c1 t)) s) (mul A c2 c)).

Definition b_nrow (bt : bnd) (bl : list bnd) (st : bnd * bnd) (i : nat) : option (bnd * bnd) :=
  obind (b_narg (nth i NALS []) bl) (fun ba =>
  let tr := b_trig ba in
  let k := cls exprA i in
  obind (bound [fst st; bt; tr; tr] (rowE1 (A := exprA) (k 0%nat) (k 1%nat) (k 2%nat) (EVar 0) (EVar 1) (EVar 2) (EVar 3))) (fun p =>
  obind (bound [snd st; bt; tr; tr] (rowE1 (A := exprA) (k 3%nat) (k 4%nat) (k 5%nat) (EVar 0) (EVar 1) (EVar 3) (EVar 2))) (fun e =>
  Some (p, e)))).

Lemma cls_eval : forall A i q env, eval A env (cls exprA i q) = cls A i q.
Proof. intros. unfold cls. cbn [exprA lit eval]. reflexivity. Qed.

Lemma row_eval : forall (A : arith) i q0 q1 q2 (acc t s c : num A) x y,
  eval A [acc; t; s; c] (rowE1 (A := exprA) (cls exprA i q0) (cls exprA i q1) (cls exprA i q2) (EVar 0) (EVar 1) (EVar x) (EVar y)) =
  rowE1 (cls A i q0) (cls A i q1) (cls A i q2) acc t (nth x [acc; t; s; c] (lit A 0 0)) (nth y [acc; t; s; c] (lit A 0 0)).
Proof. reflexivity. Qed.

Lemma nrow_ok : forall lm, good_libm lm -> forall t r bt bl sF sR sb i sb', apx t r bt ->
  apxml (nut_list (A := b64A lm) t) (nut_list (A := realA) r) bl ->
  apx (fst sF) (fst sR) (fst sb) -> apx (snd sF) (snd sR) (snd sb) ->
  b_nrow bt bl sb i = Some sb' ->
  apx (fst (nut_step (b64A lm) t sF i)) (fst (nut_step realA r sR i)) (fst sb') /\
  apx (snd (nut_step (b64A lm) t sF i)) (snd (nut_step realA r sR i)) (snd sb').
Proof.
  intros lm G t r bt bl sF sR sb i sb' Ht Hl H1 H2 E. unfold b_nrow, obind in E.
  destruct (b_narg (nth i NALS []) bl) as [ba|] eqn:Ea; [|discriminate E].
  pose proof (narg_ok lm G t r bl i ba Hl Ea) as K.
  pose proof (apxm_sin lm G _ _ _ K) as Ks. pose proof (apxm_cos lm G _ _ _ K) as Kc.
  destruct (bound [fst sb; bt; b_trig ba; b_trig ba] _) as [p|] eqn:Ep in E; [|discriminate E].
  destruct (bound [snd sb; bt; b_trig ba; b_trig ba] _) as [q|] eqn:Eq in E; [|discriminate E].
  assert ((p, q) = sb') as <- by congruence.
  apply (bound_ok lm G _ _ _ (apxl_cons H1 (apxl_cons Ht (apxl_cons Ks (apxl_cons Kc apxl_nil))))) in Ep.
  apply (bound_ok lm G _ _ _ (apxl_cons H2 (apxl_cons Ht (apxl_cons Ks (apxl_cons Kc apxl_nil))))) in Eq.
  rewrite (row_eval (b64A lm)), (row_eval realA) in Ep, Eq. cbn [nth] in Ep, Eq.
  split; [exact Ep|exact Eq].
Qed.

(** ** The whole series *)

Fixpoint ofold {S T : Type} (f : S -> T -> option S) (l : list T) (s : S) : option S :=
  match l with [] => Some s | x :: l' => obind (f s x) (ofold f l') end.

Definition b_nsum (bt : bnd) : option (bnd * bnd) :=
  obind (b_nargs bt) (fun bl => ofold (b_nrow bt bl) (rev (seq 0 77)) (B 0 0 0, B 0 0 0)).

Lemma nsum_ok : forall lm, good_libm lm -> forall t r bt sb, apx t r bt -> b_nsum bt = Some sb ->
  apx (fst (nut_sum (b64A lm) t)) (fst (nut_sum realA r)) (fst sb) /\
  apx (snd (nut_sum (b64A lm) t)) (snd (nut_sum realA r)) (snd sb).
Proof.
  intros lm G t r bt sb Ht E. unfold b_nsum in E. destruct (b_nargs bt) as [bl|] eqn:El; [|discriminate E]. cbn [obind] in E.
  pose proof (nargs_ok lm G t r bt bl Ht El) as Hl. unfold nut_sum.
  assert (K : forall l sF sR s0, apx (fst sF) (fst sR) (fst s0) -> apx (snd sF) (snd sR) (snd s0) -> ofold (b_nrow bt bl) l s0 = Some sb ->
    apx (fst (fold_left (nut_step (b64A lm) t) l sF)) (fst (fold_left (nut_step realA r) l sR)) (fst sb) /\
    apx (snd (fold_left (nut_step (b64A lm) t) l sF)) (snd (fold_left (nut_step realA r) l sR)) (snd sb)).
  { induction l as [|i l IH]; intros sF sR s0 H1 H2 F; cbn [ofold] in F.
    - assert (s0 = sb) as <- by congruence. split; assumption.
    - destruct (b_nrow bt bl s0 i) as [s1|] eqn:E1; [|discriminate F]. cbn [obind] in F.
      destruct (nrow_ok lm G t r bt bl sF sR s0 i s1 Ht Hl H1 H2 E1) as [A1 A2].
      apply (IH _ _ _ A1 A2 F). }
  exact (K _ (Flit 0 0, Flit 0 0) (Rlit 0 0, Rlit 0 0) (B 0 0 0, B 0 0 0) apx_zero apx_zero E).
Qed.

Definition outE {A : arith} (x k : num A) : num A := add A (mul A x (U2R (A := A))) k.
Lemma out_eval : forall (A : arith) (x : num A),
  eval A [x] (outE (A := exprA) (EVar 0) (DPPLAN (A := exprA))) = outE x (DPPLAN (A := A)) /\
  eval A [x] (outE (A := exprA) (EVar 0) (DEPLAN (A := exprA))) = outE x (DEPLAN (A := A)).
Proof. intros. split; reflexivity. Qed.
Lemma nutation_out : forall (A : arith) (d : TT A), nutation d =
  Val (outE (fst (nut_sum A (tt_centuries d))) (DPPLAN (A := A)), outE (snd (nut_sum A (tt_centuries d))) (DEPLAN (A := A))).
Proof. intros A d. exact (nutation_val A d). Qed.
Definition b_nut (bt : bnd) : option (bnd * bnd) :=
  obind (b_nsum bt) (fun s =>
  obind (bound [fst s] (outE (A := exprA) (EVar 0) (DPPLAN (A := exprA)))) (fun p =>
  obind (bound [snd s] (outE (A := exprA) (EVar 0) (DEPLAN (A := exprA)))) (fun e => Some (p, e)))).

Definition b_cent (b1 b2 : bnd) : option bnd :=
  bound [b1; b2] (tt_centuries (A := exprA) (MkTT (A := exprA) (EVar 0) (EVar 1))).

Lemma cent_ok : forall lm, good_libm lm -> forall a b r s ba bb bt, apx a r ba -> apx b s bb -> b_cent ba bb = Some bt ->
  apx (tt_centuries (A := b64A lm) (MkTT (A := b64A lm) a b)) (centuries (MkTT (A := realA) r s)) bt.
Proof.
  intros lm G a b r s ba bb bt Ha Hb E. rewrite <- centuries_R.
  apply (bound_ok lm G _ _ _ (apxl_cons Ha (apxl_cons Hb apxl_nil)) _ _ E).
Qed.

Lemma nut_ok : forall lm, good_libm lm -> forall (d : TT (b64A lm)) (d' : TT realA) bt bp be,
  apx (tt_centuries (A := b64A lm) d) (centuries d') bt -> b_nut bt = Some (bp, be) ->
  exists dpsi deps : b64, nutation (A := b64A lm) d = Val (dpsi, deps) /\
    apx dpsi (nut_dpsi (centuries d')) bp /\ apx deps (nut_deps (centuries d')) be.
Proof.
  intros lm G d d' bt bp be Ht E. unfold b_nut in E. destruct (b_nsum bt) as [s|] eqn:Es; [|discriminate E]. cbn [obind] in E.
  destruct (bound [fst s] _) as [p|] eqn:Ep in E; [|discriminate E]. cbn [obind] in E.
  destruct (bound [snd s] _) as [e|] eqn:Ee in E; [|discriminate E]. cbn [obind] in E.
  assert (p = bp) as <- by congruence. assert (e = be) as <- by congruence.
  destruct (nsum_ok lm G _ _ _ _ Ht Es) as [A1 A2].
  apply (bound_ok lm G _ _ _ (apxl_cons A1 apxl_nil)) in Ep. apply (bound_ok lm G _ _ _ (apxl_cons A2 apxl_nil)) in Ee.
  rewrite (proj1 (out_eval (b64A lm) _)), (proj1 (out_eval realA _)) in Ep.
  rewrite (proj2 (out_eval (b64A lm) _)), (proj2 (out_eval realA _)) in Ee.
  pose proof (nutation_out realA d') as N. rewrite nutation_closed, centuries_R in N.
  assert (OI : forall x y x' y' : R, Val (x, y) = Val (x', y') -> x = x' /\ y = y') by (intros; split; congruence).
  apply OI in N. destruct N as [-> ->]. rewrite nutation_out.
  exists (outE (A := b64A lm) (fst (nut_sum (b64A lm) (tt_centuries (A := b64A lm) d))) (DPPLAN (A := b64A lm))),
    (outE (A := b64A lm) (snd (nut_sum (b64A lm) (tt_centuries (A := b64A lm) d))) (DEPLAN (A := b64A lm))).
  split; [reflexivity|]. split; [exact Ep|exact Ee].
Qed.

Definition b_chk2 (o : option (bnd * bnd)) (c e : bnd) : bool :=
  match o with Some (a, b) => bleb a c && bleb b e | None => false end.

Lemma nut_chk : forall lm, good_libm lm -> forall a b r s ba bb bp be, apx a r ba -> apx b s bb ->
  b_chk2 (obind (b_cent ba bb) b_nut) bp be = true ->
  exists dpsi deps : b64, nutation (A := b64A lm) (MkTT (A := b64A lm) a b) = Val (dpsi, deps) /\
    apx dpsi (nut_dpsi (centuries (MkTT (A := realA) r s))) bp /\ apx deps (nut_deps (centuries (MkTT (A := realA) r s))) be.
Proof.
  intros lm G a b r s ba bb bp be Ha Hb H. destruct (b_cent ba bb) as [bt|] eqn:Et; [|discriminate H]. cbn [obind] in H.
  destruct (b_nut bt) as [[p e]|] eqn:En; [|discriminate H]. cbn [b_chk2] in H. apply andb_true_iff in H. destruct H as [H1 H2].
  pose proof (cent_ok lm G _ _ _ _ _ _ _ Ha Hb Et) as Ht.
  destruct (nut_ok lm G _ _ _ _ _ Ht En) as (x & y & E & Hx & Hy).
  exists x, y. split; [exact E|]. split; eapply apx_weaken; eassumption.
Qed.
