(** * Error bounds: position and velocity of the Earth *)

From Coq Require Import ZArith Reals Lra Lia Bool List.
From Flocq Require Import Core BinarySingleNaN.
From Verif Require Import Outcome Arith ArithR ArithF Spec_Float Spec_Accuracy M_Common M_Time M_Earth T_Epv00
  Spec_Matrix Spec_Frames Spec_Series.
From Verif Require Import L_ArithF L_ArithR L_FromJulianF L_Flit L_Series L_Epv L_PSeries L_Closed L_Apx L_ApxMod L_ApxAngle L_ApxNut L_ApxSym.
Import ListNotations.
Open Scope R_scope.

Definition sapx2 (x : b64 * b64) (r : R * R) (b : sbnd * sbnd) : Prop := sapx (fst x) (fst r) (fst b) /\ sapx (snd x) (snd r) (snd b).

Definition pairb (env : list sbnd) (e : expr * expr) : option (sbnd * sbnd) :=
  obind (sbound env (fst e)) (fun p => obind (sbound env (snd e)) (fun v => Some (p, v))).
Lemma pairb_ok : forall lm, good_libm lm -> forall xs rs bs e b, sapxl xs rs bs -> pairb bs e = Some b ->
  sapx2 (eval (b64A lm) xs (fst e), eval (b64A lm) xs (snd e)) (eval realA rs (fst e), eval realA rs (snd e)) b.
Proof.
  intros lm G xs rs bs e b H E. unfold pairb in E. destruct (obind_some E) as (p & Ep & E'). destruct (obind_some E') as (v & Ev & E'').
  assert ((p, v) = b) as <- by congruence. split; cbn [fst snd]; eapply (sbound_ok lm G); eassumption.
Qed.

Definition var2 : expr * expr := (EVar 0, EVar 1).
Definition b_f0 (tab : table) (k : nat) (bt : sbnd) (st : sbnd * sbnd) (j : nat) : option (sbnd * sbnd) :=
  pairb [fst st; snd st; bt] (f0 exprA tab k (EVar 2) var2 j).
Definition b_f1 (tab : table) (k : nat) (bt : sbnd) (st : sbnd * sbnd) (j : nat) : option (sbnd * sbnd) :=
  pairb [fst st; snd st; bt] (f1 exprA tab k (EVar 2) var2 j).
Definition b_f2 (tab : table) (k : nat) (bt bt2 : sbnd) (st : sbnd * sbnd) (j : nat) : option (sbnd * sbnd) :=
  pairb [fst st; snd st; bt; bt2] (f2 exprA tab k (EVar 2) (EVar 3) var2 j).

Lemma f0_eval : forall (A : arith) tab k (p v t : num A) j,
  (eval A [p; v; t] (fst (f0 exprA tab k (EVar 2) var2 j)), eval A [p; v; t] (snd (f0 exprA tab k (EVar 2) var2 j))) = f0 A tab k t (p, v) j.
Proof. reflexivity. Qed.
Lemma f1_eval : forall (A : arith) tab k (p v t : num A) j,
  (eval A [p; v; t] (fst (f1 exprA tab k (EVar 2) var2 j)), eval A [p; v; t] (snd (f1 exprA tab k (EVar 2) var2 j))) = f1 A tab k t (p, v) j.
Proof. reflexivity. Qed.
Lemma f2_eval : forall (A : arith) tab k (p v t t2 : num A) j,
  (eval A [p; v; t; t2] (fst (f2 exprA tab k (EVar 2) (EVar 3) var2 j)), eval A [p; v; t; t2] (snd (f2 exprA tab k (EVar 2) (EVar 3) var2 j))) =
  f2 A tab k t t2 (p, v) j.
Proof. reflexivity. Qed.

Lemma f0_ok : forall lm, good_libm lm -> forall tab k t r bt x s b j b', sapx t r bt -> sapx2 x s b -> b_f0 tab k bt b j = Some b' ->
  sapx2 (f0 (b64A lm) tab k t x j) (f0 realA tab k r s j) b'.
Proof.
  intros lm G tab k t r bt [x1 x2] [s1 s2] b j b' Ht [H1 H2] E. cbn [fst snd] in H1, H2.
  apply (pairb_ok lm G _ _ _ _ _ (sapxl_cons H1 (sapxl_cons H2 (sapxl_cons Ht sapxl_nil)))) in E.
  rewrite (f0_eval (b64A lm)), (f0_eval realA) in E. exact E.
Qed.
Lemma f1_ok : forall lm, good_libm lm -> forall tab k t r bt x s b j b', sapx t r bt -> sapx2 x s b -> b_f1 tab k bt b j = Some b' ->
  sapx2 (f1 (b64A lm) tab k t x j) (f1 realA tab k r s j) b'.
Proof.
  intros lm G tab k t r bt [x1 x2] [s1 s2] b j b' Ht [H1 H2] E. cbn [fst snd] in H1, H2.
  apply (pairb_ok lm G _ _ _ _ _ (sapxl_cons H1 (sapxl_cons H2 (sapxl_cons Ht sapxl_nil)))) in E.
  rewrite (f1_eval (b64A lm)), (f1_eval realA) in E. exact E.
Qed.
Lemma f2_ok : forall lm, good_libm lm -> forall tab k t r bt t2 r2 bt2 x s b j b', sapx t r bt -> sapx t2 r2 bt2 -> sapx2 x s b ->
  b_f2 tab k bt bt2 b j = Some b' ->
  sapx2 (f2 (b64A lm) tab k t t2 x j) (f2 realA tab k r r2 s j) b'.
Proof.
  intros lm G tab k t r bt t2 r2 bt2 [x1 x2] [s1 s2] b j b' Ht Ht2 [H1 H2] E. cbn [fst snd] in H1, H2.
  apply (pairb_ok lm G _ _ _ _ _ (sapxl_cons H1 (sapxl_cons H2 (sapxl_cons Ht (sapxl_cons Ht2 sapxl_nil))))) in E.
  rewrite (f2_eval (b64A lm)), (f2_eval realA) in E. exact E.
Qed.

Lemma fold2_ok : forall (fF : b64 * b64 -> nat -> b64 * b64) (fR : R * R -> nat -> R * R) (fb : sbnd * sbnd -> nat -> option (sbnd * sbnd)),
  (forall x s b j b', sapx2 x s b -> fb b j = Some b' -> sapx2 (fF x j) (fR s j) b') ->
  forall l x s b b', sapx2 x s b -> ofold fb l b = Some b' -> sapx2 (fold_left fF l x) (fold_left fR l s) b'.
Proof.
  intros fF fR fb H l. induction l as [|j l IH]; intros x s b b' Hx E; cbn [ofold] in E.
  - assert (b = b') as <- by congruence. exact Hx.
  - destruct (obind_some E) as (b1 & E1 & E2). cbn [fold_left]. apply (IH _ _ b1); [|exact E2]. apply (H _ _ b); assumption.
Qed.

Definition b_series (t0 t1 t2 : table) (n0 n1 n2 k : nat) (bt bt2 : sbnd) (st : sbnd * sbnd) : option (sbnd * sbnd) :=
  obind (ofold (b_f0 t0 k bt) (seq 0 n0) st) (fun s =>
  obind (ofold (b_f1 t1 k bt) (seq 0 n1) s) (fun s => ofold (b_f2 t2 k bt bt2) (seq 0 n2) s)).
Lemma series_ok : forall lm, good_libm lm -> forall t0 t1 t2 n0 n1 n2 k t r bt u v bu x s b b', sapx t r bt -> sapx u v bu -> sapx2 x s b ->
  b_series t0 t1 t2 n0 n1 n2 k bt bu b = Some b' ->
  sapx2 (fold_left (f2 (b64A lm) t2 k t u) (seq 0 n2) (fold_left (f1 (b64A lm) t1 k t) (seq 0 n1) (fold_left (f0 (b64A lm) t0 k t) (seq 0 n0) x)))
       (fold_left (f2 realA t2 k r v) (seq 0 n2) (fold_left (f1 realA t1 k r) (seq 0 n1) (fold_left (f0 realA t0 k r) (seq 0 n0) s))) b'.
Proof.
  intros lm G t0 t1 t2 n0 n1 n2 k t r bt u v bu x s b b' Ht Hu Hx E. unfold b_series in E.
  destruct (obind_some E) as (b1 & E1 & E'). destruct (obind_some E') as (b2 & E2 & E3).
  apply (fold2_ok _ _ (b_f2 t2 k bt bu)) with (b := b2); [|
   apply (fold2_ok _ _ (b_f1 t1 k bt)) with (b := b1); [|
    apply (fold2_ok _ _ (b_f0 t0 k bt)) with (b := b); [|exact Hx|exact E1]|exact E2]|exact E3].
  - intros y w c j c' H C. apply (f2_ok lm G _ _ _ _ _ _ _ _ _ _ _ _ _ Ht Hu H C).
  - intros y w c j c' H C. apply (f1_ok lm G _ _ _ _ _ _ _ _ _ _ Ht H C).
  - intros y w c j c' H C. apply (f0_ok lm G _ _ _ _ _ _ _ _ _ _ Ht H C).
Qed.

Definition b_hst (bt : sbnd) (k : nat) : option (sbnd * sbnd) :=
  obind (s_mul bt bt) (fun bt2 => b_series E0 E1 E2 (nn NE0 k) (nn NE1 k) (nn NE2 k) k bt bt2 (SB 0 0, SB 0 0)).
Definition b_bst (bt : sbnd) (k : nat) (h : sbnd * sbnd) : option (sbnd * sbnd) :=
  obind (s_mul bt bt) (fun bt2 => b_series S0 S1 S2 (nn NS0 k) (nn NS1 k) (nn NS2 k) k bt bt2 h).

Lemma hst_ok : forall lm, good_libm lm -> forall k t r bt b, sapx t r bt -> b_hst bt k = Some b ->
  sapx2 (helio_st (b64A lm) k t) (helio_st realA k r) b.
Proof.
  intros lm G k t r bt b Ht E. destruct (obind_some E) as (bu & Eu & E').
  pose proof (sapx_mul _ _ _ _ _ _ _ Ht Ht Eu) as Hu.
  assert (H0 : sapx2 (Flit 0 0, Flit 0 0) (Rlit 0 0, Rlit 0 0) (SB 0 0, SB 0 0)) by exact (conj sapx_zero sapx_zero).
  exact (series_ok lm G _ _ _ _ _ _ _ _ _ _ _ _ _ _ _ _ _ Ht Hu H0 E').
Qed.
Lemma bst_ok : forall lm, good_libm lm -> forall k t r bt h b, sapx t r bt -> sapx2 (helio_st (b64A lm) k t) (helio_st realA k r) h ->
  b_bst bt k h = Some b ->
  sapx2 (bary_st (b64A lm) k t) (bary_st realA k r) b.
Proof.
  intros lm G k t r bt h b Ht Hh E. destruct (obind_some E) as (bu & Eu & E').
  pose proof (sapx_mul _ _ _ _ _ _ _ Ht Ht Eu) as Hu.
  exact (series_ok lm G _ _ _ _ _ _ _ _ _ _ _ _ _ _ _ _ _ Ht Hu Hh E').
Qed.

(** The six numbers of a state in ICRF: position, then velocity in AU per day. *)
Definition icE {A : arith} (i : idx) (x y z : num A) : num A := vget (ecl_to_icrf x y z) i.
Lemma ic_eval : forall (A : arith) i (x y z : num A), eval A [x; y; z] (icE (A := exprA) i (EVar 0) (EVar 1) (EVar 2)) = icE i x y z.
Proof. intros A [| |] x y z; reflexivity. Qed.
Definition ivE {A : arith} (i : idx) (x y z : num A) : num A := vget (ecl_to_icrf (div A x (DJY (A := A))) (div A y (DJY (A := A))) (div A z (DJY (A := A)))) i.
Lemma iv_eval : forall (A : arith) i (x y z : num A), eval A [x; y; z] (ivE (A := exprA) i (EVar 0) (EVar 1) (EVar 2)) = ivE i x y z.
Proof. intros A [| |] x y z; reflexivity. Qed.

Definition of_s (b : sbnd) : bnd := B (- sm b) (sm b) (se b).
Definition b_out (s0 s1 s2 : sbnd * sbnd) (i : idx) : option (bnd * bnd) :=
  obind (bound [of_s (fst s0); of_s (fst s1); of_s (fst s2)] (icE (A := exprA) i (EVar 0) (EVar 1) (EVar 2))) (fun p =>
  obind (bound [of_s (snd s0); of_s (snd s1); of_s (snd s2)] (ivE (A := exprA) i (EVar 0) (EVar 1) (EVar 2))) (fun v => Some (p, v))).

Lemma out_ok : forall lm, good_libm lm -> forall x0 x1 x2 r0 r1 r2 s0 s1 s2 i b,
  sapx2 x0 r0 s0 -> sapx2 x1 r1 s1 -> sapx2 x2 r2 s2 -> b_out s0 s1 s2 i = Some b ->
  (fun x r c => apx (fst x) (fst r) (fst c) /\ apx (snd x) (snd r) (snd c)) (icE (A := b64A lm) i (fst x0) (fst x1) (fst x2), ivE (A := b64A lm) i (snd x0) (snd x1) (snd x2))
       (icE (A := realA) i (fst r0) (fst r1) (fst r2), ivE (A := realA) i (snd r0) (snd r1) (snd r2)) b.
Proof.
  intros lm G x0 x1 x2 r0 r1 r2 s0 s1 s2 i b [A0 B0] [A1 B1] [A2 B2] E. unfold b_out in E.
  destruct (obind_some E) as (p & Ep & E'). destruct (obind_some E') as (v & Ev & E'').
  assert ((p, v) = b) as <- by congruence. clear E E' E''. cbn [fst snd].
  apply sapx_apx in A0, A1, A2, B0, B1, B2.
  apply (bound_ok lm G _ _ _ (apxl_cons A0 (apxl_cons A1 (apxl_cons A2 apxl_nil)))) in Ep.
  apply (bound_ok lm G _ _ _ (apxl_cons B0 (apxl_cons B1 (apxl_cons B2 apxl_nil)))) in Ev.
  rewrite (ic_eval (b64A lm)), (ic_eval realA) in Ep. rewrite (iv_eval (b64A lm)), (iv_eval realA) in Ev.
  split; [exact Ep|exact Ev].
Qed.

(** Heliocentric and barycentric bounds: for each, the three coordinates. *)
Definition b_epv (bt0 : bnd) : option ((idx -> option (bnd * bnd)) * (idx -> option (bnd * bnd))) :=
  let bt := SB (cup (mg bt0)) (cup (er bt0)) in
  obind (b_hst bt 0) (fun h0 => obind (b_hst bt 1) (fun h1 => obind (b_hst bt 2) (fun h2 =>
  obind (b_bst bt 0 h0) (fun b0 => obind (b_bst bt 1 h1) (fun b1 => obind (b_bst bt 2 h2) (fun b2 =>
  Some (b_out h0 h1 h2, b_out b0 b1 b2))))))).

(** One bound for all positions and one for all velocities. *)
Definition b_epvc (bt hp hv bp bv : bnd) : bool :=
  match b_epv bt with
  | Some (h, b) => forallb (fun i => b_chk2 (h i) hp hv && b_chk2 (b i) bp bv) [I0; I1; I2]
  | None => false
  end.

Lemma b_chk2_ok : forall o c e x r, b_chk2 o c e = true -> (forall b, o = Some b -> apx (fst x) (fst r) (fst b) /\ apx (snd x) (snd r) (snd b)) -> apx (fst x) (fst r) c /\ apx (snd x) (snd r) e.
Proof.
  intros [[p q]|] c e x r H K; [|discriminate H]. cbn [b_chk2] in H. apply andb_true_iff in H. destruct H as [H1 H2].
  destruct (K _ eq_refl) as [K1 K2]. cbn [fst snd] in K1, K2. split; eapply apx_weaken; eassumption.
Qed.

Lemma epv_coords : forall (A : arith) (d : TDB A) i,
  let t := epv_years d in
  vget (pv_p (heliocentric (epv_val A d))) i = icE i (fst (helio_st A 0 t)) (fst (helio_st A 1 t)) (fst (helio_st A 2 t)) /\
  vget (pv_v (heliocentric (epv_val A d))) i = ivE i (snd (helio_st A 0 t)) (snd (helio_st A 1 t)) (snd (helio_st A 2 t)) /\
  vget (pv_p (barycentric (epv_val A d))) i = icE i (fst (bary_st A 0 t)) (fst (bary_st A 1 t)) (fst (bary_st A 2 t)) /\
  vget (pv_v (barycentric (epv_val A d))) i = ivE i (snd (bary_st A 0 t)) (snd (bary_st A 1 t)) (snd (bary_st A 2 t)).
Proof. intros. repeat split. Qed.

Definition pos3 (A : arith) (p : PosVel A) (i : idx) : num A := vget (pv_p p) i.
Definition vel3 (A : arith) (p : PosVel A) (i : idx) : num A := vget (pv_v p) i.
Lemma epv_ok : forall lm, good_libm lm -> forall (d : TDB (b64A lm)) (d' : TDB realA) bt hp hv bp bv,
  apx (epv_years (A := b64A lm) d) (epv_years (A := realA) d') bt -> b_epvc bt hp hv bp bv = true ->
  let e := epv_val (b64A lm) d in let e' := epv_val realA d' in
  forall i,
  apx (pos3 (b64A lm) (heliocentric (A := b64A lm) e) i) (pos3 realA (heliocentric (A := realA) e') i) hp /\
  apx (vel3 (b64A lm) (heliocentric (A := b64A lm) e) i) (vel3 realA (heliocentric (A := realA) e') i) hv /\
  apx (pos3 (b64A lm) (barycentric (A := b64A lm) e) i) (pos3 realA (barycentric (A := realA) e') i) bp /\
  apx (vel3 (b64A lm) (barycentric (A := b64A lm) e) i) (vel3 realA (barycentric (A := realA) e') i) bv.
Proof.
  intros lm G d d' bt hp hv bp bv Ht C e e' i. unfold b_epvc in C. destruct (b_epv bt) as [[h b]|] eqn:E; [|discriminate C].
  unfold b_epv in E. cbv zeta in E. set (bs := SB (cup (mg bt)) (cup (er bt))) in *. destruct (obind_some E) as (h0 & H0 & E1). clear E. destruct (obind_some E1) as (h1 & H1 & E2). clear E1.
  destruct (obind_some E2) as (h2 & H2 & E3). clear E2. destruct (obind_some E3) as (b0 & B0 & E4). clear E3.
  destruct (obind_some E4) as (b1 & B1 & E5). clear E4. destruct (obind_some E5) as (b2 & B2 & E6). clear E5.
  assert (h = b_out h0 h1 h2 /\ b = b_out b0 b1 b2) as [-> ->] by (split; congruence). clear E6.
  apply apx_sapx in Ht. apply (hst_ok lm G _ _ _ _ _ Ht) in H0, H1, H2.
  apply (bst_ok lm G _ _ _ _ _ _ Ht H0) in B0. apply (bst_ok lm G _ _ _ _ _ _ Ht H1) in B1. apply (bst_ok lm G _ _ _ _ _ _ Ht H2) in B2.
  assert (Ci : b_chk2 (b_out h0 h1 h2 i) hp hv && b_chk2 (b_out b0 b1 b2 i) bp bv = true).
  { rewrite forallb_forall in C. apply C. destruct i; cbn [In]; auto. }
  apply andb_true_iff in Ci. destruct Ci as [C1 C2].
  destruct (b_chk2_ok _ _ _ _ _ C1 (fun b => out_ok lm G _ _ _ _ _ _ _ _ _ i b H0 H1 H2)) as [P1 P2].
  destruct (b_chk2_ok _ _ _ _ _ C2 (fun b => out_ok lm G _ _ _ _ _ _ _ _ _ i b B0 B1 B2)) as [P3 P4].
  cbn [fst snd] in P1, P2, P3, P4.
  destruct (epv_coords (b64A lm) d i) as (F1 & F2 & F3 & F4). destruct (epv_coords realA d' i) as (R1 & R2 & R3 & R4).
  unfold e, e', pos3, vel3. rewrite F1, F2, F3, F4, R1, R2, R3, R4. exact (conj P1 (conj P2 (conj P3 P4))).
Qed.

Definition b_years (b1 b2 : bnd) : option bnd :=
  bound [b1; b2] (epv_years (A := exprA) (MkTDB (A := exprA) (EVar 0) (EVar 1))).
Lemma years_ok : forall lm, good_libm lm -> forall a b r s ba bb bt, apx a r ba -> apx b s bb -> b_years ba bb = Some bt ->
  apx (epv_years (A := b64A lm) (MkTDB (A := b64A lm) a b)) (epv_years (A := realA) (MkTDB (A := realA) r s)) bt.
Proof.
  intros lm G a b r s ba bb bt Ha Hb E. apply (bound_ok lm G _ _ _ (apxl_cons Ha (apxl_cons Hb apxl_nil)) _ _ E).
Qed.


(** The exact side: sums over the tables and their derivatives. *)
Definition tdb (a b : R) : TDB realA := MkTDB (A := realA) a b.
Lemma epv_real : forall a b i,
  pos3 realA (heliocentric (A := realA) (epv_val realA (tdb a b))) i = icrf (fun k => helio_ecl k (years (tdb a b))) i /\
  pos3 realA (barycentric (A := realA) (epv_val realA (tdb a b))) i = icrf (fun k => bary_ecl k (years (tdb a b))) i.
Proof.
  intros a b i. destruct (C59_position_series_pf (tdb a b)) as (r & E & H). rewrite earth_pos_vel_val in E.
  apply (f_equal (fun o => match o with Val x => x | _ => r end)) in E. cbv beta iota in E. rewrite E. apply H.
Qed.
Lemma epv_deriv : forall a b i,
  derivable_pt_lim (fun x => icrf (fun k => helio_ecl k (years (tdb x b))) i) a (vel3 realA (heliocentric (A := realA) (epv_val realA (tdb a b))) i) /\
  derivable_pt_lim (fun x => icrf (fun k => bary_ecl k (years (tdb x b))) i) a (vel3 realA (barycentric (A := realA) (epv_val realA (tdb a b))) i).
Proof.
  intros a b i. destruct C40_velocity_is_derivative_pf as (f & E & H). specialize (H a b i). cbv zeta in H.
  assert (EF : forall x, f x b = epv_val realA (tdb x b)).
  { intros x. specialize (E x b). rewrite earth_pos_vel_val in E.
    apply (f_equal (fun o => match o with Val x => x | _ => f x b end)) in E. cbv beta iota in E. symmetry. exact E. }
  destruct H as (H1 & _ & H2 & _). rewrite (EF a) in H1, H2. split.
  - eapply der_ext; [|exact H1]. intros x. cbv beta. rewrite (EF x). apply (proj1 (epv_real x b i)).
  - eapply der_ext; [|exact H2]. intros x. cbv beta. rewrite (EF x). apply (proj2 (epv_real x b i)).
Qed.

Definition years_chk (ba bb hp hv bp bv : bnd) : bool :=
  match b_years ba bb with Some bt => b_epvc (B (-100 * one) (100 * one) (er bt)) hp hv bp bv | None => false end.
Lemma epv_chk : forall lm, good_libm lm -> forall a b ra rb ba bb hp hv bp bv, apx a ra ba -> apx b rb bb ->
  Rabs (years (tdb ra rb)) <= 100 -> years_chk ba bb hp hv bp bv = true ->
  exists r, earth_pos_vel (A := b64A lm) (MkTDB (A := b64A lm) a b) = Val r /\
  forall i,
  apx (pos3 (b64A lm) (heliocentric (A := b64A lm) r) i) (icrf (fun k => helio_ecl k (years (tdb ra rb))) i) hp /\
  apx (pos3 (b64A lm) (barycentric (A := b64A lm) r) i) (icrf (fun k => bary_ecl k (years (tdb ra rb))) i) bp /\
  (exists v, derivable_pt_lim (fun x => icrf (fun k => helio_ecl k (years (tdb x rb))) i) ra v /\
     apx (vel3 (b64A lm) (heliocentric (A := b64A lm) r) i) v hv) /\
  (exists v, derivable_pt_lim (fun x => icrf (fun k => bary_ecl k (years (tdb x rb))) i) ra v /\
     apx (vel3 (b64A lm) (barycentric (A := b64A lm) r) i) v bv).
Proof.
  intros lm G a b ra rb ba bb hp hv bp bv Ha Hb Y C. unfold years_chk in C.
  destruct (b_years ba bb) as [bt|] eqn:EY; [|discriminate C].
  pose proof (years_ok lm G _ _ _ _ _ _ _ Ha Hb EY) as Ht.
  apply (apx_refine _ _ _ (-100 * one) (100 * one)) in Ht.
  2:{ rewrite years_R. rewrite !val_int. apply Rabs_le_inv in Y. exact Y. }
  exists (epv_val (b64A lm) (MkTDB (A := b64A lm) a b)). split; [apply earth_pos_vel_val|]. intros i.
  destruct (epv_ok lm G _ _ _ _ _ _ _ Ht C i) as (P1 & P2 & P3 & P4).
  destruct (epv_real ra rb i) as [R1 R2]. destruct (epv_deriv ra rb i) as [D1 D2].
  unfold tdb in *. rewrite R1 in P1. rewrite R2 in P3.
  split; [exact P1|]. split; [exact P3|]. split; [exact (ex_intro _ _ (conj D1 P2))|exact (ex_intro _ _ (conj D2 P4))].
Qed.
