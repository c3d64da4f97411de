(** * Cheaper error bounds: one magnitude and one error, with few significant bits *)

From Coq Require Import ZArith Reals Lra Lia Bool List.
From Flocq Require Import Core BinarySingleNaN.
From Verif Require Import Outcome Arith ArithR ArithF Spec_Float Spec_Accuracy.
From Verif Require Import L_ArithF L_Flit L_Apx L_ApxMod.
Import ListNotations.
Open Scope R_scope.

(** Round up to 20 significant bits. *)
Definition cup (z : Z) : Z :=
  match z with
  | Zpos p => match (Zpos (Pos.size p) - 20)%Z with Zpos s => Z.shiftl (Z.shiftr z (Zpos s) + 1) (Zpos s) | _ => z end
  | _ => z
  end.
Lemma cup_ge : forall z, (z <= cup z)%Z.
Proof.
  intros [|p|p]; cbn [cup]; try lia. destruct (Z.pos (Pos.size p) - 20)%Z as [|s|s]; try lia.
  rewrite Z.shiftl_mul_pow2, Z.shiftr_div_pow2 by lia.
  pose proof (Z.mul_succ_div_gt (Zpos p) (2 ^ Zpos s) (Z.pow_pos_nonneg 2 (Zpos s) eq_refl (Pos2Z.is_nonneg s))). lia.
Qed.

Record sbnd : Type := SB { sm : Z; se : Z }.
Definition sapx (x : b64) (r : R) (b : sbnd) : Prop := fin x = true /\ Rabs r <= val (sm b) /\ Rabs (B2R x - r) <= val (se b).

Lemma sapx_apx : forall x r b, sapx x r b -> apx x r (B (- sm b) (sm b) (se b)).
Proof. intros x r b (F & H & E). split; [exact F|]. cbn [lo hi er]. rewrite val_opp. apply Rabs_le_inv in H. split; assumption. Qed.
Lemma apx_sapx : forall x r b, apx x r b -> sapx x r (SB (cup (mg b)) (cup (er b))).
Proof.
  intros x r b H. pose proof (apx_mg _ _ _ H) as M. destruct H as (F & _ & E). split; [exact F|]. cbn [sm se].
  pose proof (val_le _ _ (cup_ge (mg b))). pose proof (val_le _ _ (cup_ge (er b))). split; lra.
Qed.

Definition big : Z := Eval compute in (2 ^ 1000)%Z.
Definition s_rnd (m e : Z) : option sbnd :=
  let s := (m + e)%Z in if (s <=? big)%Z then Some (SB (cup m) (cup (e + rup s))) else None.
Lemma s_rnd_ok : forall m e b r y, s_rnd m e = Some b -> Rabs r <= val m -> Rabs (y - r) <= val e ->
  small y /\ forall x, fin x = true -> B2R x = rnd y -> sapx x r b.
Proof.
  intros m e b r y E H D. unfold s_rnd in E. cbv zeta in E. destruct (m + e <=? big)%Z eqn:O; [|discriminate E].
  assert (b = SB (cup m) (cup (e + rup (m + e)))) by congruence. subst b.
  assert (Y : Rabs y <= val (m + e)).
  { rewrite val_add. replace y with (r + (y - r)) by ring. eapply Rle_trans; [apply Rabs_triang|]. lra. }
  split; [apply (okmag_small y _ O Y)|]. intros x F Ex. split; [exact F|]. cbn [sm se].
  pose proof (val_le _ _ (cup_ge m)). pose proof (val_le _ _ (cup_ge (e + rup (m + e)))) as C. rewrite val_add in C.
  split; [lra|]. apply rnd_up in Y. rewrite Ex. replace (rnd y - r) with ((y - r) + (rnd y - y)) by ring.
  eapply Rle_trans; [apply Rabs_triang|]. lra.
Qed.

Definition s_add (a b : sbnd) : option sbnd := s_rnd (sm a + sm b) (se a + se b).
Definition s_mul (a b : sbnd) : option sbnd :=
  s_rnd (sh (sm a * sm b) + 1) (sh (sm a * se b + se a * (sm b + se b)) + 1).
Definition s_trig (a : sbnd) : sbnd := SB one (se a + 75557863725914323419136).

Lemma sapx_add : forall x y r s a b c, sapx x r a -> sapx y s b -> s_add a b = Some c -> sapx (Fadd x y) (r + s) c.
Proof.
  intros x y r s a b c (Fx & Hx & Ex) (Fy & Hy & Ey) E. unfold s_add in E.
  destruct (s_rnd_ok _ _ _ (r + s) (B2R x + B2R y) E) as [S G].
  - rewrite val_add. eapply Rle_trans; [apply Rabs_triang|]. lra.
  - rewrite val_add. replace (B2R x + B2R y - (r + s)) with ((B2R x - r) + (B2R y - s)) by ring.
    eapply Rle_trans; [apply Rabs_triang|]. lra.
  - destruct (Fadd_ok x y Fx Fy S) as [V F]. apply G; assumption.
Qed.
Lemma sapx_sub : forall x y r s a b c, sapx x r a -> sapx y s b -> s_add a b = Some c -> sapx (Fsub x y) (r - s) c.
Proof.
  intros x y r s a b c (Fx & Hx & Ex) (Fy & Hy & Ey) E. unfold s_add in E.
  destruct (s_rnd_ok _ _ _ (r - s) (B2R x - B2R y) E) as [S G].
  - rewrite val_add. unfold Rminus. eapply Rle_trans; [apply Rabs_triang|]. rewrite Rabs_Ropp. lra.
  - rewrite val_add. replace (B2R x - B2R y - (r - s)) with ((B2R x - r) + - (B2R y - s)) by ring.
    eapply Rle_trans; [apply Rabs_triang|]. rewrite Rabs_Ropp. lra.
  - destruct (Fsub_ok x y Fx Fy S) as [V F]. apply G; assumption.
Qed.
Lemma sapx_mul : forall x y r s a b c, sapx x r a -> sapx y s b -> s_mul a b = Some c -> sapx (Fmul x y) (r * s) c.
Proof.
  intros x y r s a b c (Fx & Hx & Ex) (Fy & Hy & Ey) E. unfold s_mul in E. rewrite !sh_div in E.
  pose proof (Rabs_pos r) as Pr. pose proof (Rabs_pos s) as Ps.
  pose proof (Rabs_pos (B2R x - r)) as Px. pose proof (Rabs_pos (B2R y - s)) as Py.
  destruct (s_rnd_ok _ _ _ (r * s) (B2R x * B2R y) E) as [S G].
  - eapply Rle_trans; [|apply mup_ok]. rewrite Rabs_mult. apply Rmult_le_compat; assumption.
  - eapply Rle_trans; [|apply val2_up]. rewrite val2_add.
    replace (val2 (sm a * se b)) with (val (sm a) * val (se b)) by apply val_mul_eq.
    replace (val2 (se a * (sm b + se b))) with (val (se a) * val (sm b + se b)) by apply val_mul_eq. rewrite val_add.
    replace (B2R x * B2R y - r * s) with (r * (B2R y - s) + (B2R x - r) * (s + (B2R y - s))) by ring.
    eapply Rle_trans; [apply Rabs_triang|]. rewrite !Rabs_mult. apply Rplus_le_compat; (apply Rmult_le_compat; [apply Rabs_pos|apply Rabs_pos|assumption|]).
    + assumption.
    + eapply Rle_trans; [apply Rabs_triang|]. lra.
  - destruct (Fmul_ok x y Fx Fy S) as [V F]. apply G; assumption.
Qed.
Lemma sapx_sin : forall lm, good_libm lm -> forall x r a, sapx x r a -> sapx (lm_sin lm x) (sin r) (s_trig a).
Proof.
  intros lm G x r a H. apply sapx_apx, (apx_sin lm G) in H. pose proof (apx_mg _ _ _ H) as M. destruct H as (F & H & E).
  split; [exact F|]. split; [exact M|exact E].
Qed.
Lemma sapx_cos : forall lm, good_libm lm -> forall x r a, sapx x r a -> sapx (lm_cos lm x) (cos r) (s_trig a).
Proof.
  intros lm G x r a H. apply sapx_apx, (apx_cos lm G) in H. pose proof (apx_mg _ _ _ H) as M. destruct H as (F & H & E).
  split; [exact F|]. split; [exact M|exact E].
Qed.

(** Literals: upper bounds of 10^-p, in units of 2^-128. *)
Definition p10 : list Z := Eval vm_compute in map (fun p => cup (one / 10 ^ Z.of_nat p + 1)) (seq 0 30).
Definition s_int (z : Z) : option sbnd :=
  if (Z.abs z <=? 9007199254740992)%Z then Some (SB (Z.abs z * one) 0) else None.
Definition s_lit (m e : Z) : option sbnd :=
  match e with
  | Z0 => s_int m
  | Zpos p => s_int (m * 10 ^ e)
  | Zneg p => match nth_error p10 (Pos.to_nat p) with
              | Some u => s_rnd (cup (Z.abs m) * u) 0
              | None => None
              end
  end.
Lemma p10_ok : forall p u, nth_error p10 (Pos.to_nat p) = Some u -> 1 / IZR (Z.pow_pos 10 p) <= val u.
Proof.
  intros p u H.
  assert (K : (one <= u * Z.pow_pos 10 p)%Z).
  { assert (A : forallb (fun n => match nth_error p10 n with Some v => (one <=? v * 10 ^ Z.of_nat n)%Z | None => true end) (seq 0 30) = true)
      by (vm_compute; reflexivity).
    rewrite forallb_forall in A. specialize (A (Pos.to_nat p)).
    assert (L : (Pos.to_nat p < 30)%nat) by (change 30%nat with (length p10); apply nth_error_Some; congruence).
    specialize (A (proj2 (in_seq 30 0 (Pos.to_nat p)) ltac:(lia))). rewrite H in A. apply Z.leb_le in A.
    rewrite positive_nat_Z in A. exact A. }
  assert (P : 0 < IZR (Z.pow_pos 10 p)) by (apply IZR_lt, Zpower_pos_gt_0; reflexivity).
  apply Rmult_le_reg_r with (IZR (Z.pow_pos 10 p)); [exact P|]. unfold Rdiv. rewrite Rmult_1_l, Rinv_l by lra.
  apply IZR_le in K. rewrite mult_IZR in K. rewrite <- val_one. unfold val.
  replace (IZR u * uu * IZR (Z.pow_pos 10 p)) with (IZR u * IZR (Z.pow_pos 10 p) * uu) by ring.
  apply Rmult_le_compat_r; [left; apply uu_pos|exact K].
Qed.
Lemma sapx_int : forall z b, s_int z = Some b -> sapx (FofZ z) (IZR z) b.
Proof.
  intros z b E. unfold s_int in E. destruct (Z.abs z <=? 9007199254740992)%Z eqn:C; [|discriminate E]. apply Z.leb_le in C.
  assert (b = SB (Z.abs z * one) 0) by congruence. subst b. destruct (FofZ_ok z C) as (V & F & _).
  split; [exact F|]. cbn [sm se]. rewrite val_int, val_0, V, abs_IZR. split; [apply Rle_refl|].
  rewrite Rminus_diag_eq by reflexivity. rewrite Rabs_R0. apply Rle_refl.
Qed.
Lemma sapx_lit : forall m e b, s_lit m e = Some b -> sapx (Flit m e) (Rlit m e) b.
Proof.
  intros m e b E. unfold s_lit in E. destruct e as [|p|p].
  - cbn [Flit Rlit]. change (m * 10 ^ 0)%Z with (m * 1)%Z. rewrite Z.mul_1_r. apply sapx_int, E.
  - cbn [Flit Rlit]. apply sapx_int, E.
  - destruct (nth_error p10 (Pos.to_nat p)) as [u|] eqn:U; [|discriminate E]. apply p10_ok in U.
    assert (P : 0 < IZR (Z.pow_pos 10 p)) by (apply IZR_lt, Zpower_pos_gt_0; reflexivity).
    destruct (s_rnd_ok _ _ _ (Rlit m (Zneg p)) (Rlit m (Zneg p)) E) as [S G].
    + unfold Rlit, Rdiv. rewrite Rabs_mult, <- abs_IZR, (Rabs_pos_eq (/ IZR (Z.pow_pos 10 p))) by (left; apply Rinv_0_lt_compat, P).
      replace (val (cup (Z.abs m) * u)) with (IZR (cup (Z.abs m)) * val u) by (unfold val; rewrite mult_IZR; ring).
      unfold Rdiv in U. rewrite Rmult_1_l in U.
      apply Rmult_le_compat; [apply IZR_le; lia|left; apply Rinv_0_lt_compat, P|apply IZR_le, cup_ge|exact U].
    + rewrite Rminus_diag_eq by reflexivity. rewrite Rabs_R0, val_0. apply Rle_refl.
    + destruct (Flit_neg m p S) as [V F]. apply G; assumption.
Qed.

Fixpoint sbound (env : list sbnd) (e : expr) : option sbnd :=
  match e with
  | EVar n => Some (nth n env (SB 0 0))
  | ELit m x => s_lit m x
  | EAdd a b => obind (sbound env a) (fun p => obind (sbound env b) (fun q => s_add p q))
  | ESub a b => obind (sbound env a) (fun p => obind (sbound env b) (fun q => s_add p q))
  | EMul a b => obind (sbound env a) (fun p => obind (sbound env b) (fun q => s_mul p q))
  | ESin a => obind (sbound env a) (fun p => Some (s_trig p))
  | ECos a => obind (sbound env a) (fun p => Some (s_trig p))
  | _ => None
  end.

Inductive sapxl : list b64 -> list R -> list sbnd -> Prop :=
| sapxl_nil : sapxl [] [] []
| sapxl_cons : forall x r b xs rs bs, sapx x r b -> sapxl xs rs bs -> sapxl (x :: xs) (r :: rs) (b :: bs).
Arguments sapxl_cons {x r b xs rs bs}.

Lemma sapx_zero : sapx (Flit 0 0) (Rlit 0 0) (SB 0 0).
Proof. apply sapx_lit. reflexivity. Qed.
Lemma sapxl_nth : forall xs rs bs, sapxl xs rs bs -> forall n, sapx (nth n xs (Flit 0 0)) (nth n rs (Rlit 0 0)) (nth n bs (SB 0 0)).
Proof.
  intros xs rs bs H. induction H as [|x r b xs rs bs H1 H2 IH]; intros n.
  - destruct n; apply sapx_zero.
  - destruct n; [exact H1|apply IH].
Qed.

Lemma sbound_ok : forall lm, good_libm lm -> forall xs rs bs, sapxl xs rs bs ->
  forall e b, sbound bs e = Some b -> sapx (eval (b64A lm) xs e) (eval realA rs e) b.
Proof.
  intros lm G xs rs bs H e. induction e; intros b' E; cbn [sbound] in E; cbn [eval]; try discriminate E;
    unfold obind in E;
    repeat match type of E with context [match sbound bs ?a with _ => _ end] => destruct (sbound bs a); [|discriminate E] end.
  - assert (nth n bs (SB 0 0) = b') as <- by congruence. apply (sapxl_nth _ _ _ H).
  - apply (sapx_lit m e b' E).
  - apply (sapx_add _ _ _ _ _ _ _ (IHe1 _ eq_refl) (IHe2 _ eq_refl) E).
  - apply (sapx_sub _ _ _ _ _ _ _ (IHe1 _ eq_refl) (IHe2 _ eq_refl) E).
  - apply (sapx_mul _ _ _ _ _ _ _ (IHe1 _ eq_refl) (IHe2 _ eq_refl) E).
  - assert (s_trig s = b') as <- by congruence. apply (sapx_sin lm G _ _ _ (IHe _ eq_refl)).
  - assert (s_trig s = b') as <- by congruence. apply (sapx_cos lm G _ _ _ (IHe _ eq_refl)).
Qed.
