(** * Running error bounds for binary64 code

    [apx x r b]: the binary64 number [x] is finite, the exact value [r] lies in the
    interval of [b], and they differ by at most the error of [b].  All bounds are
    integers counting units of 2^-128, so they are computed exactly. *)

From Coq Require Import ZArith Reals Lra Lia Bool List.
From Flocq Require Import Core BinarySingleNaN.
From Verif Require Import Outcome Arith ArithR ArithF Spec_Float Spec_Accuracy.
From Verif Require Import L_ArithF L_ArithR L_FromJulianF L_Flit L_Pi.
Import ListNotations.
Open Scope R_scope.

Definition uu : R := bpow radix2 (-128).
Lemma uu_pos : 0 < uu. Proof. apply bpow_gt_0. Qed.
Definition val (z : Z) : R := IZR z * uu.
Definition one : Z := Eval compute in (2 ^ 128)%Z.
Lemma val_one : val one = 1.
Proof.
  unfold val, uu. change (IZR one) with (bpow radix2 128). rewrite <- bpow_plus. reflexivity.
Qed.

Lemma val_add : forall a b, val (a + b) = val a + val b.
Proof. intros. unfold val. rewrite plus_IZR. ring. Qed.
Lemma val_sub : forall a b, val (a - b) = val a - val b.
Proof. intros. unfold val. rewrite minus_IZR. ring. Qed.
Lemma val_opp : forall a, val (- a) = - val a.
Proof. intros. unfold val. rewrite opp_IZR. ring. Qed.
Lemma val_le : forall a b, (a <= b)%Z -> val a <= val b.
Proof. intros a b H. unfold val. apply Rmult_le_compat_r; [left; apply uu_pos|]. apply IZR_le, H. Qed.
Lemma val_le_inv : forall a b, val a <= val b -> (a <= b)%Z.
Proof.
  intros a b H. apply le_IZR. unfold val in H. apply Rmult_le_reg_r with uu; [apply uu_pos|exact H].
Qed.
Lemma val_0 : val 0 = 0. Proof. unfold val. ring. Qed.
Lemma val_nonneg : forall a, (0 <= a)%Z -> 0 <= val a.
Proof. intros a H. rewrite <- val_0. apply val_le, H. Qed.
Lemma val_pos : forall a, (0 < a)%Z -> 0 < val a.
Proof. intros a H. unfold val. apply Rmult_lt_0_compat; [apply IZR_lt, H|apply uu_pos]. Qed.

(** Products and quotients of fixed-point numbers, rounded down and up. *)
Definition sh (z : Z) : Z := Z.shiftr z 128.
Lemma sh_div : forall z, sh z = (z / one)%Z.
Proof. intros z. unfold sh. rewrite Z.shiftr_div_pow2 by discriminate. reflexivity. Qed.
Definition mdn (a b : Z) : Z := (a * b / one)%Z.
Definition mup (a b : Z) : Z := (a * b / one + 1)%Z.
Definition ddn (a b : Z) : Z := (a * one / b)%Z.
Definition dup (a b : Z) : Z := (a * one / b + 1)%Z.

Lemma val_mul_eq : forall a b, val a * val b = IZR (a * b) / IZR one * uu.
Proof.
  intros a b. unfold val. rewrite mult_IZR. pose proof val_one as E. unfold val in E.
  assert (IZR one <> 0) by (change (IZR one) with (bpow radix2 128); apply Rgt_not_eq, bpow_gt_0).
  replace uu with (1 / IZR one) by (apply Rmult_eq_reg_l with (IZR one); [|assumption]; rewrite E; field; assumption).
  field. assumption.
Qed.
Lemma div_dn : forall a b, (0 < b)%Z -> IZR (a / b) <= IZR a / IZR b.
Proof.
  intros a b H. apply Rmult_le_reg_r with (IZR b); [apply IZR_lt, H|].
  unfold Rdiv. rewrite Rmult_assoc, Rinv_l by (apply Rgt_not_eq, IZR_lt, H). rewrite Rmult_1_r, <- mult_IZR.
  apply IZR_le. rewrite Z.mul_comm. apply Z.mul_div_le, H.
Qed.
Lemma div_up : forall a b, (0 < b)%Z -> IZR a / IZR b <= IZR (a / b + 1).
Proof.
  intros a b H. apply Rmult_le_reg_r with (IZR b); [apply IZR_lt, H|].
  unfold Rdiv. rewrite Rmult_assoc, Rinv_l by (apply Rgt_not_eq, IZR_lt, H). rewrite Rmult_1_r, <- mult_IZR.
  apply IZR_le. pose proof (Z.mul_succ_div_gt a b H). unfold Z.succ in H0. lia.
Qed.
Lemma mdn_ok : forall a b, val (mdn a b) <= val a * val b.
Proof.
  intros a b. rewrite val_mul_eq. unfold val, mdn. apply Rmult_le_compat_r; [left; apply uu_pos|]. apply div_dn. reflexivity.
Qed.
Lemma mup_ok : forall a b, val a * val b <= val (mup a b).
Proof.
  intros a b. rewrite val_mul_eq. unfold val, mup. apply Rmult_le_compat_r; [left; apply uu_pos|]. apply div_up. reflexivity.
Qed.
Lemma val_div_eq : forall a b, (0 < b)%Z -> val a / val b = IZR (a * one) / IZR b * uu.
Proof.
  intros a b H. unfold val. rewrite mult_IZR. pose proof val_one as E. unfold val in E.
  assert (IZR b <> 0) by (apply Rgt_not_eq, IZR_lt, H). pose proof uu_pos.
  replace (IZR a * IZR one / IZR b * uu) with (IZR a / IZR b * (IZR one * uu)) by (field; assumption).
  rewrite E. field. repeat split; try assumption; lra.
Qed.
Lemma ddn_ok : forall a b, (0 < b)%Z -> val (ddn a b) <= val a / val b.
Proof.
  intros a b H. rewrite val_div_eq by exact H. unfold val, ddn. apply Rmult_le_compat_r; [left; apply uu_pos|]. apply div_dn, H.
Qed.
Lemma dup_ok : forall a b, (0 < b)%Z -> val a / val b <= val (dup a b).
Proof.
  intros a b H. rewrite val_div_eq by exact H. unfold val, dup. apply Rmult_le_compat_r; [left; apply uu_pos|]. apply div_up, H.
Qed.

(** ** Bounds *)

Record bnd : Type := B { lo : Z; hi : Z; er : Z }.
Definition mg (b : bnd) : Z := Z.max (Z.abs (lo b)) (Z.abs (hi b)).

Definition apx (x : b64) (r : R) (b : bnd) : Prop :=
  fin x = true /\ val (lo b) <= r <= val (hi b) /\ Rabs (B2R x - r) <= val (er b).

Lemma apx_er : forall x r b, apx x r b -> (0 <= er b)%Z.
Proof. intros x r b (_ & _ & H). apply val_le_inv. rewrite val_0. pose proof (Rabs_pos (B2R x - r)). lra. Qed.
Lemma mg_ok : forall r b, val (lo b) <= r <= val (hi b) -> Rabs r <= val (mg b).
Proof.
  intros r b [H1 H2]. apply Rabs_le. unfold mg. rewrite <- val_opp.
  pose proof (val_le (- Z.max (Z.abs (lo b)) (Z.abs (hi b))) (lo b) ltac:(lia)).
  pose proof (val_le (hi b) (Z.max (Z.abs (lo b)) (Z.abs (hi b))) ltac:(lia)). lra.
Qed.
Lemma apx_mg : forall x r b, apx x r b -> Rabs r <= val (mg b).
Proof. intros x r b (_ & H & _). apply mg_ok, H. Qed.

Definition bleb (a b : bnd) : bool := ((lo b <=? lo a) && (hi a <=? hi b) && (er a <=? er b))%Z.
Lemma apx_weaken : forall x r a b, apx x r a -> bleb a b = true -> apx x r b.
Proof.
  intros x r a b (F & H & E) L. unfold bleb in L. rewrite !andb_true_iff, !Z.leb_le in L. destruct L as [[L1 L2] L3].
  apply val_le in L1, L2, L3. split; [exact F|]. split; lra.
Qed.

Lemma apx_refine : forall x r b l h, apx x r b -> val l <= r <= val h -> apx x r (B l h (er b)).
Proof. intros x r b l h (F & H & E) K. split; [exact F|]. split; assumption. Qed.

(** Rounding error of a result of magnitude at most [val z]. *)
Definition rup (z : Z) : Z := (Z.shiftr z 53 + 2)%Z.
Lemma rup_div : forall z, rup z = (z / 9007199254740992 + 2)%Z.
Proof. intros z. unfold rup. rewrite Z.shiftr_div_pow2 by discriminate. reflexivity. Qed.
Definition okmag (z : Z) : bool := (z <=? 2 ^ 1000)%Z.

Lemma okmag_small : forall y z, okmag z = true -> Rabs y <= val z -> small y.
Proof.
  intros y z O H. unfold okmag in O. apply Z.leb_le in O. apply small_le with 872%Z; [lia|].
  eapply Rle_trans; [exact H|]. apply val_le in O. eapply Rle_trans; [exact O|].
  unfold val, uu. change (IZR (2 ^ 1000)) with (bpow radix2 1000). rewrite <- bpow_plus. apply Rle_refl.
Qed.

Lemma rnd_up : forall y z, Rabs y <= val z -> Rabs (rnd y - y) <= val (rup z).
Proof.
  intros y z H. pose proof (rnd_rel y) as G.
  assert (E1 : / 2 * bpow radix2 (-52) = / 9007199254740992) by (change (bpow radix2 (-52)) with (/ 4503599627370496); lra).
  rewrite E1 in G.
  assert (E2 : / 2 * bpow radix2 (-1074) <= uu).
  { assert (bpow radix2 (-1074) <= uu) by (apply bpow_le; lia). pose proof uu_pos. pose proof (bpow_gt_0 radix2 (-1074)). lra. }
  rewrite rup_div. replace (z / 9007199254740992 + 2)%Z with ((z / 9007199254740992 + 1) + 1)%Z by ring.
  rewrite val_add. replace (val 1) with uu by (unfold val; ring).
  assert (E3 : / 9007199254740992 * val z <= val (z / 9007199254740992 + 1)).
  { unfold val. pose proof (div_up z 9007199254740992 ltac:(lia)) as D.
    replace (/ 9007199254740992 * (IZR z * uu)) with (IZR z / 9007199254740992 * uu) by (unfold Rdiv; ring).
    apply Rmult_le_compat_r; [left; apply uu_pos|exact D]. }
  lra.
Qed.

(** From a bound on the exact operation to the rounded one. *)
Lemma apx_round : forall x y r l h e, fin x = true -> B2R x = rnd y -> val l <= r <= val h ->
  Rabs (y - r) <= val e -> apx x r (B l h (e + rup (mg (B l h 0) + e))).
Proof.
  intros x y r l h e F E H D. split; [exact F|]. split; [exact H|]. cbn [er]. rewrite val_add, E.
  pose proof (mg_ok r (B l h 0) H) as M.
  assert (Y : Rabs y <= val (mg (B l h 0) + e)).
  { rewrite val_add. replace y with (r + (y - r)) by ring. eapply Rle_trans; [apply Rabs_triang|]. lra. }
  apply rnd_up in Y. replace (rnd y - r) with ((y - r) + (rnd y - y)) by ring.
  eapply Rle_trans; [apply Rabs_triang|]. lra.
Qed.
Definition rnd_bnd (l h e : Z) : option bnd :=
  let m := (mg (B l h 0) + e)%Z in
  if okmag m then Some (B l h (e + rup m)) else None.

Lemma rnd_bnd_ok : forall l h e b r y, rnd_bnd l h e = Some b -> val l <= r <= val h -> Rabs (y - r) <= val e ->
  small y /\ forall x, fin x = true -> B2R x = rnd y -> apx x r b.
Proof.
  intros l h e b r y E H D. unfold rnd_bnd in E. destruct (okmag (mg (B l h 0) + e)) eqn:O; [|discriminate E].
  assert (b = B l h (e + rup (mg (B l h 0) + e))) by congruence. subst b. split.
  - apply (okmag_small y _ O). rewrite val_add. pose proof (mg_ok r (B l h 0) H).
    replace y with (r + (y - r)) by ring. eapply Rle_trans; [apply Rabs_triang|]. lra.
  - intros x F Ex. apply (apx_round x y r l h e F Ex H D).
Qed.

Definition b_add (a b : bnd) : option bnd := rnd_bnd (lo a + lo b) (hi a + hi b) (er a + er b).
Definition b_sub (a b : bnd) : option bnd := rnd_bnd (lo a - hi b) (hi a - lo b) (er a + er b).
Definition b_neg (a : bnd) : bnd := B (- hi a) (- lo a) (er a).
Definition b_abs (a : bnd) : bnd := B 0 (mg a) (er a).
Definition min4 (a b c d : Z) : Z := Z.min (Z.min a b) (Z.min c d).
Definition max4 (a b c d : Z) : Z := Z.max (Z.max a b) (Z.max c d).
Definition b_mul (a b : bnd) : option bnd :=
  let p1 := (lo a * lo b)%Z in let p2 := (lo a * hi b)%Z in let p3 := (hi a * lo b)%Z in let p4 := (hi a * hi b)%Z in
  rnd_bnd (sh (min4 p1 p2 p3 p4)) (sh (max4 p1 p2 p3 p4) + 1)
    (sh (mg a * er b + mg b * er a + er a * er b) + 1).
Definition b_div (a b : bnd) : option bnd :=
  if (er b <? lo b)%Z then
    let l := Z.min (ddn (lo a) (lo b)) (ddn (lo a) (hi b)) in
    let h := Z.max (dup (hi a) (lo b)) (dup (hi a) (hi b)) in
    rnd_bnd l h (dup (er a + mup (mg (B l h 0)) (er b)) (lo b - er b))
  else None.
Definition b_sqrt (a : bnd) : option bnd :=
  if (er a <? lo a)%Z then
    let l := Z.sqrt (lo a * one) in
    let h := (Z.sqrt (hi a * one) + 1)%Z in
    if (0 <? l)%Z then rnd_bnd l h (dup (er a) l) else None
  else None.
Definition b_trig (a : bnd) : bnd := B (- one) one (er a + 2 ^ 76).

Lemma apx_add : forall x y r s a b c, apx x r a -> apx y s b -> b_add a b = Some c -> apx (Fadd x y) (r + s) c.
Proof.
  intros x y r s a b c (Fx & Hx & Ex) (Fy & Hy & Ey) E. unfold b_add in E.
  destruct (rnd_bnd_ok _ _ _ _ (r + s) (B2R x + B2R y) E) as [S G].
  - rewrite !val_add. lra.
  - rewrite val_add. replace (B2R x + B2R y - (r + s)) with ((B2R x - r) + (B2R y - s)) by ring.
    eapply Rle_trans; [apply Rabs_triang|]. lra.
  - destruct (Fadd_ok x y Fx Fy S) as [V F]. apply G; assumption.
Qed.
Lemma apx_sub : forall x y r s a b c, apx x r a -> apx y s b -> b_sub a b = Some c -> apx (Fsub x y) (r - s) c.
Proof.
  intros x y r s a b c (Fx & Hx & Ex) (Fy & Hy & Ey) E. unfold b_sub in E.
  destruct (rnd_bnd_ok _ _ _ _ (r - s) (B2R x - B2R y) E) as [S G].
  - rewrite !val_sub. lra.
  - rewrite val_add. replace (B2R x - B2R y - (r - s)) with ((B2R x - r) + - (B2R y - s)) by ring.
    eapply Rle_trans; [apply Rabs_triang|]. rewrite Rabs_Ropp. lra.
  - destruct (Fsub_ok x y Fx Fy S) as [V F]. apply G; assumption.
Qed.
Lemma apx_neg : forall x r a, apx x r a -> apx (Bopp x) (- r) (b_neg a).
Proof.
  intros x r a (F & H & E). unfold b_neg. split; [|split]; cbn [lo hi er].
  - rewrite is_finite_Bopp. exact F.
  - rewrite !val_opp. lra.
  - rewrite B2R_Bopp. replace (- B2R x - - r) with (- (B2R x - r)) by ring. rewrite Rabs_Ropp. exact E.
Qed.
Lemma apx_abs : forall x r a, apx x r a -> apx (Babs x) (Rabs r) (b_abs a).
Proof.
  intros x r a H0. pose proof (apx_mg _ _ _ H0) as M. destruct H0 as (F & H & E). unfold b_abs. split; [|split]; cbn [lo hi er].
  - rewrite is_finite_Babs. exact F.
  - rewrite val_0. split; [apply Rabs_pos|exact M].
  - rewrite B2R_Babs. eapply Rle_trans; [apply Rabs_triang_inv2|exact E].
Qed.

Lemma min4_le : forall a b c d, (min4 a b c d <= a /\ min4 a b c d <= b /\ min4 a b c d <= c /\ min4 a b c d <= d)%Z.
Proof. intros. unfold min4. lia. Qed.
Lemma max4_ge : forall a b c d, (a <= max4 a b c d /\ b <= max4 a b c d /\ c <= max4 a b c d /\ d <= max4 a b c d)%Z.
Proof. intros. unfold max4. lia. Qed.

Lemma prod_range : forall a b c d x y, a <= x <= b -> c <= y <= d ->
  Rmin (Rmin (a*c) (a*d)) (Rmin (b*c) (b*d)) <= x * y <= Rmax (Rmax (a*c) (a*d)) (Rmax (b*c) (b*d)).
Proof.
  intros a b c d x y Hx Hy.
  assert (G : forall t, c <= t <= d -> Rmin (a * t) (b * t) <= x * t <= Rmax (a * t) (b * t)).
  { intros t _. destruct (Rle_lt_dec 0 t) as [T|T].
    - split; [eapply Rle_trans; [apply Rmin_l|]|eapply Rle_trans; [|apply Rmax_r]]; nra.
    - split; [eapply Rle_trans; [apply Rmin_r|]|eapply Rle_trans; [|apply Rmax_l]]; nra. }
  assert (K : forall z, Rmin (z * c) (z * d) <= z * y <= Rmax (z * c) (z * d)).
  { intros z. destruct (Rle_lt_dec 0 z) as [T|T].
    - split; [eapply Rle_trans; [apply Rmin_l|]|eapply Rle_trans; [|apply Rmax_r]]; nra.
    - split; [eapply Rle_trans; [apply Rmin_r|]|eapply Rle_trans; [|apply Rmax_l]]; nra. }
  pose proof (G y Hy) as [G1 G2]. pose proof (K a) as [A1 A2]. pose proof (K b) as [B1 B2]. split.
  - eapply Rle_trans; [|exact G1]. apply Rmin_glb.
    + eapply Rle_trans; [apply Rmin_l|exact A1].
    + eapply Rle_trans; [apply Rmin_r|exact B1].
  - eapply Rle_trans; [exact G2|]. apply Rmax_lub.
    + eapply Rle_trans; [exact A2|apply Rmax_l].
    + eapply Rle_trans; [exact B2|apply Rmax_r].
Qed.

Definition val2 (z : Z) : R := IZR z / IZR one * uu.
Lemma val2_mono : forall a b, (a <= b)%Z -> val2 a <= val2 b.
Proof.
  intros a b H. unfold val2, Rdiv. apply Rmult_le_compat_r; [left; apply uu_pos|].
  apply Rmult_le_compat_r; [|apply IZR_le, H]. left. apply Rinv_0_lt_compat. apply IZR_lt. reflexivity.
Qed.
Lemma val2_dn : forall a, val (a / one) <= val2 a.
Proof. intros a. unfold val, val2. apply Rmult_le_compat_r; [left; apply uu_pos|]. apply div_dn. reflexivity. Qed.
Lemma val2_up : forall a, val2 a <= val (a / one + 1).
Proof. intros a. unfold val, val2. apply Rmult_le_compat_r; [left; apply uu_pos|]. apply div_up. reflexivity. Qed.
Lemma val2_add : forall a b, val2 (a + b) = val2 a + val2 b.
Proof. intros. unfold val2. rewrite plus_IZR. unfold Rdiv. ring. Qed.

Lemma apx_mul : forall x y r s a b c, apx x r a -> apx y s b -> b_mul a b = Some c -> apx (Fmul x y) (r * s) c.
Proof.
  intros x y r s a b c Ax Ay E.
  pose proof (apx_mg _ _ _ Ax) as Mx. pose proof (apx_mg _ _ _ Ay) as My.
  destruct Ax as (Fx & Hx & Ex). destruct Ay as (Fy & Hy & Ey). unfold b_mul in E. rewrite !sh_div in E.
  destruct (rnd_bnd_ok _ _ _ _ (r * s) (B2R x * B2R y) E) as [S G].
  - pose proof (prod_range _ _ _ _ _ _ Hx Hy) as [P1 P2]. rewrite !val_mul_eq in P1, P2.
    split.
    + eapply Rle_trans; [apply val2_dn|]. eapply Rle_trans; [|exact P1].
      repeat apply Rmin_glb; apply val2_mono, min4_le.
    + eapply Rle_trans; [|apply val2_up]. eapply Rle_trans; [exact P2|].
      repeat apply Rmax_lub; apply val2_mono, max4_ge.
  - eapply Rle_trans; [|apply val2_up]. rewrite !val2_add. unfold val2. rewrite <- !val_mul_eq.
    replace (B2R x * B2R y - r * s) with (r * (B2R y - s) + s * (B2R x - r) + (B2R x - r) * (B2R y - s)) by ring.
    eapply Rle_trans; [apply Rabs_triang|]. eapply Rle_trans; [apply Rplus_le_compat_r, Rabs_triang|].
    rewrite !Rabs_mult. repeat apply Rplus_le_compat; apply Rmult_le_compat; try apply Rabs_pos; assumption.
  - destruct (Fmul_ok x y Fx Fy S) as [V F]. apply G; assumption.
Qed.

Lemma apx_div : forall x y r s a b c, apx x r a -> apx y s b -> b_div a b = Some c -> apx (Fdiv x y) (r / s) c.
Proof.
  intros x y r s a b c Ax Ay E. pose proof (apx_er _ _ _ Ay) as Ny.
  destruct Ax as (Fx & Hx & Ex). destruct Ay as (Fy & Hy & Ey). unfold b_div in E.
  destruct (er b <? lo b)%Z eqn:C; [|discriminate E]. apply Z.ltb_lt in C.
  set (l := Z.min (ddn (lo a) (lo b)) (ddn (lo a) (hi b))) in *. set (h := Z.max (dup (hi a) (lo b)) (dup (hi a) (hi b))) in *.
  assert (Lb : 0 < val (lo b)) by (apply val_pos; lia).
  assert (HB : (0 < hi b)%Z) by (assert (lo b <= hi b)%Z by (apply val_le_inv; lra); lia).
  assert (Hd : 0 < val (lo b - er b)) by (apply val_pos; lia).
  assert (Y0 : val (lo b - er b) <= B2R y) by (rewrite val_sub; apply Rabs_le_inv in Ey; lra).
  assert (Q : val l <= r / s <= val h).
  { assert (I1 : / val (hi b) <= / s <= / val (lo b)) by (split; apply Rinv_le_contravar; lra).
    assert (0 < / val (hi b)) by (apply Rinv_0_lt_compat; lra). unfold Rdiv. split.
    - destruct (Rle_lt_dec 0 (val (lo a))) as [T|T].
      + eapply Rle_trans; [apply val_le, Z.le_min_r|]. eapply Rle_trans; [apply ddn_ok, HB|]. unfold Rdiv. nra.
      + eapply Rle_trans; [apply val_le, Z.le_min_l|]. eapply Rle_trans; [apply ddn_ok; lia|]. unfold Rdiv. nra.
    - destruct (Rle_lt_dec 0 (val (hi a))) as [T|T].
      + eapply Rle_trans; [|apply val_le, Z.le_max_l]. eapply Rle_trans; [|apply dup_ok; lia]. unfold Rdiv. nra.
      + eapply Rle_trans; [|apply val_le, Z.le_max_r]. eapply Rle_trans; [|apply dup_ok, HB]. unfold Rdiv. nra. }
  destruct (rnd_bnd_ok _ _ _ _ (r / s) (B2R x / B2R y) E Q) as [S G].
  - eapply Rle_trans; [|apply dup_ok; lia].
    replace (B2R x / B2R y - r / s) with (((B2R x - r) + (r / s) * - (B2R y - s)) / B2R y) by (field; lra).
    match goal with |- Rabs (?u / ?v) <= ?p / ?q => change (Rabs (u * / v) <= p * / q) end. rewrite Rabs_mult.
    apply Rmult_le_compat; try apply Rabs_pos.
    + eapply Rle_trans; [apply Rabs_triang|]. rewrite val_add. apply Rplus_le_compat; [exact Ex|].
      eapply Rle_trans; [|apply mup_ok]. rewrite Rabs_mult, Rabs_Ropp. apply Rmult_le_compat; try apply Rabs_pos; [|exact Ey].
      apply mg_ok. exact Q.
    + rewrite Rabs_pos_eq by (left; apply Rinv_0_lt_compat; lra). apply Rinv_le_contravar; lra.
  - assert (B2R y <> 0) by lra. destruct (Fdiv_ok x y Fx H S) as [V F]. apply G; assumption.
Qed.

Lemma Fsqrt_ok : forall x, fin x = true -> 0 <= B2R x -> B2R (Fsqrt x) = rnd (R_sqrt.sqrt (B2R x)) /\ fin (Fsqrt x) = true.
Proof.
  intros x F P. destruct (Bsqrt_correct 53 1024 _ _ mode_NE x) as (A & B & _). split; [exact A|].
  unfold Fsqrt. rewrite B. destruct x as [s|s| |[|] m e H]; try reflexivity; try discriminate F.
  exfalso. assert (B2R (B754_finite true m e H) < 0) by (apply F2R_lt_0; reflexivity). lra.
Qed.

Lemma sqrt_val_dn : forall a, (0 <= a)%Z -> val (Z.sqrt (a * one)) <= R_sqrt.sqrt (val a).
Proof.
  intros a H. pose proof (Z.sqrt_spec (a * one) ltac:(unfold one; lia)) as [S1 _].
  pose proof (Z.sqrt_nonneg (a * one)) as S0.
  rewrite <- (sqrt_square (val (Z.sqrt (a * one)))) by (apply val_nonneg, S0).
  apply sqrt_le_1_alt. rewrite val_mul_eq. replace (val a) with (val2 (a * one)).
  - apply val2_mono, S1.
  - unfold val2, val. rewrite mult_IZR. field. apply IZR_neq. discriminate.
Qed.
Lemma sqrt_val_up : forall a, (0 <= a)%Z -> R_sqrt.sqrt (val a) <= val (Z.sqrt (a * one) + 1).
Proof.
  intros a H. pose proof (Z.sqrt_spec (a * one) ltac:(unfold one; lia)) as [_ S1].
  pose proof (Z.sqrt_nonneg (a * one)) as S0.
  rewrite <- (sqrt_square (val (Z.sqrt (a * one) + 1))) by (apply val_nonneg; lia).
  apply sqrt_le_1_alt. rewrite val_mul_eq. replace (val a) with (val2 (a * one)).
  - apply val2_mono. unfold Z.succ in S1. lia.
  - unfold val2, val. rewrite mult_IZR. field. apply IZR_neq. discriminate.
Qed.

Lemma apx_sqrt : forall x r a c, apx x r a -> b_sqrt a = Some c -> apx (Fsqrt x) (R_sqrt.sqrt r) c.
Proof.
  intros x r a c Ax E. pose proof (apx_er _ _ _ Ax) as Nx. destruct Ax as (F & H & Ex). unfold b_sqrt in E.
  destruct (er a <? lo a)%Z eqn:C; [|discriminate E]. apply Z.ltb_lt in C.
  destruct (0 <? Z.sqrt (lo a * one))%Z eqn:D; [|discriminate E]. apply Z.ltb_lt in D.
  assert (Lb : 0 < val (lo a)) by (apply val_pos; lia).
  assert (P : 0 <= B2R x). { apply Rabs_le_inv in Ex. assert (val (er a) <= val (lo a)) by (apply val_le; lia). lra. }
  assert (Q1 : val (Z.sqrt (lo a * one)) <= R_sqrt.sqrt r).
  { eapply Rle_trans; [apply sqrt_val_dn; lia|]. apply sqrt_le_1_alt. lra. }
  destruct (Fsqrt_ok x F P) as [V G]. 
  destruct (rnd_bnd_ok _ _ _ _ (R_sqrt.sqrt r) (R_sqrt.sqrt (B2R x)) E) as [S K].
  - split; [exact Q1|]. assert (lo a <= hi a)%Z by (apply val_le_inv; lra).
    eapply Rle_trans; [|apply sqrt_val_up; lia]. apply sqrt_le_1_alt. lra.
  - eapply Rle_trans; [|apply dup_ok, D]. pose proof (val_pos _ D) as D0.
    pose proof (sqrt_pos (B2R x)) as Px.
    pose proof (sqrt_def _ P) as D1. pose proof (sqrt_def r ltac:(lra)) as D2.
    set (p := R_sqrt.sqrt (B2R x)) in *. set (q := R_sqrt.sqrt r) in *.
    replace (p - q) with ((B2R x - r) * / (p + q)) by (rewrite <- D1, <- D2; field; lra).
    rewrite Rabs_mult. unfold Rdiv. apply Rmult_le_compat; try apply Rabs_pos; [exact Ex|].
    rewrite Rabs_pos_eq by (left; apply Rinv_0_lt_compat; lra). apply Rinv_le_contravar; lra.
  - apply K; assumption.
Qed.

Lemma sin_lip : forall x y, Rabs (sin x - sin y) <= Rabs (x - y).
Proof.
  intros x y. destruct (MVT_abs sin cos x y (fun z _ => derivable_pt_lim_sin z)) as (c & E & _).
  rewrite Rabs_minus_sym, (Rabs_minus_sym x y), E.
  rewrite <- (Rmult_1_l (Rabs (y - x))) at 2. apply Rmult_le_compat_r; [apply Rabs_pos|].
  apply Rabs_le, COS_bound.
Qed.
Lemma cos_lip : forall x y, Rabs (cos x - cos y) <= Rabs (x - y).
Proof.
  intros x y. rewrite !cos_sin. eapply Rle_trans; [apply sin_lip|].
  replace (PI / 2 + x - (PI / 2 + y)) with (x - y) by ring. apply Rle_refl.
Qed.

Lemma val_trig : val (2 ^ 76) = bpow radix2 (-52).
Proof. unfold val, uu. change (IZR (2 ^ 76)) with (bpow radix2 76). rewrite <- bpow_plus. reflexivity. Qed.

Lemma apx_sin : forall lm, good_libm lm -> forall x r a, apx x r a -> apx (lm_sin lm x) (sin r) (b_trig a).
Proof.
  intros lm G x r a (F & H & E). destruct (good_sin lm G x F) as [F' E']. split; [exact F'|]. cbn [b_trig lo hi er]. split.
  - rewrite val_opp, val_one. apply SIN_bound.
  - rewrite val_add, val_trig. pose proof (sin_lip (B2R x) r).
    replace (B2R (lm_sin lm x) - sin r) with ((B2R (lm_sin lm x) - sin (B2R x)) + (sin (B2R x) - sin r)) by ring.
    eapply Rle_trans; [apply Rabs_triang|]. lra.
Qed.
Lemma apx_cos : forall lm, good_libm lm -> forall x r a, apx x r a -> apx (lm_cos lm x) (cos r) (b_trig a).
Proof.
  intros lm G x r a (F & H & E). destruct (good_cos lm G x F) as [F' E']. split; [exact F'|]. cbn [b_trig lo hi er]. split.
  - rewrite val_opp, val_one. apply COS_bound.
  - rewrite val_add, val_trig. pose proof (cos_lip (B2R x) r).
    replace (B2R (lm_cos lm x) - cos r) with ((B2R (lm_cos lm x) - cos (B2R x)) + (cos (B2R x) - cos r)) by ring.
    eapply Rle_trans; [apply Rabs_triang|]. lra.
Qed.

(** ** Literals and constants *)

Definition b_int (z : Z) : option bnd := if (Z.abs z <=? 2 ^ 53)%Z then Some (B (z * one) (z * one) 0) else None.
Definition b_lit (m e : Z) : option bnd :=
  match e with
  | Z0 => b_int m
  | Zpos p => b_int (m * 10 ^ e)
  | Zneg p => rnd_bnd (m * one / Z.pow_pos 10 p) (m * one / Z.pow_pos 10 p + 1) 0
  end.

Lemma val_int : forall z, val (z * one) = IZR z.
Proof. intros z. unfold val. rewrite mult_IZR, Rmult_assoc. pose proof val_one as E. unfold val in E. rewrite E. ring. Qed.

Lemma apx_int : forall z b, b_int z = Some b -> apx (FofZ z) (IZR z) b.
Proof.
  intros z b E. unfold b_int in E. destruct (Z.abs z <=? 2 ^ 53)%Z eqn:C; [|discriminate E]. apply Z.leb_le in C.
  assert (b = B (z * one) (z * one) 0) by congruence. subst b. destruct (FofZ_ok z C) as (V & F & _).
  split; [exact F|]. cbn [lo hi er]. rewrite val_int, val_0, V. split; [split; apply Rle_refl|].
  rewrite Rminus_diag_eq by reflexivity. rewrite Rabs_R0. apply Rle_refl.
Qed.

Lemma apx_lit : forall m e b, b_lit m e = Some b -> apx (Flit m e) (Rlit m e) b.
Proof.
  intros m e b E. unfold b_lit in E. destruct e as [|p|p].
  - cbn [Flit Rlit]. change (m * 10 ^ 0)%Z with (m * 1)%Z. rewrite Z.mul_1_r. apply apx_int, E.
  - cbn [Flit Rlit]. apply apx_int, E.
  - assert (P : (0 < Z.pow_pos 10 p)%Z) by (apply Zpower_pos_gt_0; reflexivity).
    destruct (rnd_bnd_ok _ _ _ _ (Rlit m (Zneg p)) (Rlit m (Zneg p)) E) as [S G].
    + unfold Rlit. assert (EQ : IZR m / IZR (Z.pow_pos 10 p) = IZR (m * one) / IZR (Z.pow_pos 10 p) * uu).
      { rewrite mult_IZR. pose proof val_one as E1. unfold val in E1.
        replace (IZR m * IZR one / IZR (Z.pow_pos 10 p) * uu) with (IZR m / IZR (Z.pow_pos 10 p) * (IZR one * uu)).
        - rewrite E1. ring.
        - unfold Rdiv. ring. }
      rewrite EQ. split; apply Rmult_le_compat_r; try (left; apply uu_pos); [apply div_dn, P|apply div_up, P].
    + rewrite Rminus_diag_eq by reflexivity. rewrite Rabs_R0, val_0. apply Rle_refl.
    + destruct (Flit_neg m p S) as [V F]. apply G; assumption.
Qed.

(** A literal standing for the number [v]. *)
Lemma apx_const : forall m p v l h d b, rnd_bnd l h d = Some b -> val l <= v <= val h ->
  Rabs (Rlit m (Zneg p) - v) <= val d -> apx (Flit m (Zneg p)) v b.
Proof.
  intros m p v l h d b E H D. destruct (rnd_bnd_ok _ _ _ _ v (Rlit m (Zneg p)) E H D) as [S G].
  destruct (Flit_neg m p S) as [V F]. apply G; assumption.
Qed.

Definition dec24 (z : Z) : Z := (z * one / 10 ^ 24)%Z.
Lemma dec24_dn : forall z, val (dec24 z) <= IZR z / IZR (10 ^ 24).
Proof.
  intros z. unfold val, dec24. pose proof (div_dn (z * one) (10 ^ 24) ltac:(reflexivity)) as D. rewrite mult_IZR in D.
  apply Rle_trans with (IZR z * IZR one / IZR (10 ^ 24) * uu); [apply Rmult_le_compat_r; [left; apply uu_pos|exact D]|].
  pose proof val_one as E. unfold val in E.
  replace (IZR z * IZR one / IZR (10 ^ 24) * uu) with (IZR z / IZR (10 ^ 24) * (IZR one * uu)) by (unfold Rdiv; ring).
  rewrite E, Rmult_1_r. apply Rle_refl.
Qed.
Lemma dec24_up : forall z, IZR z / IZR (10 ^ 24) <= val (dec24 z + 1).
Proof.
  intros z. unfold val, dec24. pose proof (div_up (z * one) (10 ^ 24) ltac:(reflexivity)) as D.
  apply Rle_trans with (IZR z * IZR one / IZR (10 ^ 24) * uu);
    [|apply Rmult_le_compat_r; [left; apply uu_pos|rewrite <- mult_IZR; exact D]].
  pose proof val_one as E. unfold val in E.
  replace (IZR z * IZR one / IZR (10 ^ 24) * uu) with (IZR z / IZR (10 ^ 24) * (IZR one * uu)) by (unfold Rdiv; ring).
  rewrite E, Rmult_1_r. apply Rle_refl.
Qed.

Definition b_pi : bnd := Eval compute in
  match rnd_bnd (dec24 3141592653589793238462643) (dec24 3141592653589793238462644 + 1) (dec24 1 + 1) with Some b => b | None => B 0 0 0 end.
Definition b_two_pi : bnd := Eval compute in
  match rnd_bnd (dec24 6283185307179586476925286) (dec24 6283185307179586476925288 + 1) (dec24 2 + 1) with Some b => b | None => B 0 0 0 end.
Definition b_as2r : bnd := Eval compute in
  match rnd_bnd (dec24 4848136811095359935) (dec24 4848136811095359936 + 1) (dec24 1 + 1) with Some b => b | None => B 0 0 0 end.

Lemma apx_pi : apx (Flit 314159265358979323846264338327950288 (-35)) PI b_pi.
Proof.
  pose proof PI_bounds_24 as P.
  apply apx_const with (dec24 3141592653589793238462643) (dec24 3141592653589793238462644 + 1)%Z (dec24 1 + 1)%Z.
  - vm_compute. reflexivity.
  - pose proof (dec24_dn 3141592653589793238462643) as A. pose proof (dec24_up 3141592653589793238462644) as B'.
    change (10 ^ 24)%Z with 1000000000000000000000000%Z in A, B'. lra.
  - eapply Rle_trans; [|apply dec24_up]. change (10 ^ 24)%Z with 1000000000000000000000000%Z.
    unfold Rlit. change (Z.pow_pos 10 35) with 100000000000000000000000000000000000%Z. apply Rabs_le. lra.
Qed.
Lemma apx_two_pi : apx (Flit 6283185307179586476925287 (-24)) (2 * PI) b_two_pi.
Proof.
  pose proof PI_bounds_24 as P.
  apply apx_const with (dec24 6283185307179586476925286) (dec24 6283185307179586476925288 + 1)%Z (dec24 2 + 1)%Z.
  - vm_compute. reflexivity.
  - pose proof (dec24_dn 6283185307179586476925286) as A. pose proof (dec24_up 6283185307179586476925288) as B'.
    change (10 ^ 24)%Z with 1000000000000000000000000%Z in A, B'. lra.
  - eapply Rle_trans; [|apply dec24_up]. change (10 ^ 24)%Z with 1000000000000000000000000%Z.
    unfold Rlit. change (Z.pow_pos 10 24) with 1000000000000000000000000%Z. apply Rabs_le. lra.
Qed.
Lemma apx_as2r : apx (Flit 4848136811095359935899141 (-30)) (PI / 648000) b_as2r.
Proof.
  pose proof PI_bounds_24 as P.
  apply apx_const with (dec24 4848136811095359935) (dec24 4848136811095359936 + 1)%Z (dec24 1 + 1)%Z.
  - vm_compute. reflexivity.
  - pose proof (dec24_dn 4848136811095359935) as A. pose proof (dec24_up 4848136811095359936) as B'.
    change (10 ^ 24)%Z with 1000000000000000000000000%Z in A, B'. lra.
  - eapply Rle_trans; [|apply dec24_up]. change (10 ^ 24)%Z with 1000000000000000000000000%Z.
    unfold Rlit. change (Z.pow_pos 10 30) with 1000000000000000000000000000000%Z. apply Rabs_le. lra.
Qed.

(** ** Straight-line code as data

    The model's functions are generic in the arithmetic; at [exprA] they return
    the expression they compute. *)

Inductive expr : Type :=
| EVar (n : nat) | ELit (m e : Z) | EInt (z : Z) | EPi | ETwoPi | EAs2r
| EAdd (a b : expr) | ESub (a b : expr) | EMul (a b : expr) | EDiv (a b : expr)
| ENeg (a : expr) | EAbs (a : expr) | ESqrt (a : expr) | ESin (a : expr) | ECos (a : expr) | EBad.

Definition exprA : arith := {|
  num := expr; lit := ELit; of_int := EInt; add := EAdd; sub := ESub; mul := EMul; div := EDiv;
  rem := fun _ _ => EBad; neg := ENeg; nabs := EAbs; nsqrt := ESqrt; nround := fun _ => EBad; ntrunc := fun _ => EBad;
  ltb := fun _ _ => false; leb := fun _ _ => false; to_i32 := fun _ => 0%Z; to_u32 := fun _ => 0%Z;
  nsin := ESin; ncos := ECos; nacos := fun _ => EBad; natan := fun _ => EBad; natan2 := fun _ _ => EBad;
  c_pi := EPi; c_two_pi := ETwoPi; c_as2r := EAs2r |}.

Fixpoint eval (A : arith) (env : list (num A)) (e : expr) : num A :=
  match e with
  | EVar n => nth n env (lit A 0 0)
  | ELit m x => lit A m x
  | EInt z => of_int A z
  | EPi => c_pi A | ETwoPi => c_two_pi A | EAs2r => c_as2r A
  | EAdd a b => add A (eval A env a) (eval A env b)
  | ESub a b => sub A (eval A env a) (eval A env b)
  | EMul a b => mul A (eval A env a) (eval A env b)
  | EDiv a b => div A (eval A env a) (eval A env b)
  | ENeg a => neg A (eval A env a)
  | EAbs a => nabs A (eval A env a)
  | ESqrt a => nsqrt A (eval A env a)
  | ESin a => nsin A (eval A env a)
  | ECos a => ncos A (eval A env a)
  | EBad => lit A 0 0
  end.

Definition obind {S T : Type} (o : option S) (f : S -> option T) : option T := match o with Some x => f x | None => None end.

Fixpoint bound (env : list bnd) (e : expr) : option bnd :=
  match e with
  | EVar n => Some (nth n env (B 0 0 0))
  | ELit m x => b_lit m x
  | EInt z => b_int z
  | EPi => Some b_pi | ETwoPi => Some b_two_pi | EAs2r => Some b_as2r
  | EAdd a b => obind (bound env a) (fun p => obind (bound env b) (fun q => b_add p q))
  | ESub a b => obind (bound env a) (fun p => obind (bound env b) (fun q => b_sub p q))
  | EMul a b => obind (bound env a) (fun p => obind (bound env b) (fun q => b_mul p q))
  | EDiv a b => obind (bound env a) (fun p => obind (bound env b) (fun q => b_div p q))
  | ENeg a => obind (bound env a) (fun p => Some (b_neg p))
  | EAbs a => obind (bound env a) (fun p => Some (b_abs p))
  | ESqrt a => obind (bound env a) b_sqrt
  | ESin a => obind (bound env a) (fun p => Some (b_trig p))
  | ECos a => obind (bound env a) (fun p => Some (b_trig p))
  | EBad => None
  end.

Inductive apxl : list b64 -> list R -> list bnd -> Prop :=
| apxl_nil : apxl [] [] []
| apxl_cons : forall x r b xs rs bs, apx x r b -> apxl xs rs bs -> apxl (x :: xs) (r :: rs) (b :: bs).

Arguments apxl_cons {x r b xs rs bs}.

Lemma apx_zero : apx (Flit 0 0) (Rlit 0 0) (B 0 0 0).
Proof. apply apx_lit. reflexivity. Qed.

Lemma apxl_nth : forall xs rs bs, apxl xs rs bs -> forall n, apx (nth n xs (Flit 0 0)) (nth n rs (Rlit 0 0)) (nth n bs (B 0 0 0)).
Proof.
  intros xs rs bs H. induction H as [|x r b xs rs bs H1 H2 IH]; intros n.
  - destruct n; apply apx_zero.
  - destruct n; [exact H1|apply IH].
Qed.

Lemma bound_ok : forall lm, good_libm lm -> forall xs rs bs, apxl xs rs bs ->
  forall e b, bound bs e = Some b -> apx (eval (b64A lm) xs e) (eval realA rs e) b.
Proof.
  intros lm G xs rs bs H e. induction e; intros b' E; cbn [bound] in E; cbn [eval];
    unfold obind in E;
    repeat match type of E with context [match bound bs ?a with _ => _ end] => destruct (bound bs a); [|discriminate E] end.
  - assert (nth n bs (B 0 0 0) = b') as <- by congruence. apply (apxl_nth _ _ _ H).
  - apply (apx_lit m e b' E).
  - apply (apx_int z b' E).
  - assert (b_pi = b') as <- by congruence. apply apx_pi.
  - assert (b_two_pi = b') as <- by congruence. apply apx_two_pi.
  - assert (b_as2r = b') as <- by congruence. apply apx_as2r.
  - apply (apx_add _ _ _ _ _ _ _ (IHe1 _ eq_refl) (IHe2 _ eq_refl) E).
  - apply (apx_sub _ _ _ _ _ _ _ (IHe1 _ eq_refl) (IHe2 _ eq_refl) E).
  - apply (apx_mul _ _ _ _ _ _ _ (IHe1 _ eq_refl) (IHe2 _ eq_refl) E).
  - apply (apx_div _ _ _ _ _ _ _ (IHe1 _ eq_refl) (IHe2 _ eq_refl) E).
  - assert (b_neg b = b') as <- by congruence. apply (apx_neg _ _ _ (IHe _ eq_refl)).
  - assert (b_abs b = b') as <- by congruence. apply (apx_abs _ _ _ (IHe _ eq_refl)).
  - apply (apx_sqrt _ _ _ _ (IHe _ eq_refl) E).
  - assert (b_trig b = b') as <- by congruence. apply (apx_sin lm G _ _ _ (IHe _ eq_refl)).
  - assert (b_trig b = b') as <- by congruence. apply (apx_cos lm G _ _ _ (IHe _ eq_refl)).
  - discriminate E.
Qed.

(** The bound with a check against a target, in one boolean. *)
Definition checkb (env : list bnd) (e : expr) (t : bnd) : bool :=
  match bound env e with Some b => bleb b t | None => false end.
Lemma checkb_ok : forall lm, good_libm lm -> forall xs rs bs e t, apxl xs rs bs -> checkb bs e t = true ->
  apx (eval (b64A lm) xs e) (eval realA rs e) t.
Proof.
  intros lm G xs rs bs e t H C. unfold checkb in C. destruct (bound bs e) as [b|] eqn:E; [|discriminate C].
  eapply apx_weaken; [|exact C]. apply (bound_ok lm G _ _ _ H _ _ E).
Qed.
