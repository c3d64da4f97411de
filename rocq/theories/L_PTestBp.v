(** * Proofs of C110, bias and precession *)

From Coq Require Import ZArith Reals Lra Lia Bool List.
From Flocq Require Import Core BinarySingleNaN.
From Verif Require Import Outcome Arith ArithR ArithF Spec_Float Spec_Accuracy Spec_Sharp Spec_TowardZero M_Common M_Time M_Locator M_Frames M_Tests M_TestTables T_TestsBp M_TestBp.
From Verif Require Import L_ArithF.
From Verif Require L_CalcLibm L_PTestRot.
Import ListNotations.
Open Scope R_scope.

(** ** Rounding toward zero of small numbers, computed

    From a fixed-point number with 200 binary digits and an error of at most [er] units. *)
Definition tzs (v : Z) : b64 := Fof (Z.sgn v * L_PTestRot.man v) (L_PTestRot.exp2 v - 200).
Definition tzs_ok (v er : Z) : bool :=
  ((0 <? L_PTestRot.exp2 v) && (L_PTestRot.exp2 v <=? 200) && (0 <=? er) && (2 ^ 52 <=? L_PTestRot.man v) && (L_PTestRot.man v <? 2 ^ 53) &&
   (L_PTestRot.man v * 2 ^ L_PTestRot.exp2 v + er <=? Z.abs v) && (Z.abs v + er <? (L_PTestRot.man v + 1) * 2 ^ L_PTestRot.exp2 v))%Z.

Lemma tzs_value : forall v er r, tzs_ok v er = true -> Rabs (IZR v * / IZR (2 ^ 200) - r) <= IZR er * / IZR (2 ^ 200) ->
  fin (tzs v) = true /\ B2R (tzs v) = round radix2 fx Ztrunc r /\ B2R (tzs v) <> 0.
Proof.
  intros v er r H Hr. unfold tzs_ok in H. do 6 (apply andb_prop in H; destruct H as [H ?]).
  repeat match goal with X : (_ <=? _)%Z = true |- _ => apply Z.leb_le in X | X : (_ <? _)%Z = true |- _ => apply Z.ltb_lt in X end.
  unfold tzs. set (m := L_PTestRot.man v) in *. set (k := L_PTestRot.exp2 v) in *. clearbody m k.
  assert (VN : v <> 0%Z) by (intros ->; cbn [Z.abs] in *; assert (0 < 2 ^ k)%Z by (apply Z.pow_pos_nonneg; lia); nia).
  set (s := Z.sgn v). assert (HS : s = 1%Z \/ s = (-1)%Z) by (unfold s; destruct v; cbn; lia). assert (AV : Z.abs v = (s * v)%Z) by (unfold s; lia).
  assert (RV : round radix2 fx Ztrunc r = IZR (s * m) * bpow radix2 (k - 200)).
  { assert (PP : 0 < / IZR (2 ^ 200)) by (apply Rinv_0_lt_compat, IZR_lt; reflexivity).
    assert (BK : bpow radix2 (k - 200) = IZR (2 ^ k) * / IZR (2 ^ 200)).
    { unfold Z.sub. rewrite bpow_plus. f_equal; [change (2 ^ k)%Z with (Zpower radix2 k); rewrite IZR_Zpower by lia; reflexivity]. }
    assert (B1 : IZR m * IZR (2 ^ k) + IZR er <= IZR s * IZR v) by (rewrite <- !mult_IZR, <- plus_IZR; apply IZR_le; lia).
    assert (B2 : IZR s * IZR v + IZR er < IZR (m + 1) * IZR (2 ^ k)) by (rewrite <- !mult_IZR, <- plus_IZR; apply IZR_lt; lia).
    set (u := / IZR (2 ^ 200)) in *. clearbody u.
    assert (SR : Rabs (IZR s * IZR v * u - IZR s * r) <= IZR er * u).
    { replace (IZR s * IZR v * u - IZR s * r) with (IZR s * (IZR v * u - r)) by ring. rewrite Rabs_mult. replace (Rabs (IZR s)) with 1; [lra|]. destruct HS as [-> | ->]; rewrite <- abs_IZR; reflexivity. }
    apply Rabs_le_inv in SR.
    assert (C1 : IZR m * bpow radix2 (k - 200) <= IZR s * r < IZR (m + 1) * bpow radix2 (k - 200)).
    { rewrite BK, <- !Rmult_assoc. set (a := IZR m * IZR (2 ^ k)) in *. set (b := IZR (m + 1) * IZR (2 ^ k)) in *. set (c := IZR s * IZR v) in *. clearbody a b c. clear - B1 B2 SR PP. split; nra. }
    pose proof (L_PTestRot.trunc_value m (k - 200) (IZR s * r) ltac:(lia) ltac:(lia) C1) as T. rewrite mult_IZR.
    destruct HS as [E|E]; rewrite E in *.
    - rewrite Rmult_1_l in T. rewrite T. ring.
    - replace (-1 * r) with (- r) in T by ring. rewrite round_ZR_opp in T. lra. }
  assert (FM : format (IZR (s * m) * bpow radix2 (k - 200))) by (apply format_dyadic; lia).
  pose proof (binary_normalize_correct 53 1024 _ _ mode_NE (s * m) (k - 200) false) as C.
  change (round_mode mode_NE) with ZnearestE in C. change (SpecFloat.fexp 53 1024) with fx in C. unfold F2R in C. cbn [Fnum Fexp] in C. rewrite (rnd_id _ FM) in C.
  rewrite Rlt_bool_true in C.
  - destruct C as (C1 & C2 & _). unfold Fof. rewrite C1. split; [exact C2|]. split; [symmetry; exact RV|].
    apply Rmult_integral_contrapositive_currified; [apply IZR_neq; nia|apply Rgt_not_eq, bpow_gt_0].
  - rewrite Rabs_mult, (Rabs_pos_eq (bpow radix2 _)) by apply bpow_ge_0. rewrite <- abs_IZR.
    apply Rle_lt_trans with (bpow radix2 53 * bpow radix2 (k - 200)).
    + apply Rmult_le_compat_r; [apply bpow_ge_0|]. change (bpow radix2 53) with (IZR (2 ^ 53)). apply IZR_le. lia.
    + rewrite <- bpow_plus. apply bpow_lt. lia.
Qed.

(** Cosine and sine by the first terms of their series, and the errors. *)
Definition cn (n d : Z) : Z * Z := (2 ^ 200 - n * n * 2 ^ 200 / (2 * (d * d)), n * n * (n * n) * 2 ^ 200 / (24 * (d * d * (d * d))) + 2)%Z.
Definition sn (n d : Z) : Z * Z :=
  (n * 2 ^ 200 / d - n * n * n * 2 ^ 200 / (6 * (d * d * d)), n * n * (n * n) * n * 2 ^ 200 / (120 * (d * d * (d * d) * d)) + 3)%Z.

Lemma zdiv_R : forall a b, (0 < b)%Z -> IZR (a / b) <= IZR a / IZR b < IZR (a / b) + 1.
Proof.
  intros a b H. assert (B : 0 < IZR b) by (apply IZR_lt; exact H). pose proof (Z.mul_div_le a b H). pose proof (Z.mul_succ_div_gt a b H).
  split; [apply Rmult_le_reg_r with (IZR b)|apply Rmult_lt_reg_r with (IZR b)]; try exact B; unfold Rdiv; rewrite ?Rmult_assoc, Rinv_l, Rmult_1_r by lra.
  - rewrite <- mult_IZR. apply IZR_le. lia.
  - rewrite <- plus_IZR, <- mult_IZR. apply IZR_lt. lia.
Qed.

Lemma small_bounds : forall a, 0 <= a <= 1 -> (1 - a * a / 2 <= cos a <= 1 - a * a / 2 + a * a * (a * a) / 24) /\
  (a - a * a * a / 6 <= sin a <= a - a * a * a / 6 + a * a * (a * a) * a / 120).
Proof.
  intros a H. pose proof PI_RGT_0. pose proof PI2_3_2. split.
  - pose proof (cos_bound a 0 ltac:(lra) ltac:(lra)) as [C1 C2]. unfold cos_approx, cos_term in C1, C2. cbn in C1, C2. lra.
  - pose proof (sin_bound a 0 ltac:(lra) ltac:(lra)) as [C1 C2]. unfold sin_approx, sin_term in C1, C2. cbn in C1, C2. lra.
Qed.

Lemma cn_sn_ok : forall n d, (0 < d)%Z -> (0 <= n <= d)%Z ->
  Rabs (IZR (fst (cn n d)) * / IZR (2 ^ 200) - cos (IZR n / IZR d)) <= IZR (snd (cn n d)) * / IZR (2 ^ 200) /\
  Rabs (IZR (fst (sn n d)) * / IZR (2 ^ 200) - sin (IZR n / IZR d)) <= IZR (snd (sn n d)) * / IZR (2 ^ 200).
Proof.
  intros n d Hd Hn. assert (D : 0 < IZR d) by (apply IZR_lt; exact Hd). assert (N0 : 0 <= IZR n) by (apply IZR_le; lia). assert (N1 : IZR n <= IZR d) by (apply IZR_le; lia).
  set (a := IZR n / IZR d). assert (HA : 0 <= a <= 1).
  { unfold a, Rdiv. split; [apply Rmult_le_pos; [exact N0|left; apply Rinv_0_lt_compat, D]|]. apply Rmult_le_reg_r with (IZR d); [exact D|]. rewrite Rmult_assoc, Rinv_l by lra. lra. }
  destruct (small_bounds a HA) as [C S]. unfold cn, sn. cbn [fst snd].
  assert (PD2 : (0 < d * d)%Z) by nia. assert (PD3 : (0 < d * d * d)%Z) by nia. assert (PD4 : (0 < d * d * (d * d))%Z) by nia. assert (PD5 : (0 < d * d * (d * d) * d)%Z) by nia.
  assert (W0 : 0 < IZR (2 ^ 200)) by (apply IZR_lt; reflexivity).
  pose proof (zdiv_R (n * n * 2 ^ 200) (2 * (d * d)) ltac:(apply Z.mul_pos_pos; [reflexivity|exact PD2])) as E2. pose proof (zdiv_R (n * n * (n * n) * 2 ^ 200) (24 * (d * d * (d * d))) ltac:(apply Z.mul_pos_pos; [reflexivity|exact PD4])) as E4.
  pose proof (zdiv_R (n * 2 ^ 200) d Hd) as E1. pose proof (zdiv_R (n * n * n * 2 ^ 200) (6 * (d * d * d)) ltac:(apply Z.mul_pos_pos; [reflexivity|exact PD3])) as E3.
  pose proof (zdiv_R (n * n * (n * n) * n * 2 ^ 200) (120 * (d * d * (d * d) * d)) ltac:(apply Z.mul_pos_pos; [reflexivity|exact PD5])) as E5.
  set (q1 := (n * 2 ^ 200 / d)%Z) in *. set (q2 := (n * n * 2 ^ 200 / (2 * (d * d)))%Z) in *. set (q3 := (n * n * n * 2 ^ 200 / (6 * (d * d * d)))%Z) in *.
  set (q4 := (n * n * (n * n) * 2 ^ 200 / (24 * (d * d * (d * d))))%Z) in *. set (q5 := (n * n * (n * n) * n * 2 ^ 200 / (120 * (d * d * (d * d) * d)))%Z) in *.
  set (w := (2 ^ 200)%Z) in *. repeat rewrite mult_IZR in E1. repeat rewrite mult_IZR in E2. repeat rewrite mult_IZR in E3. repeat rewrite mult_IZR in E4. repeat rewrite mult_IZR in E5. rewrite !plus_IZR, !minus_IZR. set (W := IZR w) in *.
  clearbody q1 q2 q3 q4 q5. clearbody W. clear PD2 PD3 PD4 PD5 w.
  replace (IZR n * W / IZR d) with (a * W) in E1 by (unfold a; field; lra).
  replace (IZR n * IZR n * W / (2 * (IZR d * IZR d))) with (a * a / 2 * W) in E2 by (unfold a; field; lra).
  replace (IZR n * IZR n * IZR n * W / (6 * (IZR d * IZR d * IZR d))) with (a * a * a / 6 * W) in E3 by (unfold a; field; lra).
  replace (IZR n * IZR n * (IZR n * IZR n) * W / (24 * (IZR d * IZR d * (IZR d * IZR d)))) with (a * a * (a * a) / 24 * W) in E4 by (unfold a; field; lra).
  replace (IZR n * IZR n * (IZR n * IZR n) * IZR n * W / (120 * (IZR d * IZR d * (IZR d * IZR d) * IZR d))) with (a * a * (a * a) * a / 120 * W) in E5 by (unfold a; field; lra).
  set (x2 := a * a / 2) in *. set (x3 := a * a * a / 6) in *. set (x4 := a * a * (a * a) / 24) in *. set (x5 := a * a * (a * a) * a / 120) in *. clearbody a x2 x3 x4 x5.
  assert (K : forall u v t, Rabs (u - v * W) <= t -> Rabs (u * / W - v) <= t * / W).
  { intros u v t K. replace (u * / W - v) with ((u - v * W) * / W) by (field; lra). rewrite Rabs_mult, (Rabs_pos_eq (/ W)) by (left; apply Rinv_0_lt_compat, W0). apply Rmult_le_compat_r; [left; apply Rinv_0_lt_compat, W0|exact K]. }
  split; apply K; apply Rabs_le.
  - assert (L : (1 - x2) * W <= cos a * W <= (1 - x2 + x4) * W) by (split; apply Rmult_le_compat_r; lra). lra.
  - assert (L : (a - x3) * W <= sin a * W <= (a - x3 + x5) * W) by (split; apply Rmult_le_compat_r; lra). lra.
Qed.

(** Cosine and sine of a small number. *)
Definition czs (x : b64) : b64 * b64 :=
  match x with
  | B754_finite s m e _ => let '(n, d) := L_CalcLibm.nd m e in (tzs (fst (cn n d)), tzs (L_CalcLibm.sg s (fst (sn n d))))
  | _ => (x, x)
  end.
Definition chks (x : b64) : bool :=
  match x with
  | B754_finite s m e _ => let '(n, d) := L_CalcLibm.nd m e in (n <=? d)%Z && tzs_ok (fst (cn n d)) (snd (cn n d)) && tzs_ok (L_CalcLibm.sg s (fst (sn n d))) (snd (sn n d))
  | _ => false
  end.

Definition pair {A : arith} (x : num A) : num A * num A := (ncos A x, nsin A x).

Lemma small_pair : forall lm x, toward_zero lm -> chks x = true -> pair (A := b64A lm) x = czs x.
Proof.
  intros lm x T H. unfold pair. change (ncos (b64A lm) x) with (lm_cos lm x). change (nsin (b64A lm) x) with (lm_sin lm x).
  destruct x as [| | |s m e Hb]; try discriminate H. destruct (T (B754_finite s m e Hb) eq_refl) as [[F1 E1] [F2 E2]]. rewrite L_CalcLibm.B2R_nd in E1, E2.
  unfold chks, czs in *. pose proof (L_CalcLibm.nd_ok m e) as K. destruct (L_CalcLibm.nd m e) as [n d]. destruct K as (Kn & Kd & _). cbn [fst snd] in *.
  apply andb_prop in H. destruct H as [H H2]. apply andb_prop in H. destruct H as [H0 H1]. apply Z.leb_le in H0.
  destruct (cn_sn_ok n d Kd ltac:(lia)) as [C S]. destruct (cn n d) as [c ec]. destruct (sn n d) as [t et]. cbn [fst snd] in *. set (a := IZR n / IZR d) in *. clearbody a.
  assert (C' : cos ((if s then -1 else 1) * a) = cos a) by (destruct s; [replace (-1 * a) with (- a) by ring; apply cos_neg|rewrite Rmult_1_l; reflexivity]).
  assert (S' : Rabs (IZR (L_CalcLibm.sg s t) * / IZR (2 ^ 200) - sin ((if s then -1 else 1) * a)) <= IZR et * / IZR (2 ^ 200)).
  { destruct s; unfold L_CalcLibm.sg; [|rewrite Rmult_1_l; exact S]. replace (-1 * a) with (- a) by ring. rewrite sin_neg, opp_IZR.
    replace (- IZR t * / IZR (2 ^ 200) - - sin a) with (- (IZR t * / IZR (2 ^ 200) - sin a)) by ring. rewrite Rabs_Ropp. exact S. }
  rewrite C' in E2. destruct (tzs_value c ec _ H1 C) as (G1 & V1 & N1). destruct (tzs_value _ et _ H2 S') as (G2 & V2 & N2).
  f_equal; symmetry; apply L_PTestRot.same; congruence.
Qed.
Lemma large_pair : forall lm x, toward_zero lm -> L_PTestRot.chk x = true -> pair (A := b64A lm) x = L_PTestRot.cz x.
Proof. exact L_PTestRot.trunc_pair. Qed.

(** ** A row *)

Section Angles.
Context {A : arith}.
Definition a1 : num A := neg A (snd (fst (frame_bias (A := A)))).
Definition a2 (s : num A) : num A := mul A (fst (fst (frame_bias (A := A)))) s.
Definition a3 : num A := snd (frame_bias (A := A)).
Definition a4 (d : TT A) : num A := chia (tt_centuries d).
Definition a5 (d : TT A) : num A := neg A (add A (oma77 (tt_centuries d)) (snd (precession_rate d))).
Definition a6 (d : TT A) : num A := neg A (add A (psia77 (tt_centuries d)) (fst (precession_rate d))).
Definition rbm (x y z : num A * num A) : mat3 A := L_PTestRot.three I0 I1 I2 x y z.
Definition rpm (x y z w : num A * num A) : mat3 A := mcompose (L_PTestRot.three I2 I0 I2 x y z) (L_PTestRot.rotcs I0 (fst w) (snd w)).
Definition cmp (tol : num A) (row : list (Z * Z)) (rb rp : mat3 A) : outcome unit :=
  bind (compare_matrices (matrix_at row 2) rb tol) (fun _ => bind (compare_matrices (matrix_at row 11) rp tol) (fun _ => compare_matrices (matrix_at row 20) (mcompose rp rb) tol)).
Definition at_row (row : list (Z * Z)) : TT A := MkTT (cell row 0) (cell row 1).
End Angles.

Lemma row_cmp : forall (A : arith) (tol : num A) row, compare_bias_and_precession tol row =
  cmp tol row (rbm (pair a1) (pair (a2 (snd (pair EPS0)))) (pair a3)) (rpm (pair (a4 (at_row row))) (pair (a5 (at_row row))) (pair (a6 (at_row row))) (pair EPS0)).
Proof. reflexivity. Qed.

Lemma row_trunc : forall lm tol row, toward_zero lm ->
  L_PTestRot.chk (EPS0 (A := b64A lm)) = true -> chks (a1 (A := b64A lm)) = true -> chks (a2 (A := b64A lm) (@snd (num (b64A lm)) (num (b64A lm)) (L_PTestRot.cz (EPS0 (A := b64A lm))))) = true -> chks (a3 (A := b64A lm)) = true ->
  chks (a4 (A := b64A lm) (at_row row)) = true -> L_PTestRot.chk (a5 (A := b64A lm) (at_row row)) = true -> chks (a6 (A := b64A lm) (at_row row)) = true ->
  compare_bias_and_precession (A := b64A lm) tol row =
  cmp (A := b64A lm) tol row (rbm (A := b64A lm) (czs (a1 (A := b64A lm))) (czs (a2 (A := b64A lm) (@snd (num (b64A lm)) (num (b64A lm)) (L_PTestRot.cz (EPS0 (A := b64A lm)))))) (czs (a3 (A := b64A lm))))
    (rpm (A := b64A lm) (czs (a4 (A := b64A lm) (at_row row))) (L_PTestRot.cz (a5 (A := b64A lm) (at_row row))) (czs (a6 (A := b64A lm) (at_row row))) (L_PTestRot.cz (EPS0 (A := b64A lm)))).
Proof.
  intros lm tol row T H0 H1 H2 H3 H4 H5 H6. rewrite row_cmp. rewrite (large_pair lm _ T H0), (small_pair lm _ T H1), (small_pair lm _ T H2), (small_pair lm _ T H3), (small_pair lm _ T H4), (large_pair lm _ T H5), (small_pair lm _ T H6). reflexivity.
Qed.

Definition witness : list (Z * Z) := nth 1 BP00_DATA [].
Lemma witness_row : forall lm tol, toward_zero lm -> compare_bias_and_precession (A := b64A lm) tol witness =
  cmp (A := b64A lm) tol witness (rbm (A := b64A lm) (czs (a1 (A := b64A lm))) (czs (a2 (A := b64A lm) (@snd (num (b64A lm)) (num (b64A lm)) (L_PTestRot.cz (EPS0 (A := b64A lm)))))) (czs (a3 (A := b64A lm))))
    (rpm (A := b64A lm) (czs (a4 (A := b64A lm) (at_row witness))) (L_PTestRot.cz (a5 (A := b64A lm) (at_row witness))) (czs (a6 (A := b64A lm) (at_row witness))) (L_PTestRot.cz (EPS0 (A := b64A lm)))).
Proof. intros lm tol T. apply row_trunc; [exact T|..]; vm_compute; reflexivity. Qed.

(** C110.  test_bias_and_precession panics as well with every libm whose sine and cosine
    are rounded toward zero. *)
Lemma C110_bias_and_precession_refuted_pf : forall lm, toward_zero lm -> test_bias_and_precession (A := b64A lm) = Panic.
Proof.
  intros lm T. unfold test_bias_and_precession. apply (L_PTestRot.each_bad _ _ _ 1 witness); [reflexivity|].
  etransitivity; [exact (witness_row lm _ T)|]. vm_compute. reflexivity.
Qed.

(** C110.  Again the cause is rounding: with the double of the tolerance the row passes
    that breaks the test. *)
Lemma C110_bias_within_two_pf : forall lm, toward_zero lm ->
  compare_bias_and_precession (A := b64A lm) EPSILON (nth 1 BP00_DATA []) = Panic /\
  compare_bias_and_precession (A := b64A lm) (add (b64A lm) EPSILON EPSILON) (nth 1 BP00_DATA []) = Val tt.
Proof. intros lm T. split; (etransitivity; [exact (witness_row lm _ T)|]); vm_compute; reflexivity. Qed.
