(** * Proofs of C110 *)

From Coq Require Import ZArith Reals Lra Lia Bool List.
From Flocq Require Import Core BinarySingleNaN.
From Verif Require Import Outcome Arith ArithR ArithF Spec_Float Spec_Accuracy Spec_Sharp Spec_TowardZero M_Common M_Earth M_Frames M_Tests M_TestTables T_TestsRot M_TestRot.
From Verif Require Import L_ArithF.
From Verif Require L_Eval L_CalcLibm L_Libm L_PTestEll.
Import ListNotations.
Open Scope R_scope.

(** ** Rounding toward zero, computed *)

Lemma trunc_value : forall m E v, (2 ^ 52 <= m < 2 ^ 53)%Z -> (-1074 <= E)%Z -> IZR m * bpow radix2 E <= v < IZR (m + 1) * bpow radix2 E ->
  round radix2 fx Ztrunc v = IZR m * bpow radix2 E.
Proof.
  intros m E v Hm HE Hv. pose proof (bpow_gt_0 radix2 E) as P. pose proof (bpow_gt_0 radix2 (- E)) as Q.
  assert (EI : bpow radix2 E * bpow radix2 (- E) = 1) by (rewrite <- bpow_plus, Z.add_opp_diag_r; reflexivity).
  assert (M0 : bpow radix2 52 <= IZR m) by (change (bpow radix2 52) with (IZR (2 ^ 52)); apply IZR_le; lia).
  assert (M1 : IZR (m + 1) <= bpow radix2 53) by (change (bpow radix2 53) with (IZR (2 ^ 53)); apply IZR_le; lia).
  assert (V0 : bpow radix2 (52 + E) <= v) by (rewrite bpow_plus; eapply Rle_trans; [apply Rmult_le_compat_r; [lra|exact M0]|lra]).
  assert (V1 : v < bpow radix2 (53 + E)) by (rewrite bpow_plus; eapply Rlt_le_trans; [exact (proj2 Hv)|apply Rmult_le_compat_r; [lra|exact M1]]).
  assert (VP : 0 < v) by (eapply Rlt_le_trans; [apply (bpow_gt_0 radix2 (52 + E))|exact V0]).
  assert (MG : mag radix2 v = (53 + E)%Z :> Z) by (apply mag_unique_pos; replace (53 + E - 1)%Z with (52 + E)%Z by ring; split; assumption).
  unfold round, F2R, scaled_mantissa, cexp. cbn [Fnum Fexp]. rewrite MG. unfold FLT_exp. replace (Z.max (53 + E - 53) (-1074)) with E by lia.
  assert (S : IZR m <= v * bpow radix2 (- E) < IZR (m + 1)).
  { split; [apply Rmult_le_reg_r with (bpow radix2 E)|apply Rmult_lt_reg_r with (bpow radix2 E)]; try exact P; rewrite Rmult_assoc, (Rmult_comm (bpow radix2 (- E))), EI; lra. }
  rewrite Ztrunc_floor; [|apply Rmult_le_pos; lra]. rewrite (Zfloor_imp m); [reflexivity|]. exact S.
Qed.

(** From a fixed-point number with 90 binary digits and an error of at most 5000000 units. *)
Definition ERR : Z := 5000000.
Definition exp2 (v : Z) : Z := (Z.log2 (Z.abs v) - 52)%Z.
Definition man (v : Z) : Z := (Z.abs v / 2 ^ exp2 v)%Z.
Definition tz (v : Z) : b64 := Fof (Z.sgn v * man v) (exp2 v - 90).
Definition tz_ok (v : Z) : bool :=
  ((0 <? exp2 v) && (2 ^ 52 <=? man v) && (man v <? 2 ^ 53) && (man v * 2 ^ exp2 v + ERR <=? Z.abs v) && (Z.abs v + ERR <? (man v + 1) * 2 ^ exp2 v))%Z.

Lemma tz_value : forall v r, tz_ok v = true -> (exp2 v <= 60)%Z -> Rabs (IZR v * / IZR (2 ^ 90) - r) <= IZR ERR * / IZR (2 ^ 90) ->
  fin (tz v) = true /\ B2R (tz v) = round radix2 fx Ztrunc r /\ B2R (tz v) <> 0.
Proof.
  intros v r H H60 Hr. unfold tz_ok in H. repeat (apply andb_prop in H; destruct H as [H ?]).
  repeat match goal with X : (_ <=? _)%Z = true |- _ => apply Z.leb_le in X | X : (_ <? _)%Z = true |- _ => apply Z.ltb_lt in X end.
  unfold tz. set (m := man v) in *. set (k := exp2 v) in *. clearbody m k.
  assert (VN : v <> 0%Z) by (intros ->; cbn [Z.abs] in *; unfold ERR in *; assert (0 < 2 ^ k)%Z by (apply Z.pow_pos_nonneg; lia); nia).
  set (s := Z.sgn v). assert (HS : s = 1%Z \/ s = (-1)%Z) by (unfold s; destruct v; cbn; lia). assert (AV : Z.abs v = (s * v)%Z) by (unfold s; lia).
  assert (RV : round radix2 fx Ztrunc r = IZR (s * m) * bpow radix2 (k - 90)).
  { assert (P90 : 0 < / IZR (2 ^ 90)) by (apply Rinv_0_lt_compat, IZR_lt; reflexivity).
    assert (BK : bpow radix2 (k - 90) = IZR (2 ^ k) * / IZR (2 ^ 90)).
    { unfold Z.sub. rewrite bpow_plus. f_equal; [change (2 ^ k)%Z with (Zpower radix2 k); rewrite IZR_Zpower by lia; reflexivity]. }
    assert (B1 : IZR m * IZR (2 ^ k) + IZR ERR <= IZR s * IZR v) by (rewrite <- !mult_IZR, <- plus_IZR; apply IZR_le; lia).
    assert (B2 : IZR s * IZR v + IZR ERR < IZR (m + 1) * IZR (2 ^ k)) by (rewrite <- !mult_IZR, <- plus_IZR; apply IZR_lt; lia).
    assert (SR : Rabs (IZR s * IZR v * / IZR (2 ^ 90) - IZR s * r) <= IZR ERR * / IZR (2 ^ 90)).
    { replace (IZR s * IZR v * / IZR (2 ^ 90) - IZR s * r) with (IZR s * (IZR v * / IZR (2 ^ 90) - r)) by ring. rewrite Rabs_mult. replace (Rabs (IZR s)) with 1; [lra|]. destruct HS as [-> | ->]; rewrite <- abs_IZR; reflexivity. }
    apply Rabs_le_inv in SR. set (u := / IZR (2 ^ 90)) in *. clearbody u.
    assert (C1 : IZR m * bpow radix2 (k - 90) <= IZR s * r < IZR (m + 1) * bpow radix2 (k - 90)).
    { rewrite BK, <- !Rmult_assoc. set (a := IZR m * IZR (2 ^ k)) in *. set (b := IZR (m + 1) * IZR (2 ^ k)) in *. set (c := IZR s * IZR v) in *. clearbody a b c. clear - B1 B2 SR P90. split; nra. }
    pose proof (trunc_value m (k - 90) (IZR s * r) ltac:(lia) ltac:(lia) C1) as T. rewrite mult_IZR.
    destruct HS as [E|E]; rewrite E in *.
    - rewrite Rmult_1_l in T. rewrite T. ring.
    - replace (-1 * r) with (- r) in T by ring. rewrite round_ZR_opp in T. lra. }
  assert (FM : format (IZR (s * m) * bpow radix2 (k - 90))) by (apply format_dyadic; lia).
  pose proof (binary_normalize_correct 53 1024 _ _ mode_NE (s * m) (k - 90) false) as C.
  change (round_mode mode_NE) with ZnearestE in C. change (SpecFloat.fexp 53 1024) with fx in C. unfold F2R in C. cbn [Fnum Fexp] in C. rewrite (rnd_id _ FM) in C.
  rewrite Rlt_bool_true in C.
  - destruct C as (C1 & C2 & _). unfold Fof. rewrite C1. split; [exact C2|]. split; [symmetry; exact RV|].
    apply Rmult_integral_contrapositive_currified; [apply IZR_neq; nia|apply Rgt_not_eq, bpow_gt_0].
  - rewrite Rabs_mult, (Rabs_pos_eq (bpow radix2 _)) by apply bpow_ge_0. rewrite <- abs_IZR.
    apply Rle_lt_trans with (bpow radix2 53 * bpow radix2 (k - 90)).
    + apply Rmult_le_compat_r; [apply bpow_ge_0|]. change (bpow radix2 53) with (IZR (2 ^ 53)). apply IZR_le. lia.
    + rewrite <- bpow_plus. apply bpow_lt. lia.
Qed.

Lemma same : forall a b : b64, fin a = true -> fin b = true -> B2R a = B2R b -> B2R a <> 0 -> a = b.
Proof.
  intros a b Fa Fb E N. apply B2R_inj; [| |exact E].
  - destruct a; try discriminate Fa; [exfalso; apply N; reflexivity|reflexivity].
  - rewrite E in N. destruct b; try discriminate Fb; [exfalso; apply N; reflexivity|reflexivity].
Qed.

(** Cosine and sine of a number other than zero, in units of 2^-90. *)
Definition cs (x : b64) : Z * Z :=
  match x with
  | B754_finite s m e _ => let '(n, d) := L_CalcLibm.nd m e in let '(c, t) := L_Eval.cossin 90 n d in (c, L_CalcLibm.sg s t)
  | _ => (0, 0)%Z
  end.
Definition arg_ok (x : b64) : bool :=
  match x with B754_finite s m e _ => let '(n, d) := L_CalcLibm.nd m e in (n <=? 2184 * d)%Z | _ => false end.
Definition small (v : Z) : bool := (exp2 v <=? 60)%Z.

Lemma cs_ok : forall x, arg_ok x = true -> fin x = true /\
  Rabs (IZR (fst (cs x)) * / IZR (2 ^ 90) - cos (B2R x)) <= IZR ERR * / IZR (2 ^ 90) /\ Rabs (IZR (snd (cs x)) * / IZR (2 ^ 90) - sin (B2R x)) <= IZR ERR * / IZR (2 ^ 90).
Proof.
  intros x H. destruct x as [| | |s m e Hb]; try discriminate H. split; [reflexivity|]. rewrite L_CalcLibm.B2R_nd. unfold cs, arg_ok in *.
  pose proof (L_CalcLibm.nd_ok m e) as K. destruct (L_CalcLibm.nd m e) as [n d]. destruct K as (Kn & Kd & _). cbn [fst snd].
  apply Z.leb_le in H. destruct (L_Eval.cossin_ok 90 ltac:(lia) n d Kd ltac:(lia)) as [C S]. destruct (L_Eval.cossin 90 n d) as [c t]. cbn [fst snd] in *.
  assert (EE : L_Eval.eval_err 90 <= IZR ERR * / IZR (2 ^ 90)).
  { unfold L_Eval.eval_err, L_Eval.ep, L_Eval.SC, ERR. change (2 ^ 90)%Z with 1237940039285380274899124224%Z. lra. }
  unfold L_Eval.fx, L_Eval.ep, L_Eval.SC in C, S. set (a := IZR n / IZR d) in *. clearbody a. destruct s.
  - replace (-1 * a) with (- a) by ring. rewrite cos_neg, sin_neg. split; [lra|]. unfold L_CalcLibm.sg. rewrite opp_IZR.
    replace (- IZR t * / IZR (2 ^ 90) - - sin a) with (- (IZR t * / IZR (2 ^ 90) - sin a)) by ring. rewrite Rabs_Ropp. lra.
  - rewrite !Rmult_1_l. split; [lra|]. unfold L_CalcLibm.sg. lra.
Qed.

Definition chk (x : b64) : bool := arg_ok x && (let '(c, t) := cs x in tz_ok c && small c && tz_ok t && small t).
Lemma trunc_cs : forall lm x, toward_zero lm -> chk x = true -> lm_cos lm x = tz (fst (cs x)) /\ lm_sin lm x = tz (snd (cs x)).
Proof.
  intros lm x T H. unfold chk in H. apply andb_prop in H. destruct H as [H0 H]. destruct (cs_ok x H0) as (F & C & S). destruct (cs x) as [c t]. cbn [fst snd] in *.
  destruct (andb_prop _ _ H) as [H' S2]. destruct (andb_prop _ _ H') as [H'' O2]. destruct (andb_prop _ _ H'') as [O1 S1]. unfold small in S1, S2. apply Z.leb_le in S1. apply Z.leb_le in S2.
  destruct (T x F) as [[F1 E1] [F2 E2]].
  destruct (tz_value c (cos (B2R x))) as (G1 & V1 & N1); [assumption|assumption|exact C|]. destruct (tz_value t (sin (B2R x))) as (G2 & V2 & N2); [assumption|assumption|exact S|].
  split; symmetry; apply same; congruence.
Qed.

(** ** A row of the tables *)

(** The matrix of [rotation] from the cosine and the sine. *)
Definition rotcs {A : arith} (ax : idx) (c s : num A) : mat3 A :=
  match ax with
  | I0 => M3 (V3 (lit A 1 0) (lit A 0 0) (lit A 0 0)) (V3 (lit A 0 0) c s) (V3 (lit A 0 0) (neg A s) c)
  | I1 => M3 (V3 c (lit A 0 0) (neg A s)) (V3 (lit A 0 0) (lit A 1 0) (lit A 0 0)) (V3 s (lit A 0 0) c)
  | I2 => M3 (V3 c s (lit A 0 0)) (V3 (neg A s) c (lit A 0 0)) (V3 (lit A 0 0) (lit A 0 0) (lit A 1 0))
  end.
Definition three {A : arith} (a b c : idx) (x y z : num A * num A) : mat3 A :=
  mcompose (mcompose (mcompose midentity (rotcs a (fst x) (snd x))) (rotcs b (fst y) (snd y))) (rotcs c (fst z) (snd z)).
Lemma polar_three : forall (A : arith) (x y z : num A),
  polar_motion_matrix x y z = Val (three I0 I1 I2 (ncos A (neg A y), nsin A (neg A y)) (ncos A (neg A x), nsin A (neg A x)) (ncos A z, nsin A z)).
Proof. reflexivity. Qed.
Lemma nutation_three : forall (A : arith) (x y z : num A),
  nutation_matrix x y z = Val (three I0 I2 I0 (ncos A (neg A (add A x z)), nsin A (neg A (add A x z))) (ncos A (neg A y), nsin A (neg A y)) (ncos A x, nsin A x)).
Proof. reflexivity. Qed.

Lemma each_bad : forall X (f : X -> outcome unit) l n x, nth_error l n = Some x -> f x = Panic -> each f l = Panic.
Proof.
  intros X f l. induction l as [|y l IH]; intros [|n] x E P; cbn [nth_error] in E; try discriminate E.
  - assert (y = x) by congruence. subst y. cbn [each]. rewrite P. reflexivity.
  - cbn [each]. destruct (f y) as [u|]; [|reflexivity]. cbn [bind]. exact (IH n x E P).
Qed.

Definition look (row : list (Z * Z)) (k : nat) : b64 := let '(m, e) := nth k row (0, 0)%Z in Flit m e.
Definition cz (x : b64) : b64 * b64 := let '(c, s) := cs x in (tz c, tz s).

Lemma trunc_pair : forall lm x, toward_zero lm -> chk x = true -> (ncos (b64A lm) x, nsin (b64A lm) x) = cz x.
Proof.
  intros lm x T H. destruct (trunc_cs lm x T H) as [C S]. change (ncos (b64A lm) x) with (lm_cos lm x). change (nsin (b64A lm) x) with (lm_sin lm x). rewrite C, S.
  unfold cz. destruct (cs x). reflexivity.
Qed.

Lemma polar_row : forall lm row tol, toward_zero lm -> chk (Bopp (look row 1)) = true -> chk (Bopp (look row 0)) = true -> chk (look row 2) = true ->
  bind (polar_motion_matrix (A := b64A lm) (cell row 0) (cell row 1) (cell row 2)) (fun m => compare_matrices (A := b64A lm) (row_matrix row) m tol) =
  compare_matrices (A := b64A lm) (row_matrix row) (three (A := b64A lm) I0 I1 I2 (cz (Bopp (look row 1))) (cz (Bopp (look row 0))) (cz (look row 2))) tol.
Proof.
  intros lm row tol T H0 H1 H2. rewrite polar_three. cbn [bind].
  change (cell (A := b64A lm) row 0) with (look row 0). change (cell (A := b64A lm) row 1) with (look row 1). change (cell (A := b64A lm) row 2) with (look row 2).
  change (neg (b64A lm) (look row 0)) with (Bopp (look row 0)). change (neg (b64A lm) (look row 1)) with (Bopp (look row 1)).
  rewrite (trunc_pair lm _ T H0), (trunc_pair lm _ T H1), (trunc_pair lm _ T H2). reflexivity.
Qed.
Lemma nutation_row : forall lm row tol, toward_zero lm -> chk (Bopp (Fadd (look row 0) (look row 2))) = true -> chk (Bopp (look row 1)) = true -> chk (look row 0) = true ->
  bind (nutation_matrix (A := b64A lm) (cell row 0) (cell row 1) (cell row 2)) (fun m => compare_matrices (A := b64A lm) (row_matrix row) m tol) =
  compare_matrices (A := b64A lm) (row_matrix row) (three (A := b64A lm) I0 I2 I0 (cz (Bopp (Fadd (look row 0) (look row 2)))) (cz (Bopp (look row 1))) (cz (look row 0))) tol.
Proof.
  intros lm row tol T H0 H1 H2. rewrite nutation_three. cbn [bind].
  change (cell (A := b64A lm) row 0) with (look row 0). change (cell (A := b64A lm) row 1) with (look row 1). change (cell (A := b64A lm) row 2) with (look row 2).
  change (neg (b64A lm) (add (b64A lm) (look row 0) (look row 2))) with (Bopp (Fadd (look row 0) (look row 2))). change (neg (b64A lm) (look row 1)) with (Bopp (look row 1)).
  rewrite (trunc_pair lm _ T H0), (trunc_pair lm _ T H1), (trunc_pair lm _ T H2). reflexivity.
Qed.

(** C110.  test_polar_motion_matrix panics with every libm whose sine and cosine are
    rounded toward zero. *)
Lemma C110_polar_motion_refuted_pf : forall lm, toward_zero lm -> test_polar_motion_matrix (A := b64A lm) = Panic.
Proof.
  intros lm T. unfold test_polar_motion_matrix. set (row := nth 44 POM00_DATA []). apply (each_bad _ _ _ 44 row); [reflexivity|].
  rewrite polar_row; [| exact T | vm_compute; reflexivity | vm_compute; reflexivity | vm_compute; reflexivity]. vm_compute. reflexivity.
Qed.

(** C110.  So does test_nutation_matrix. *)
Lemma C110_nutation_matrix_refuted_pf : forall lm, toward_zero lm -> test_nutation_matrix (A := b64A lm) = Panic.
Proof.
  intros lm T. unfold test_nutation_matrix. set (row := nth 19 NUMAT_DATA []). apply (each_bad _ _ _ 19 row); [reflexivity|].
  rewrite nutation_row; [| exact T | vm_compute; reflexivity | vm_compute; reflexivity | vm_compute; reflexivity]. vm_compute. reflexivity.
Qed.

(** C110.  What makes them panic is rounding: at the rows of the witnesses the matrices
    differ from those of the tables by more than one EPSILON and by at most two. *)
Lemma C110_within_two_pf : forall lm, toward_zero lm ->
  let two := add (b64A lm) EPSILON EPSILON in
  let polar := fun tol => bind (polar_motion_matrix (A := b64A lm) (cell (nth 44 POM00_DATA []) 0) (cell (nth 44 POM00_DATA []) 1) (cell (nth 44 POM00_DATA []) 2))
    (fun m => compare_matrices (A := b64A lm) (row_matrix (nth 44 POM00_DATA [])) m tol) in
  let nutation := fun tol => bind (nutation_matrix (A := b64A lm) (cell (nth 19 NUMAT_DATA []) 0) (cell (nth 19 NUMAT_DATA []) 1) (cell (nth 19 NUMAT_DATA []) 2))
    (fun m => compare_matrices (A := b64A lm) (row_matrix (nth 19 NUMAT_DATA [])) m tol) in
  polar EPSILON = Panic /\ polar two = Val tt /\ nutation EPSILON = Panic /\ nutation two = Val tt.
Proof.
  intros lm T two polar nutation. unfold polar, nutation. set (r1 := nth 44 POM00_DATA []). set (r2 := nth 19 NUMAT_DATA []).
  assert (K0 : chk (Bopp (look r1 1)) = true) by (vm_compute; reflexivity). assert (K1 : chk (Bopp (look r1 0)) = true) by (vm_compute; reflexivity). assert (K2 : chk (look r1 2) = true) by (vm_compute; reflexivity).
  assert (N0 : chk (Bopp (Fadd (look r2 0) (look r2 2))) = true) by (vm_compute; reflexivity). assert (N1 : chk (Bopp (look r2 1)) = true) by (vm_compute; reflexivity). assert (N2 : chk (look r2 0) = true) by (vm_compute; reflexivity).
  pose proof (fun tol => polar_row lm r1 tol T K0 K1 K2) as P. pose proof (fun tol => nutation_row lm r2 tol T N0 N1 N2) as N. clear K0 K1 K2 N0 N1 N2.
  split; [etransitivity; [exact (P _)|]|split; [etransitivity; [exact (P _)|]|split; [etransitivity; [exact (N _)|]|etransitivity; [exact (N _)|]]]]; vm_compute; reflexivity.
Qed.

(** ** A libm that is rounded toward zero *)

Definition zt (t : R) : b64 := Fof (Ztrunc (scaled_mantissa radix2 fx t)) (cexp radix2 fx t).

Lemma zt_ok : forall t, Rabs t <= 1 -> fin (zt t) = true /\ B2R (zt t) = round radix2 fx Ztrunc t.
Proof.
  intros t H. pose proof (binary_normalize_correct 53 1024 _ _ mode_NE (Ztrunc (scaled_mantissa radix2 fx t)) (cexp radix2 fx t) false) as C.
  change (round_mode mode_NE) with ZnearestE in C. change (SpecFloat.fexp 53 1024) with fx in C.
  assert (EQ : F2R (Float radix2 (Ztrunc (scaled_mantissa radix2 fx t)) (cexp radix2 fx t)) = round radix2 fx Ztrunc t) by reflexivity. rewrite EQ in C. cbv zeta in C.
  assert (FR : format (round radix2 fx Ztrunc t)) by (apply generic_format_round; [apply fx_valid|apply valid_rnd_ZR]).
  pose proof (rnd_id _ FR) as RR. rewrite RR in C. rewrite Rlt_bool_true in C.
  - destruct C as (C1 & C2 & _). split; [exact C2|exact C1].
  - apply Rle_lt_trans with (bpow radix2 0); [|apply bpow_lt; lia]. apply abs_round_le_generic; [apply fx_valid|apply valid_rnd_ZR|apply generic_format_bpow; vm_compute; discriminate|exact H].
Qed.

Lemma zt_rel : forall t, Rabs t <= 1 -> Rabs (B2R (zt t) - t) <= bpow radix2 (-52) * Rabs t + bpow radix2 (-1074).
Proof.
  intros t H. destruct (zt_ok t H) as [_ E]. rewrite E. pose proof (error_le_ulp radix2 fx Ztrunc t) as K. eapply Rle_trans; [exact K|]. clear K E.
  pose proof (bpow_gt_0 radix2 (-1074)) as P. assert (0 <= bpow radix2 (-52) * Rabs t) by (apply Rmult_le_pos; [apply bpow_ge_0|apply Rabs_pos]).
  destruct (Rle_lt_dec (bpow radix2 (-1074 + 53 - 1)) (Rabs t)) as [L|L].
  - pose proof (ulp_FLT_le radix2 (-1074) 53 t L) as U. change (bpow radix2 (1 - 53)) with (bpow radix2 (-52)) in U. lra.
  - rewrite ulp_FLT_small; [lra|reflexivity|]. eapply Rlt_le_trans; [exact L|]. apply bpow_le. lia.
Qed.

Definition trunc_libm : libm := {|
  lm_sin := fun x => zt (sin (B2R x)); lm_cos := fun x => zt (cos (B2R x));
  lm_acos := lm_acos L_PTestEll.round_libm; lm_atan := lm_atan L_PTestEll.round_libm; lm_atan2 := lm_atan2 L_PTestEll.round_libm |}.

(** C110.  There is such a libm, of the accuracy assumed of a libm throughout. *)
Lemma C110_libm_exists_pf : exists lm, good_libm lm /\ sharp_libm lm /\ toward_zero lm.
Proof.
  exists trunc_libm.
  assert (S1 : forall x, Rabs (sin x) <= 1) by (intros x; pose proof (SIN_bound x); apply Rabs_le; lra).
  assert (C1 : forall x, Rabs (cos x) <= 1) by (intros x; pose proof (COS_bound x); apply Rabs_le; lra).
  assert (Z : forall t, Rabs t <= 1 -> fin (zt t) = true /\ Rabs (B2R (zt t) - t) <= bpow radix2 (-52)).
  { intros t H. destruct (zt_ok t H) as [F E]. split; [exact F|]. rewrite E. eapply Rle_trans; [apply error_le_ulp; [apply fx_valid|apply valid_rnd_ZR]|].
    apply Rle_trans with (ulp radix2 fx 1).
    - apply ulp_le; [apply fx_valid|apply fx_mono|]. rewrite (Rabs_pos_eq 1) by lra. exact H.
    - right. change 1 with (bpow radix2 0). rewrite ulp_bpow. reflexivity. }
  split; [|split].
  - destruct L_PTestEll.round_good as [_ _ G1 G2 G3]. split; cbn [trunc_libm lm_sin lm_cos lm_acos lm_atan lm_atan2]; [intros x _; apply Z, S1|intros x _; apply Z, C1|exact G1|exact G2|exact G3].
  - destruct L_PTestEll.round_sharp as [_ _ G1]. split; cbn [trunc_libm lm_sin lm_cos lm_atan2]; [intros x _; apply zt_rel, S1|intros x _; apply zt_rel, C1|exact G1].
  - intros x _. cbn [trunc_libm lm_sin lm_cos]. split; apply zt_ok; [apply S1|apply C1].
Qed.
