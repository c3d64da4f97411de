(** * Basic facts about the binary64 arithmetic *)

From Coq Require Import ZArith Reals Lra Lia Bool Psatz.
From Flocq Require Import Core BinarySingleNaN.
From Verif Require Import Outcome Arith ArithR ArithF.
From Verif Require Export Spec_Float.
Open Scope R_scope.

(** Select the operations of the instance, and nothing else. *)
Ltac b64A_ops := cbn [b64A num lit of_int add sub mul div rem neg nabs nsqrt nround ntrunc ltb leb to_i32 to_u32 nsin ncos nacos natan natan2 c_pi c_two_pi c_as2r] in *.


#[global] Instance fx_valid : Valid_exp fx := FLT_exp_valid (-1074) 53.
#[global] Instance fx_mono : Monotone_exp fx := FLT_exp_monotone (-1074) 53.

(** ** Representable numbers and rounding error *)

Lemma format_B2R : forall x, format (B2R x).
Proof. intros x. apply generic_format_B2R. Qed.

Lemma format_dyadic : forall m e, (Z.abs m <= 2 ^ 53)%Z -> (-1074 <= e)%Z ->
  format (IZR m * bpow radix2 e).
Proof.
  intros m e Hm He.
  destruct (Z.eq_dec (Z.abs m) (2 ^ 53)) as [E|N].
  - assert (H : format (bpow radix2 (53 + e))).
    { apply generic_format_bpow. unfold FLT_exp. lia. }
    rewrite bpow_plus in H.
    assert (m = 2 ^ 53 \/ m = - 2 ^ 53)%Z as [->| ->] by lia.
    + exact H.
    + replace (IZR (- 2 ^ 53) * bpow radix2 e) with (- (bpow radix2 53 * bpow radix2 e)).
      * apply generic_format_opp, H.
      * rewrite opp_IZR. change (IZR (2^53)) with (bpow radix2 53). ring.
  - apply generic_format_FLT.
    apply (FLT_spec radix2 (-1074) 53 _ (Float radix2 m e)).
    + reflexivity.
    + cbn [Fnum]. change (radix2 ^ 53)%Z with (2 ^ 53)%Z. lia.
    + exact He.
Qed.

Lemma format_IZR : forall m, (Z.abs m <= 2 ^ 53)%Z -> format (IZR m).
Proof.
  intros m Hm. replace (IZR m) with (IZR m * bpow radix2 0) by (simpl; ring).
  apply format_dyadic; lia.
Qed.

Lemma rnd_id : forall x, format x -> rnd x = x.
Proof. intros x H. apply round_generic; [apply valid_rnd_N|exact H]. Qed.

Lemma rnd_mono : forall x y, x <= y -> rnd x <= rnd y.
Proof. intros x y H. apply round_le; [apply fx_valid|apply valid_rnd_N|exact H]. Qed.

Lemma rnd_abs_le : forall x y, format y -> Rabs x <= y -> Rabs (rnd x) <= y.
Proof.
  intros x y Hy H. apply abs_round_le_generic; [apply fx_valid|apply valid_rnd_N|exact Hy|exact H].
Qed.

Lemma rnd_ge : forall x y, format y -> y <= x -> y <= rnd x.
Proof. intros x y Hy H. rewrite <- (rnd_id y Hy). apply rnd_mono, H. Qed.
Lemma rnd_le : forall x y, format y -> x <= y -> rnd x <= y.
Proof. intros x y Hy H. rewrite <- (rnd_id y Hy). apply rnd_mono, H. Qed.

Lemma rnd_error : forall x k, (-1021 <= k)%Z -> Rabs x <= bpow radix2 k ->
  Rabs (rnd x - x) <= / 2 * bpow radix2 (k - 53).
Proof.
  intros x k Hk H.
  destruct (Rle_lt_or_eq_dec _ _ H) as [L|E].
  - apply Rle_trans with (/2 * ulp radix2 fx x).
    + apply error_le_half_ulp. apply fx_valid.
    + apply Rmult_le_compat_l; [lra|].
      destruct (Req_dec x 0) as [->|N].
      * rewrite ulp_FLT_0 by (unfold Prec_gt_0; lia). apply bpow_le. lia.
      * rewrite ulp_neq_0 by assumption. apply bpow_le. unfold cexp, FLT_exp.
        pose proof (mag_le_bpow radix2 x k N L). lia.
  - assert (F : format x).
    { assert (F : format (bpow radix2 k)) by (apply generic_format_bpow; unfold FLT_exp; lia).
      rewrite <- E in F. unfold Rabs in F. destruct (Rcase_abs x) in F; [|exact F].
      replace x with (- - x) by ring. apply generic_format_opp, F. }
    rewrite rnd_id by exact F. replace (x - x) with 0 by ring. rewrite Rabs_R0.
    apply Rmult_le_pos; [lra|apply bpow_ge_0].
Qed.

(** Relative error, with the underflow term. *)
Lemma rnd_rel : forall x, Rabs (rnd x - x) <= / 2 * bpow radix2 (-52) * Rabs x + / 2 * bpow radix2 (-1074).
Proof.
  intros x.
  apply Rle_trans with (/2 * ulp radix2 fx x); [apply error_le_half_ulp, fx_valid|].
  rewrite Rmult_assoc, <- Rmult_plus_distr_l. apply Rmult_le_compat_l; [lra|].
  destruct (Req_dec x 0) as [->|N].
  - rewrite ulp_FLT_0 by (unfold Prec_gt_0; lia). rewrite Rabs_R0, Rmult_0_r, Rplus_0_l. apply Rle_refl.
  - rewrite ulp_neq_0 by assumption. unfold cexp, FLT_exp.
    destruct (Z.max_spec (mag radix2 x - 53) (-1074)) as [[_ ->]|[_ ->]].
    + assert (0 <= bpow radix2 (-52) * Rabs x) by (apply Rmult_le_pos; [apply bpow_ge_0|apply Rabs_pos]).
      lra.
    + assert (bpow radix2 (mag radix2 x - 53) <= bpow radix2 (-52) * Rabs x).
      { replace (mag radix2 x - 53)%Z with ((-52) + (mag radix2 x - 1))%Z by lia.
        rewrite bpow_plus. apply Rmult_le_compat_l; [apply bpow_ge_0|].
        apply bpow_mag_le, N. }
      pose proof (bpow_ge_0 radix2 (-1074)). lra.
Qed.

(** ** Operations on finite numbers without overflow *)

Definition small (x : R) : Prop := Rabs x <= bpow radix2 1023.

Lemma small_rnd : forall x, small x -> Rlt_bool (Rabs (rnd x)) (bpow radix2 1024) = true.
Proof.
  intros x H. apply Rlt_bool_true.
  apply Rle_lt_trans with (bpow radix2 1023).
  - apply rnd_abs_le; [|exact H]. apply generic_format_bpow. unfold FLT_exp. lia.
  - apply bpow_lt. lia.
Qed.

Lemma small_le : forall x k, (k <= 1023)%Z -> Rabs x <= bpow radix2 k -> small x.
Proof. intros x k Hk H. unfold small. eapply Rle_trans; [exact H|]. apply bpow_le, Hk. Qed.

Lemma Fadd_full : forall x y, fin x = true -> fin y = true -> small (B2R x + B2R y) ->
  B2R (Fadd x y) = rnd (B2R x + B2R y) /\ fin (Fadd x y) = true /\
  Bsign (Fadd x y) = match Rcompare (B2R x + B2R y) 0 with
                     | Eq => andb (Bsign x) (Bsign y) | Lt => true | Gt => false end.
Proof.
  intros x y Hx Hy H. pose proof (Bplus_correct 53 1024 _ _ mode_NE x y Hx Hy) as C.
  change (round_mode mode_NE) with ZnearestE in C. change (SpecFloat.fexp 53 1024) with fx in C.
  rewrite small_rnd in C by exact H. exact C.
Qed.

Lemma Fadd_ok : forall x y, fin x = true -> fin y = true -> small (B2R x + B2R y) ->
  B2R (Fadd x y) = rnd (B2R x + B2R y) /\ fin (Fadd x y) = true.
Proof. intros x y Hx Hy H. destruct (Fadd_full x y Hx Hy H) as (A & B & _). auto. Qed.

Lemma Fsub_full : forall x y, fin x = true -> fin y = true -> small (B2R x - B2R y) ->
  B2R (Fsub x y) = rnd (B2R x - B2R y) /\ fin (Fsub x y) = true /\
  Bsign (Fsub x y) = match Rcompare (B2R x - B2R y) 0 with
                     | Eq => andb (Bsign x) (negb (Bsign y)) | Lt => true | Gt => false end.
Proof.
  intros x y Hx Hy H. pose proof (Bminus_correct 53 1024 _ _ mode_NE x y Hx Hy) as C.
  change (round_mode mode_NE) with ZnearestE in C. change (SpecFloat.fexp 53 1024) with fx in C.
  rewrite small_rnd in C by exact H. exact C.
Qed.

Lemma Fsub_ok : forall x y, fin x = true -> fin y = true -> small (B2R x - B2R y) ->
  B2R (Fsub x y) = rnd (B2R x - B2R y) /\ fin (Fsub x y) = true.
Proof. intros x y Hx Hy H. destruct (Fsub_full x y Hx Hy H) as (A & B & _). auto. Qed.

Lemma fin_not_nan : forall x : b64, fin x = true -> is_nan x = false.
Proof. intros [| | |]; simpl; congruence. Qed.

Lemma Fmul_full : forall x y, fin x = true -> fin y = true -> small (B2R x * B2R y) ->
  B2R (Fmul x y) = rnd (B2R x * B2R y) /\ fin (Fmul x y) = true /\
  Bsign (Fmul x y) = xorb (Bsign x) (Bsign y).
Proof.
  intros x y Hx Hy H. pose proof (Bmult_correct 53 1024 _ _ mode_NE x y) as C.
  change (round_mode mode_NE) with ZnearestE in C. change (SpecFloat.fexp 53 1024) with fx in C.
  rewrite small_rnd in C by exact H. destruct C as (A & B & S).
  rewrite Hx, Hy in B. split; [exact A|]. split; [exact B|]. apply S, fin_not_nan, B.
Qed.

Lemma Fmul_ok : forall x y, fin x = true -> fin y = true -> small (B2R x * B2R y) ->
  B2R (Fmul x y) = rnd (B2R x * B2R y) /\ fin (Fmul x y) = true.
Proof. intros x y Hx Hy H. destruct (Fmul_full x y Hx Hy H) as (A & B & _). auto. Qed.

Lemma Fdiv_full : forall x y, fin x = true -> B2R y <> 0 -> small (B2R x / B2R y) ->
  B2R (Fdiv x y) = rnd (B2R x / B2R y) /\ fin (Fdiv x y) = true /\
  Bsign (Fdiv x y) = xorb (Bsign x) (Bsign y).
Proof.
  intros x y Hx Hy H. pose proof (Bdiv_correct 53 1024 _ _ mode_NE x y Hy) as C.
  change (round_mode mode_NE) with ZnearestE in C. change (SpecFloat.fexp 53 1024) with fx in C.
  rewrite small_rnd in C by exact H. destruct C as (A & B & S).
  rewrite Hx in B. split; [exact A|]. split; [exact B|]. apply S, fin_not_nan, B.
Qed.

Lemma Fdiv_ok : forall x y, fin x = true -> B2R y <> 0 -> small (B2R x / B2R y) ->
  B2R (Fdiv x y) = rnd (B2R x / B2R y) /\ fin (Fdiv x y) = true.
Proof. intros x y Hx Hy H. destruct (Fdiv_full x y Hx Hy H) as (A & B & _). auto. Qed.

(** ** Conversions *)

Lemma round_FIX0 : forall f x, round radix2 (FIX_exp 0) f x = IZR (f x).
Proof.
  intros f x. unfold round, scaled_mantissa, cexp, FIX_exp, F2R. simpl.
  rewrite !Rmult_1_r. reflexivity.
Qed.

Lemma Fround_ok : forall x, fin x = true ->
  B2R (Fround x) = IZR (ZnearestA (B2R x)) /\ fin (Fround x) = true.
Proof.
  intros x Hx. destruct (Bnearbyint_correct 53 1024 _ mode_NA x) as (A & B & _).
  unfold Fround. rewrite A, B. rewrite round_FIX0. auto.
Qed.

Lemma Ftrunc_full : forall x, fin x = true ->
  B2R (Ftrunc x) = IZR (Ztrunc (B2R x)) /\ fin (Ftrunc x) = true /\ Bsign (Ftrunc x) = Bsign x.
Proof.
  intros x Hx. destruct (Bnearbyint_correct 53 1024 _ mode_ZR x) as (A & B & S).
  unfold Ftrunc. rewrite round_FIX0 in A. rewrite Hx in B.
  split; [exact A|]. split; [exact B|]. apply S, fin_not_nan, B.
Qed.

Lemma Btrunc_ok : forall x, Btrunc x = Ztrunc (B2R x).
Proof.
  intros x. apply eq_IZR. rewrite (Btrunc_correct 53 1024 _ x). apply round_FIX0.
Qed.

Lemma Fto_int_ok : forall lo hi x, fin x = true -> (lo <= Ztrunc (B2R x) <= hi)%Z ->
  Fto_int lo hi x = Ztrunc (B2R x).
Proof.
  intros lo hi x Hx H. unfold Fto_int.
  destruct x; try discriminate; rewrite ?Btrunc_ok; rewrite Z.min_r, Z.max_r by lia; reflexivity.
Qed.

Lemma FofZ_ok : forall z, (Z.abs z <= 2 ^ 53)%Z ->
  B2R (FofZ z) = IZR z /\ fin (FofZ z) = true /\ Bsign (FofZ z) = (z <? 0)%Z.
Proof.
  intros z Hz. pose proof (binary_normalize_correct 53 1024 _ _ mode_NE z 0 false) as C.
  change (round_mode mode_NE) with ZnearestE in C. change (SpecFloat.fexp 53 1024) with fx in C.
  cbv zeta in C.
  assert (E : F2R (Float radix2 z 0) = IZR z) by (unfold F2R; simpl; ring).
  rewrite E in C. rewrite small_rnd in C.
  - unfold FofZ, Fof. destruct C as (A & B & S).
    rewrite A, B, S. rewrite rnd_id by (apply format_IZR, Hz).
    split; [reflexivity|]. split; [reflexivity|].
    destruct (Z.ltb_spec z 0) as [L|L].
    + rewrite Rcompare_Lt; [reflexivity|apply IZR_lt, L].
    + destruct (Z.eq_dec z 0) as [->|N].
      * rewrite Rcompare_Eq; reflexivity.
      * rewrite Rcompare_Gt; [reflexivity|apply IZR_lt; lia].
  - apply small_le with 53%Z; [lia|]. rewrite <- abs_IZR. change (bpow radix2 53) with (IZR (2^53)).
    apply IZR_le, Hz.
Qed.

(** ** Literals *)

Lemma B2R_SF : forall x, B2R x = SF2R radix2 (B2SF x).
Proof. intros x. symmetry. apply SF2R_B2SF. Qed.

Lemma fin_SF : forall x, fin x = is_finite_SF (B2SF x).
Proof. intros x. symmetry. apply is_finite_SF_B2SF. Qed.

(** ** The exact remainder *)

Lemma Rrem_scale : forall (a b : Z) (s : R), 0 < s -> (b <> 0)%Z ->
  Rrem (IZR a * s) (IZR b * s) = IZR (Z.rem a b) * s.
Proof.
  intros a b s Hs Hb. unfold Rrem.
  replace (IZR a * s / (IZR b * s)) with (IZR a / IZR b)
    by (field; split; [lra|apply not_0_IZR, Hb]).
  assert (E : Ztrunc (IZR a / IZR b) = Z.quot a b).
  { apply Ztrunc_div, Hb. }
  rewrite E. rewrite (Z.quot_rem' a b) at 1. rewrite plus_IZR, mult_IZR. ring.
Qed.

Lemma Rrem_opp_r : forall x y, Rrem x (- y) = Rrem x y.
Proof.
  intros x y. unfold Rrem.
  replace (x / - y) with (- (x / y)).
  - rewrite Ztrunc_opp, opp_IZR. ring.
  - unfold Rdiv. destruct (Req_dec y 0) as [->|N].
    + rewrite Ropp_0, Rinv_0. ring.
    + field. exact N.
Qed.

Lemma B2R_scaled : forall s m e H e', (e' <= e)%Z ->
  B2R (@B754_finite 53 1024 s m e H) =
  IZR (if s then - (Zpos m * 2 ^ (e - e')) else Zpos m * 2 ^ (e - e')) * bpow radix2 e'.
Proof.
  intros s m e H e' He. cbn [BinarySingleNaN.B2R]. unfold F2R. cbn [Fnum Fexp].
  replace (bpow radix2 e) with (IZR (2 ^ (e - e')) * bpow radix2 e').
  - destruct s; cbn [cond_Zopp]; rewrite ?opp_IZR, ?mult_IZR.
    + change (IZR (Z.neg m)) with (- IZR (Zpos m)). ring.
    + ring.
  - change (2 ^ (e - e'))%Z with (radix2 ^ (e - e'))%Z. rewrite IZR_Zpower by lia.
    rewrite <- bpow_plus. f_equal. lia.
Qed.

Lemma Frem_full : forall x y, fin x = true -> fin y = true -> B2R y <> 0 ->
  B2R (Frem x y) = Rrem (B2R x) (B2R y) /\ fin (Frem x y) = true /\ Bsign (Frem x y) = Bsign x.
Proof.
  intros x y Hx Hy Ny.
  destruct y as [sy|sy| |sy my ey Py]; try discriminate; [exfalso; apply Ny; reflexivity|].
  destruct x as [sx|sx| |sx mx ex Px]; try discriminate.
  { split; [|split; reflexivity]. cbn [Frem].
    change (B2R (B754_zero sx)) with 0. unfold Rrem.
    replace (0 / _) with 0 by (unfold Rdiv; ring). rewrite (Ztrunc_IZR 0). ring. }
  set (e := Z.min ex ey).
  set (ax := (Zpos mx * 2 ^ (ex - e))%Z). set (ay := (Zpos my * 2 ^ (ey - e))%Z).
  assert (Hax : (0 < ax)%Z) by (apply Z.mul_pos_pos; [lia|apply Z.pow_pos_nonneg; lia]).
  assert (Hay : (0 < ay)%Z) by (apply Z.mul_pos_pos; [lia|apply Z.pow_pos_nonneg; lia]).
  assert (Br : (0 <= Z.rem ax ay < ay)%Z) by (apply Z.rem_bound_pos; lia).
  assert (Br' : (Z.rem ax ay <= ax)%Z) by (apply Z.rem_le; lia).
  assert (Bx : (Zpos mx < 2 ^ 53)%Z /\ (-1074 <= ex)%Z).
  { clear - Px. unfold SpecFloat.bounded in Px. apply andb_prop in Px. destruct Px as [C _].
    apply canonical_canonical_mantissa with (sx := false) in C.
    unfold canonical, cexp, FLT_exp in C. cbn [Fexp Fnum cond_Zopp] in C.
    rewrite mag_F2R_Zdigits in C by discriminate.
    change (SpecFloat.fexp 53 1024) with fx in C. unfold FLT_exp in C.
    pose proof (Zdigits_correct radix2 (Zpos mx)) as [_ D]. rewrite Z.abs_eq in D by lia.
    split; [|lia].
    apply Z.lt_le_trans with (1 := D).
    change (2 ^ 53)%Z with (radix2 ^ 53)%Z. apply Zpower_le. lia. }
  assert (By : (Zpos my < 2 ^ 53)%Z /\ (-1074 <= ey)%Z).
  { clear - Py. unfold SpecFloat.bounded in Py. apply andb_prop in Py. destruct Py as [C _].
    apply canonical_canonical_mantissa with (sx := false) in C.
    unfold canonical, cexp, FLT_exp in C. cbn [Fexp Fnum cond_Zopp] in C.
    rewrite mag_F2R_Zdigits in C by discriminate.
    change (SpecFloat.fexp 53 1024) with fx in C. unfold FLT_exp in C.
    pose proof (Zdigits_correct radix2 (Zpos my)) as [_ D]. rewrite Z.abs_eq in D by lia.
    split; [|lia].
    apply Z.lt_le_trans with (1 := D).
    change (2 ^ 53)%Z with (radix2 ^ 53)%Z. apply Zpower_le. lia. }
  assert (Hr : (Z.rem ax ay < 2 ^ 53)%Z).
  { destruct (Z.le_gt_cases ex ey) as [L|L].
    - assert (ax = Zpos mx) by (unfold ax, e; rewrite Z.min_l, Z.sub_diag by lia; cbn; lia). lia.
    - assert (ay = Zpos my) by (unfold ay, e; rewrite Z.min_r, Z.sub_diag by lia; cbn; lia). lia. }
  assert (He : (-1074 <= e)%Z) by (unfold e; lia).
  set (r := (if sx then - Z.rem ax ay else Z.rem ax ay)%Z).
  pose proof (binary_normalize_correct 53 1024 _ _ mode_NE r e sx) as C.
  change (round_mode mode_NE) with ZnearestE in C. change (SpecFloat.fexp 53 1024) with fx in C.
  cbv zeta in C.
  change (F2R (Float radix2 r e)) with (IZR r * bpow radix2 e) in C.
  assert (Ex : B2R (B754_finite sx mx ex Px) = IZR (if sx then - ax else ax) * bpow radix2 e)
    by (apply B2R_scaled; unfold e; lia).
  assert (Fr : format (IZR r * bpow radix2 e)).
  { apply format_dyadic; [|exact He]. unfold r. destruct sx; lia. }
  rewrite rnd_id in C by exact Fr.
  rewrite Rlt_bool_true in C.
  2:{ apply Rle_lt_trans with (Rabs (B2R (B754_finite sx mx ex Px))); [|apply abs_B2R_lt_emax].
      rewrite Ex, !Rabs_mult. apply Rmult_le_compat_r; [apply Rabs_pos|].
      rewrite <- !abs_IZR. apply IZR_le. unfold r. destruct sx; lia. }
  destruct C as (C1 & C2 & C3).
  cbn [Frem]. fold e. fold ax. fold ay. fold r. rewrite C1, C2, C3.
  split; [|split; [reflexivity|]].
  - rewrite Ex. rewrite (B2R_scaled sy my ey Py e) by (unfold e; lia). fold ay.
    assert (Q : forall a, Rrem (IZR a * bpow radix2 e) (IZR (if sy then - ay else ay) * bpow radix2 e)
      = IZR (Z.rem a ay) * bpow radix2 e).
    { intros a. destruct sy.
      - rewrite opp_IZR, Ropp_mult_distr_l_reverse, Rrem_opp_r.
        apply Rrem_scale; [apply bpow_gt_0|lia].
      - apply Rrem_scale; [apply bpow_gt_0|lia]. }
    rewrite Q. unfold r. destruct sx; [|reflexivity]. rewrite Z.rem_opp_l by lia. reflexivity.
  - cbn [Bsign]. pose proof (bpow_gt_0 radix2 e).
    destruct (Z.eq_dec r 0) as [E0|N0].
    + rewrite E0, Rmult_0_l, Rcompare_Eq; reflexivity.
    + unfold r in N0. unfold r. destruct sx.
      * rewrite Rcompare_Lt; [reflexivity|].
        replace 0 with (0 * bpow radix2 e) by ring. apply Rmult_lt_compat_r; [assumption|].
        apply IZR_lt. lia.
      * rewrite Rcompare_Gt; [reflexivity|].
        replace 0 with (0 * bpow radix2 e) by ring. apply Rmult_lt_compat_r; [assumption|].
        apply IZR_lt. lia.
Qed.

(** Value of a literal, by computation. *)
Ltac flit_prove :=
  match goal with
  | |- B2R ?x = _ /\ fin ?x = true =>
      rewrite (B2R_SF x), (fin_SF x);
      let v := eval vm_compute in (B2SF x) in
      replace (B2SF x) with v by (vm_compute; reflexivity);
      split; [unfold SF2R, F2R; cbn -[IZR]; lra|reflexivity]
  end.

Lemma lit_0 : B2R (Flit 0 0) = 0 /\ fin (Flit 0 0) = true.
Proof. flit_prove. Qed.
Lemma lit_1 : B2R (Flit 1 0) = 1 /\ fin (Flit 1 0) = true.
Proof. flit_prove. Qed.
Lemma lit_2 : B2R (Flit 2 0) = 2 /\ fin (Flit 2 0) = true.
Proof. flit_prove. Qed.
Lemma lit_half : B2R (Flit 5 (-1)) = / 2 /\ fin (Flit 5 (-1)) = true.
Proof. flit_prove. Qed.
Lemma lit_60 : B2R (Flit 60 0) = 60 /\ fin (Flit 60 0) = true.
Proof. flit_prove. Qed.
Lemma lit_86400 : B2R (Flit 86400 0) = 86400 /\ fin (Flit 86400 0) = true.
Proof. flit_prove. Qed.
Lemma lit_mjd0 : B2R (Flit 24000005 (-1)) = 2400000 + / 2 /\ fin (Flit 24000005 (-1)) = true.
Proof. flit_prove. Qed.
Lemma lit_djmin : B2R (Flit (-32000) 0) = -32000 /\ fin (Flit (-32000) 0) = true.
Proof. flit_prove. Qed.
Lemma lit_djmax : B2R (Flit 1 9) = 1000000000 /\ fin (Flit 1 9) = true.
Proof. flit_prove. Qed.
