(** * A libm that can be computed, of the accuracy assumed of any libm

    Sine and cosine by the fixed-point evaluation of L_Eval.v up to 2184 radians, the
    arc tangent by eight terms of its series up to 1/10; elsewhere the libm of L_Libm.v. *)

From Coq Require Import ZArith Reals Lra Lia Bool.
From Flocq Require Import Core BinarySingleNaN.
From Verif Require Import Outcome Arith ArithR ArithF Spec_Float Spec_Accuracy L_ArithF L_Libm.
From Verif Require L_Eval L_Epv.
Open Scope R_scope.

Definition nd (m : positive) (e : Z) : Z * Z :=
  match e with Zneg k => (Zpos m, 2 ^ Zpos k)%Z | _ => (Zpos m * 2 ^ e, 1)%Z end.

Definition sg (s : bool) (v : Z) : Z := if s then (- v)%Z else v.
Definition out (s : bool) (v : Z) : b64 := Fof (sg s v) (-66).

Definition calc_sin (x : b64) : b64 :=
  match x with
  | B754_zero _ => x
  | B754_finite s m e _ => let '(n, d) := nd m e in if (n <=? 2184 * d)%Z then out s (snd (L_Eval.cossin 66 n d)) else lm_sin nice_libm x
  | _ => x
  end.
Definition calc_cos (x : b64) : b64 :=
  match x with
  | B754_zero _ => FofZ 1
  | B754_finite s m e _ => let '(n, d) := nd m e in if (n <=? 2184 * d)%Z then out false (fst (L_Eval.cossin 66 n d)) else lm_cos nice_libm x
  | _ => x
  end.

(** The series of the arc tangent at n / d, in units of 2^-66. *)
Definition serie (n d : Z) : Z :=
  let n2 := (n * n)%Z in let d2 := (d * d)%Z in
  let e2 := d2 in let e4 := (e2 * d2)%Z in let e6 := (e4 * d2)%Z in let e8 := (e6 * d2)%Z in let e10 := (e8 * d2)%Z in let e12 := (e10 * d2)%Z in let e14 := (e12 * d2)%Z in
  (n * (45045 * e14 - n2 * (15015 * e12 - n2 * (9009 * e10 - n2 * (6435 * e8 - n2 * (5005 * e6 - n2 * (4095 * e4 - n2 * (3465 * e2 - n2 * 3003))))))) * 2 ^ 66 / (45045 * e14 * d))%Z.

Definition calc_atan (x : b64) : b64 :=
  match x with
  | B754_zero _ => x
  | B754_finite s m e _ => let '(n, d) := nd m e in if (10 * n <=? d)%Z then out s (serie n d) else lm_atan nice_libm x
  | _ => x
  end.
Definition calc_atan2 (y x : b64) : b64 :=
  match x, y with
  | B754_finite false m e _, B754_finite s m' e' _ =>
      let '(n, d) := nd m e in let '(n', d') := nd m' e' in
      let a := (n' * d)%Z in let b := (d' * n)%Z in
      if (10 * a <=? b)%Z then out s (serie a b) else lm_atan2 nice_libm y x
  | _, _ => lm_atan2 nice_libm y x
  end.

Definition calc_libm : libm := {|
  lm_sin := calc_sin; lm_cos := calc_cos; lm_acos := lm_acos nice_libm; lm_atan := calc_atan; lm_atan2 := calc_atan2 |}.

Lemma nd_ok : forall m e, let '(n, d) := nd m e in (0 < n)%Z /\ (0 < d)%Z /\ IZR n / IZR d = IZR (Zpos m) * bpow radix2 e.
Proof.
  intros m e. unfold nd. destruct e as [|k|k].
  - change (2 ^ 0)%Z with 1%Z. split; [lia|]. split; [lia|]. rewrite Z.mul_1_r. cbn [bpow]. lra.
  - assert (P : (0 < 2 ^ Zpos k)%Z) by (apply Z.pow_pos_nonneg; lia). split; [lia|]. split; [lia|].
    rewrite mult_IZR. change (2 ^ Zpos k)%Z with (Zpower radix2 (Zpos k)). rewrite IZR_Zpower by lia. lra.
  - assert (P : (0 < 2 ^ Zpos k)%Z) by (apply Z.pow_pos_nonneg; lia). split; [lia|]. split; [lia|].
    change (2 ^ Zpos k)%Z with (Zpower radix2 (Zpos k)). rewrite IZR_Zpower by lia. change (Zneg k) with (- Zpos k)%Z. rewrite bpow_opp. reflexivity.
Qed.

Lemma B2R_nd : forall s m e H, B2R (B754_finite s m e H : b64) = (if s then -1 else 1) * (IZR (fst (nd m e)) / IZR (snd (nd m e))).
Proof.
  intros s m e H. pose proof (nd_ok m e) as K. destruct (nd m e) as [n d]. destruct K as (_ & _ & K). cbn [fst snd]. rewrite K.
  cbn [B2R]. unfold F2R. cbn [Fnum Fexp]. destruct s; cbn [cond_Zopp]; [change (Zneg m) with (- Zpos m)%Z; rewrite opp_IZR|]; ring.
Qed.

(** The result: a fixed-point number within 8.2e-17 of the value. *)
Lemma out_ok : forall s v r, Rabs r <= 1 -> Rabs (IZR v * / IZR (2 ^ 66) - r) <= 8.2 / 10 ^ 17 ->
  fin (out s v) = true /\ Rabs (B2R (out s v) - (if s then -1 else 1) * r) <= bpow radix2 (-52).
Proof.
  intros s v r Hr Hv. unfold out.
  pose proof (binary_normalize_correct 53 1024 _ _ mode_NE (sg s v) (-66) false) as C.
  change (round_mode mode_NE) with ZnearestE in C. change (SpecFloat.fexp 53 1024) with fx in C. cbv zeta in C.
  unfold F2R in C. cbn [Fnum Fexp] in C. set (w := IZR (sg s v) * bpow radix2 (-66)) in *.
  assert (W : w = (if s then -1 else 1) * (IZR v * / IZR (2 ^ 66))).
  { unfold w, sg. change (bpow radix2 (-66)) with (/ IZR (2 ^ 66)). destruct s; [rewrite opp_IZR|]; ring. }
  assert (D : Rabs (w - (if s then -1 else 1) * r) <= 8.2 / 10 ^ 17).
  { rewrite W. destruct s; [|replace (1 * (IZR v * / IZR (2 ^ 66)) - 1 * r) with (IZR v * / IZR (2 ^ 66) - r) by ring; exact Hv].
    replace (-1 * (IZR v * / IZR (2 ^ 66)) - -1 * r) with (- (IZR v * / IZR (2 ^ 66) - r)) by ring. rewrite Rabs_Ropp. exact Hv. }
  assert (RR : Rabs ((if s then -1 else 1) * r) <= 1) by (rewrite Rabs_mult; destruct s; rewrite ?Rabs_Ropp, ?Rabs_R1; [replace (Rabs (-1)) with 1 by (rewrite Rabs_left; lra)|]; lra).
  set (q := (if s then -1 else 1) * r) in *. clearbody q w.
  assert (E : Rabs (rnd w - w) <= 11.2 / 10 ^ 17).
  { eapply Rle_trans; [apply (rnd_error w 1); [lia|]|]. { change (bpow radix2 1) with 2. apply Rabs_le_inv in D, RR. apply Rabs_le. lra. }
    change (bpow radix2 (1 - 53)) with (/ 4503599627370496). lra. }
  apply Rabs_le_inv in D, RR, E.
  rewrite Rlt_bool_true in C.
  - destruct C as (C1 & C2 & _). unfold Fof. split; [exact C2|]. rewrite C1. change (bpow radix2 (-52)) with (/ 4503599627370496). apply Rabs_le. lra.
  - apply Rle_lt_trans with 4; [apply Rabs_le; lra|]. change 4 with (bpow radix2 2). apply bpow_lt. lia.
Qed.

Lemma eval_66 : L_Eval.eval_err 66 <= 8.2 / 10 ^ 17.
Proof. unfold L_Eval.eval_err, L_Eval.ep, L_Eval.SC. change (2 ^ 66)%Z with 73786976294838206464%Z. lra. Qed.

Lemma cossin_66 : forall n d, (0 < n)%Z -> (0 < d)%Z -> (n <=? 2184 * d)%Z = true ->
  Rabs (IZR (fst (L_Eval.cossin 66 n d)) * / IZR (2 ^ 66) - cos (IZR n / IZR d)) <= 8.2 / 10 ^ 17 /\
  Rabs (IZR (snd (L_Eval.cossin 66 n d)) * / IZR (2 ^ 66) - sin (IZR n / IZR d)) <= 8.2 / 10 ^ 17.
Proof.
  intros n d N D L. apply Z.leb_le in L. destruct (L_Eval.cossin_ok 66 ltac:(lia) n d D ltac:(lia)) as [C S].
  unfold L_Eval.fx, L_Eval.ep, L_Eval.SC in C, S. pose proof eval_66. split; lra.
Qed.

(** ** The series of the arc tangent *)
Definition arc (z : R) : R := z - z ^ 3 / 3 + z ^ 5 / 5 - z ^ 7 / 7 + z ^ 9 / 9 - z ^ 11 / 11 + z ^ 13 / 13 - z ^ 15 / 15.
Lemma serie_der : forall z, derivable_pt_lim (fun z => atan z - arc z) z (z ^ 16 / (1 + z ^ 2)).
Proof.
  intros z.
  assert (P : 0 < 1 + z ^ 2) by nra.
  assert (M : forall n c, derivable_pt_lim (fun z => z ^ n * c) z (INR n * z ^ Nat.pred n * c)).
  { intros n c. replace (INR n * z ^ Nat.pred n * c) with (INR n * z ^ Nat.pred n * c + z ^ n * 0) by ring.
    apply (derivable_pt_lim_mult (fun z => z ^ n) (fun _ => c)); [apply derivable_pt_lim_pow|apply derivable_pt_lim_const]. }
  replace (z ^ 16 / (1 + z ^ 2)) with (/ (1 + z ^ 2) - (1 - INR 3 * z ^ Nat.pred 3 * / 3 + INR 5 * z ^ Nat.pred 5 * / 5 - INR 7 * z ^ Nat.pred 7 * / 7 + INR 9 * z ^ Nat.pred 9 * / 9 - INR 11 * z ^ Nat.pred 11 * / 11 + INR 13 * z ^ Nat.pred 13 * / 13 - INR 15 * z ^ Nat.pred 15 * / 15)).
  2: { cbn [INR Nat.pred]. field. lra. }
  apply (derivable_pt_lim_minus atan arc); [pose proof (derivable_pt_lim_atan z) as A; replace (/ (1 + z ^ 2)) with (/ (1 + Rsqr z)) by (unfold Rsqr; f_equal; ring); rewrite Rsqr_pow2 in *; exact A|].
  unfold arc.
  apply (derivable_pt_lim_minus (fun z => z - z ^ 3 / 3 + z ^ 5 / 5 - z ^ 7 / 7 + z ^ 9 / 9 - z ^ 11 / 11 + z ^ 13 / 13) (fun z => z ^ 15 * / 15)); [|apply M].
  apply (derivable_pt_lim_plus (fun z => z - z ^ 3 / 3 + z ^ 5 / 5 - z ^ 7 / 7 + z ^ 9 / 9 - z ^ 11 / 11) (fun z => z ^ 13 * / 13)); [|apply M].
  apply (derivable_pt_lim_minus (fun z => z - z ^ 3 / 3 + z ^ 5 / 5 - z ^ 7 / 7 + z ^ 9 / 9) (fun z => z ^ 11 * / 11)); [|apply M].
  apply (derivable_pt_lim_plus (fun z => z - z ^ 3 / 3 + z ^ 5 / 5 - z ^ 7 / 7) (fun z => z ^ 9 * / 9)); [|apply M].
  apply (derivable_pt_lim_minus (fun z => z - z ^ 3 / 3 + z ^ 5 / 5) (fun z => z ^ 7 * / 7)); [|apply M].
  apply (derivable_pt_lim_plus (fun z => z - z ^ 3 / 3) (fun z => z ^ 5 * / 5)); [|apply M].
  apply (derivable_pt_lim_minus (fun z => z) (fun z => z ^ 3 * / 3)); [apply derivable_pt_lim_id|apply M].
Qed.

Lemma atan_serie : forall z, 0 < z <= / 10 -> Rabs (atan z - arc z) <= 6 / 10 ^ 17.
Proof.
  intros z Hz.
  destruct (MVT_cor2 _ (fun z => z ^ 16 / (1 + z ^ 2)) 0 z ltac:(lra) (fun c _ => serie_der c)) as (c & E & C).
  rewrite atan_0 in E. replace (0 - arc 0) with 0 in E by (unfold arc; field). rewrite Rminus_0_r in E. rewrite E.
  assert (P : 1 <= 1 + c ^ 2) by nra.
  assert (C8 : 0 <= c ^ 16 <= (/ 10) ^ 16) by (split; [apply pow_le; lra|apply pow_incr; lra]).
  assert (K : 0 <= c ^ 16 / (1 + c ^ 2) <= (/ 10) ^ 16).
  { split; [apply Rmult_le_pos; [lra|left; apply Rinv_0_lt_compat; lra]|]. apply Rle_trans with (c ^ 16 / 1); [|lra].
    apply Rmult_le_compat_l; [lra|]. apply Rinv_le; lra. }
  set (k := c ^ 16 / (1 + c ^ 2)) in *. clearbody k. rewrite Rabs_pos_eq by (apply Rmult_le_pos; lra).
  apply Rle_trans with ((/ 10) ^ 16 * / 10); [apply Rmult_le_compat; lra|]. lra.
Qed.

Lemma serie_ok : forall n d, (0 < n)%Z -> (0 < d)%Z -> (10 * n <=? d)%Z = true -> Rabs (IZR (serie n d) * / IZR (2 ^ 66) - atan (IZR n / IZR d)) <= 8.2 / 10 ^ 17.
Proof.
  intros n d N D L. apply Z.leb_le in L.
  assert (DR : 0 < IZR d) by (apply IZR_lt; exact D). assert (NR : 0 < IZR n) by (apply IZR_lt; exact N).
  assert (LR : 10 * IZR n <= IZR d) by (rewrite <- mult_IZR; apply IZR_le; lia).
  set (z := IZR n / IZR d).
  assert (Z0 : 0 < z <= / 10).
  { unfold z. split; [apply Rmult_lt_0_compat; [lra|apply Rinv_0_lt_compat; lra]|]. apply Rmult_le_reg_r with (IZR d); [lra|]. unfold Rdiv. rewrite Rmult_assoc, Rinv_l; lra. }
  pose proof (atan_serie z Z0) as A.
  unfold serie. cbv zeta. set (T := (n * _ * 2 ^ 66)%Z). set (B := (_ * d)%Z).
  assert (BP : (0 < B)%Z) by (unfold B; repeat apply Z.mul_pos_pos; lia).
  destruct (L_Eval.zdiv_R T B BP) as [Q1 Q2].
  assert (E : IZR T / IZR B = arc z * IZR (2 ^ 66)).
  { unfold T, B. repeat (rewrite ?mult_IZR, ?minus_IZR). unfold z, arc. field. lra. }
  rewrite E in Q1, Q2. change (IZR (2 ^ 66)) with 73786976294838206464 in *. set (w := arc z) in *.
  set (u := IZR (T / B)) in *. set (a := atan z) in *. clearbody w u a. apply Rabs_le_inv in A. apply Rabs_le. lra.
Qed.

Lemma sin_sg : forall (s : bool) r, sin ((if s then -1 else 1) * r) = (if s then -1 else 1) * sin r.
Proof. intros [] r; [replace (-1 * r) with (- r) by ring; rewrite sin_neg|rewrite !Rmult_1_l]; ring. Qed.
Lemma cos_sg : forall (s : bool) r, cos ((if s then -1 else 1) * r) = cos r.
Proof. intros [] r; [replace (-1 * r) with (- r) by ring; apply cos_neg|rewrite Rmult_1_l; reflexivity]. Qed.
Lemma atan_sg : forall (s : bool) r, atan ((if s then -1 else 1) * r) = (if s then -1 else 1) * atan r.
Proof. intros [] r; [replace (-1 * r) with (- r) by ring; rewrite atan_opp|rewrite !Rmult_1_l]; ring. Qed.

Lemma small_atan : forall n d, (0 < n)%Z -> (0 < d)%Z -> (10 * n <=? d)%Z = true -> Rabs (atan (IZR n / IZR d)) <= 1.
Proof.
  intros n d N D L. apply Z.leb_le in L.
  assert (DR : 0 < IZR d) by (apply IZR_lt; exact D). assert (NR : 0 < IZR n) by (apply IZR_lt; exact N).
  assert (LR : 10 * IZR n <= IZR d) by (rewrite <- mult_IZR; apply IZR_le; lia).
  assert (Z0 : 0 < IZR n / IZR d < 1).
  { split; [apply Rmult_lt_0_compat; [lra|apply Rinv_0_lt_compat; lra]|]. apply Rmult_lt_reg_r with (IZR d); [lra|]. unfold Rdiv. rewrite Rmult_assoc, Rinv_l; lra. }
  pose proof (atan_increasing 0 (IZR n / IZR d) ltac:(lra)). pose proof (atan_increasing (IZR n / IZR d) 1 ltac:(lra)). rewrite atan_0 in H. rewrite atan_1 in H0. pose proof PI_4. apply Rabs_le. lra.
Qed.

Lemma eps52 : 0 <= bpow radix2 (-52). Proof. apply bpow_ge_0. Qed.

Lemma calc_good : good_libm calc_libm.
Proof.
  pose proof nice_good as G. split; cbn [calc_libm lm_sin lm_cos lm_acos lm_atan lm_atan2].
  - intros x Fx. destruct x as [s|s| |s m e H]; try discriminate Fx; cbn [calc_sin].
    + split; [reflexivity|]. cbn [B2R]. rewrite sin_0, Rminus_0_r, Rabs_R0. apply eps52.
    + pose proof (B2R_nd s m e H) as V. pose proof (nd_ok m e) as K. destruct (nd m e) as [n d]. destruct K as (N & D & _). cbn [fst snd] in V.
      destruct (n <=? 2184 * d)%Z eqn:L; [|apply (good_sin _ G); exact Fx].
      rewrite V, sin_sg. apply out_ok; [pose proof (SIN_bound (IZR n / IZR d)); apply Rabs_le; lra|]. apply (cossin_66 n d N D L).
  - intros x Fx. destruct x as [s|s| |s m e H]; try discriminate Fx; cbn [calc_cos].
    + destruct (FofZ_ok 1 ltac:(lia)) as (B & F & _). split; [exact F|]. rewrite B. cbn [B2R]. rewrite cos_0, Rminus_diag_eq, Rabs_R0 by reflexivity. apply eps52.
    + pose proof (B2R_nd s m e H) as V. pose proof (nd_ok m e) as K. destruct (nd m e) as [n d]. destruct K as (N & D & _). cbn [fst snd] in V.
      destruct (n <=? 2184 * d)%Z eqn:L; [|apply (good_cos _ G); exact Fx].
      rewrite V, cos_sg. replace (cos (IZR n / IZR d)) with ((if false then -1 else 1) * cos (IZR n / IZR d)) by ring. apply out_ok; [pose proof (COS_bound (IZR n / IZR d)); apply Rabs_le; lra|]. apply (cossin_66 n d N D L).
  - intros x Fx Hx. apply (good_acos _ G); assumption.
  - intros x Fx. destruct x as [s|s| |s m e H]; try discriminate Fx; cbn [calc_atan].
    + split; [reflexivity|]. cbn [B2R]. rewrite atan_0, Rminus_0_r, Rabs_R0. apply eps52.
    + pose proof (B2R_nd s m e H) as V. pose proof (nd_ok m e) as K. destruct (nd m e) as [n d]. destruct K as (N & D & _). cbn [fst snd] in V.
      destruct (10 * n <=? d)%Z eqn:L; [|apply (good_atan _ G); exact Fx].
      rewrite V, atan_sg. apply out_ok; [apply small_atan; assumption|]. apply (serie_ok n d N D L).
  - intros y x Fy Fx NZ. pose proof (good_atan2 _ G y x Fy Fx NZ) as F.
    destruct x as [s|s| |s m e H]; try exact F. destruct s; [exact F|]. destruct y as [s'|s'| |s' m' e' H']; try exact F. cbn [calc_atan2].
    pose proof (B2R_nd false m e H) as V. pose proof (nd_ok m e) as K. destruct (nd m e) as [n d]. destruct K as (N & D & _). cbn [fst snd] in V.
    pose proof (B2R_nd s' m' e' H') as V'. pose proof (nd_ok m' e') as K. destruct (nd m' e') as [n' d']. destruct K as (N' & D' & _). cbn [fst snd] in V'.
    destruct (10 * (n' * d) <=? d' * n)%Z eqn:L; [|exact F]. clear F.
    assert (DR : 0 < IZR d) by (apply IZR_lt; exact D). assert (NR : 0 < IZR n) by (apply IZR_lt; exact N). assert (DR' : 0 < IZR d') by (apply IZR_lt; exact D').
    assert (A0 : (0 < n' * d)%Z) by (apply Z.mul_pos_pos; assumption). assert (B0 : (0 < d' * n)%Z) by (apply Z.mul_pos_pos; assumption).
    assert (E : Ratan2 (B2R (B754_finite s' m' e' H' : b64)) (B2R (B754_finite false m e H : b64)) = (if s' then -1 else 1) * atan (IZR (n' * d) / IZR (d' * n))).
    { unfold Ratan2. rewrite Rlt_bool_true. 2: { rewrite V, Rmult_1_l. apply Rmult_lt_0_compat; [lra|apply Rinv_0_lt_compat; lra]. }
      rewrite <- atan_sg. f_equal. rewrite V, V', !mult_IZR. field. repeat split; lra. }
    rewrite E. destruct (out_ok s' (serie (n' * d) (d' * n)) _ (small_atan _ _ A0 B0 L) (serie_ok _ _ A0 B0 L)) as [O1 O2].
    split; [exact O1|]. exists 0%Z. split; [lia|]. rewrite Rmult_0_l, Rplus_0_r. eapply Rle_trans; [exact O2|]. apply bpow_le. lia.
Qed.
