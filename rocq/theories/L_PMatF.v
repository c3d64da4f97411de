(** * Vectors and matrices in binary64: lemmas for the properties *)

From Coq Require Import ZArith Reals Lra Lia Bool List.
From Flocq Require Import Core BinarySingleNaN.
From Verif Require Import Outcome Arith ArithR ArithF Spec_Float Spec_Accuracy M_Common.
From Verif Require Import L_ArithF L_ArithR L_FromJulianF L_Flit.
Import ListNotations.
Open Scope R_scope.

Definition uu := bpow radix2 (-53).
Definition ee := bpow radix2 (-1075).
Lemma uu_val : uu = / 9007199254740992. Proof. reflexivity. Qed.
Lemma ee_pos : 0 < ee <= 1 / 10 ^ 20.
Proof.
  split; [apply bpow_gt_0|]. apply Rle_trans with (bpow radix2 (-70)); [apply bpow_le; lia|]. unfold bpow. change (Z.pow_pos radix2 70) with (2 ^ 70)%Z. lra.
Qed.
Lemma rnd_ue : forall x, Rabs (rnd x - x) <= uu * Rabs x + ee.
Proof.
  intros x. pose proof (rnd_rel x) as H. replace (/ 2 * bpow radix2 (-52)) with uu in H by (unfold uu; change (/ 2) with (bpow radix2 (-1)); rewrite <- bpow_plus; reflexivity).
  replace (/ 2 * bpow radix2 (-1074)) with ee in H by (unfold ee; change (/ 2) with (bpow radix2 (-1)); rewrite <- bpow_plus; reflexivity). exact H.
Qed.

Lemma mul_near : forall x y, fin x = true -> fin y = true -> Rabs (B2R x) <= bpow radix2 500 -> Rabs (B2R y) <= bpow radix2 500 ->
  fin (Fmul x y) = true /\ Rabs (B2R (Fmul x y)) <= bpow radix2 1000 /\ Rabs (B2R (Fmul x y) - B2R x * B2R y) <= uu * Rabs (B2R x * B2R y) + ee.
Proof.
  intros x y Fx Fy Hx Hy.
  assert (P : Rabs (B2R x * B2R y) <= bpow radix2 1000).
  { rewrite Rabs_mult. change 1000%Z with (500 + 500)%Z. rewrite bpow_plus. apply Rmult_le_compat; try apply Rabs_pos; assumption. }
  destruct (Fmul_ok x y Fx Fy (small_le _ 1000 ltac:(lia) P)) as [V F]. split; [exact F|]. rewrite V. split.
  - apply rnd_abs_le; [apply generic_format_bpow; unfold FLT_exp; lia|exact P].
  - apply rnd_ue.
Qed.
Lemma add_near : forall x y k, (k <= 1002)%Z -> (-1000 <= k)%Z -> fin x = true -> fin y = true -> Rabs (B2R x) <= bpow radix2 k -> Rabs (B2R y) <= bpow radix2 k ->
  fin (Fadd x y) = true /\ Rabs (B2R (Fadd x y)) <= bpow radix2 (k + 1) /\ Rabs (B2R (Fadd x y) - (B2R x + B2R y)) <= uu * Rabs (B2R x + B2R y) + ee.
Proof.
  intros x y k Hk Hk' Fx Fy Hx Hy.
  assert (P : Rabs (B2R x + B2R y) <= bpow radix2 (k + 1)).
  { eapply Rle_trans; [apply Rabs_triang|]. rewrite bpow_plus. change (bpow radix2 1) with 2. lra. }
  destruct (Fadd_ok x y Fx Fy (small_le _ (k + 1) ltac:(lia) P)) as [V F]. split; [exact F|]. rewrite V. split.
  - apply rnd_abs_le; [apply generic_format_bpow; unfold FLT_exp; lia|exact P].
  - apply rnd_ue.
Qed.

Lemma dot3 : forall x0 x1 x2 y0 y1 y2 : b64,
  (fin x0 = true /\ Rabs (B2R x0) <= bpow radix2 500) -> (fin x1 = true /\ Rabs (B2R x1) <= bpow radix2 500) -> (fin x2 = true /\ Rabs (B2R x2) <= bpow radix2 500) ->
  (fin y0 = true /\ Rabs (B2R y0) <= bpow radix2 500) -> (fin y1 = true /\ Rabs (B2R y1) <= bpow radix2 500) -> (fin y2 = true /\ Rabs (B2R y2) <= bpow radix2 500) ->
  near (Fadd (Fadd (Fmul x0 y0) (Fmul x1 y1)) (Fmul x2 y2)) (B2R x0 * B2R y0 + B2R x1 * B2R y1 + B2R x2 * B2R y2)
    (4 * bpow radix2 (-53) * (Rabs (B2R x0 * B2R y0) + Rabs (B2R x1 * B2R y1) + Rabs (B2R x2 * B2R y2)) + bpow radix2 (-1072)).
Proof.
  intros x0 x1 x2 y0 y1 y2 [F0 H0] [F1 H1] [F2 H2] [G0 K0] [G1 K1] [G2 K2].
  destruct (mul_near x0 y0 F0 G0 H0 K0) as (A1 & A2 & A3). destruct (mul_near x1 y1 F1 G1 H1 K1) as (B1 & B2 & B3). destruct (mul_near x2 y2 F2 G2 H2 K2) as (C1 & C2 & C3).
  destruct (add_near _ _ 1000 ltac:(lia) ltac:(lia) A1 B1 A2 B2) as (D1 & D2 & D3).
  assert (C2' : Rabs (B2R (Fmul x2 y2)) <= bpow radix2 (1000 + 1)) by (eapply Rle_trans; [exact C2|apply bpow_le; lia]).
  destruct (add_near _ _ 1001 ltac:(lia) ltac:(lia) D1 C1 D2 C2') as (E1 & E2 & E3).
  split; [exact E1|]. fold uu. replace (bpow radix2 (-1072)) with (8 * ee) by (unfold ee; change 8 with (bpow radix2 3); rewrite <- bpow_plus; reflexivity).
  pose proof uu_val as U. pose proof ee_pos as EP.
  set (s := B2R (Fadd (Fadd _ _) _)) in *. set (t := B2R (Fadd _ _)) in *. set (p := B2R (Fmul x0 y0)) in *. set (q := B2R (Fmul x1 y1)) in *. set (r := B2R (Fmul x2 y2)) in *.
  set (a := B2R x0 * B2R y0) in *. set (b := B2R x1 * B2R y1) in *. set (c := B2R x2 * B2R y2) in *. clearbody s t p q r a b c.
  clear - A3 B3 C3 D3 E3 U EP. 
  assert (T1 : Rabs (p + q) <= (1 + uu) * (Rabs a + Rabs b) + 2 * ee).
  { replace (p + q) with (a + b + ((p - a) + (q - b))) by ring. pose proof (Rabs_triang (a + b) ((p - a) + (q - b))). pose proof (Rabs_triang a b). pose proof (Rabs_triang (p - a) (q - b)). lra. }
  assert (T2 : Rabs (t - (a + b)) <= uu * (2 + uu) * (Rabs a + Rabs b) + (3 + 2 * uu) * ee).
  { replace (t - (a + b)) with ((t - (p + q)) + ((p - a) + (q - b))) by ring. pose proof (Rabs_triang (t - (p + q)) ((p - a) + (q - b))). pose proof (Rabs_triang (p - a) (q - b)).
    assert (uu * Rabs (p + q) <= uu * ((1 + uu) * (Rabs a + Rabs b) + 2 * ee)) by (apply Rmult_le_compat_l; [rewrite U; lra|exact T1]). lra. }
  assert (T3 : Rabs (t + r) <= (1 + uu * (2 + uu)) * (Rabs a + Rabs b + Rabs c) + (4 + 2 * uu) * ee).
  { replace (t + r) with (a + b + c + ((t - (a + b)) + (r - c))) by ring. pose proof (Rabs_triang (a + b + c) ((t - (a + b)) + (r - c))). pose proof (Rabs_triang (a + b) c). pose proof (Rabs_triang a b). pose proof (Rabs_triang (t - (a + b)) (r - c)).
    pose proof (Rabs_pos c). assert (uu * Rabs c <= uu * (2 + uu) * Rabs c) by (rewrite U; lra). lra. }
  replace (s - (a + b + c)) with ((s - (t + r)) + ((t - (a + b)) + (r - c))) by ring.
  pose proof (Rabs_triang (s - (t + r)) ((t - (a + b)) + (r - c))) as W1. pose proof (Rabs_triang (t - (a + b)) (r - c)) as W2.
  assert (W3 : uu * Rabs (t + r) <= uu * ((1 + uu * (2 + uu)) * (Rabs a + Rabs b + Rabs c) + (4 + 2 * uu) * ee)) by (apply Rmult_le_compat_l; [rewrite U; lra|exact T3]).
  pose proof (Rabs_pos a). pose proof (Rabs_pos b). pose proof (Rabs_pos c).
  set (A := Rabs a) in *. set (B := Rabs b) in *. set (C := Rabs c) in *. rewrite U in *. lra.
Qed.

Lemma add_zero : forall p, fin p = true -> Rabs (B2R p) <= bpow radix2 1000 -> fin (Fadd (Flit 0 0) p) = true /\ B2R (Fadd (Flit 0 0) p) = B2R p.
Proof.
  intros p F H. destruct lit_0 as [V0 F0]. destruct (Fadd_ok (Flit 0 0) p F0 F) as [V G].
  - rewrite V0, Rplus_0_l. apply (small_le _ 1000); [lia|exact H].
  - split; [exact G|]. rewrite V, V0, Rplus_0_l. apply rnd_id. apply generic_format_B2R.
Qed.
Lemma add_val : forall x x' y, fin x = true -> fin x' = true -> B2R x = B2R x' -> fin y = true -> forall k, (k <= 1002)%Z -> (-1000 <= k)%Z -> Rabs (B2R x) <= bpow radix2 k -> Rabs (B2R y) <= bpow radix2 k ->
  B2R (Fadd x y) = B2R (Fadd x' y) /\ fin (Fadd x y) = true /\ fin (Fadd x' y) = true.
Proof.
  intros x x' y Fx Fx' E Fy k K K' Hx Hy.
  assert (P : Rabs (B2R x + B2R y) <= bpow radix2 (k + 1)).
  { eapply Rle_trans; [apply Rabs_triang|]. rewrite bpow_plus. change (bpow radix2 1) with 2. lra. }
  destruct (Fadd_ok x y Fx Fy (small_le _ (k + 1) ltac:(lia) P)) as [V F]. rewrite E in P.
  destruct (Fadd_ok x' y Fx' Fy (small_le _ (k + 1) ltac:(lia) P)) as [V' F']. rewrite V, V', E. auto.
Qed.
(** The same with the sum started at zero, as a loop does. *)
Lemma dot3_loop : forall x0 x1 x2 y0 y1 y2 : b64,
  (fin x0 = true /\ Rabs (B2R x0) <= bpow radix2 500) -> (fin x1 = true /\ Rabs (B2R x1) <= bpow radix2 500) -> (fin x2 = true /\ Rabs (B2R x2) <= bpow radix2 500) ->
  (fin y0 = true /\ Rabs (B2R y0) <= bpow radix2 500) -> (fin y1 = true /\ Rabs (B2R y1) <= bpow radix2 500) -> (fin y2 = true /\ Rabs (B2R y2) <= bpow radix2 500) ->
  near (Fadd (Fadd (Fadd (Flit 0 0) (Fmul x0 y0)) (Fmul x1 y1)) (Fmul x2 y2)) (B2R x0 * B2R y0 + B2R x1 * B2R y1 + B2R x2 * B2R y2)
    (4 * bpow radix2 (-53) * (Rabs (B2R x0 * B2R y0) + Rabs (B2R x1 * B2R y1) + Rabs (B2R x2 * B2R y2)) + bpow radix2 (-1072)).
Proof.
  intros x0 x1 x2 y0 y1 y2 X0 X1 X2 Y0 Y1 Y2. destruct (dot3 x0 x1 x2 y0 y1 y2 X0 X1 X2 Y0 Y1 Y2) as [F N].
  destruct X0 as [F0 H0], X1 as [F1 H1], X2 as [F2 H2], Y0 as [G0 K0], Y1 as [G1 K1], Y2 as [G2 K2].
  destruct (mul_near x0 y0 F0 G0 H0 K0) as (A1 & A2 & _). destruct (mul_near x1 y1 F1 G1 H1 K1) as (B1 & B2 & _). destruct (mul_near x2 y2 F2 G2 H2 K2) as (C1 & C2 & _).
  destruct (add_zero _ A1 A2) as [Z1 Z2].
  destruct (add_val _ _ (Fmul x1 y1) A1 Z1 (eq_sym Z2) B1 1000 ltac:(lia) ltac:(lia) A2 B2) as (V1 & V2 & V3).
  destruct (add_near _ _ 1000 ltac:(lia) ltac:(lia) A1 B1 A2 B2) as (_ & D2 & _).
  assert (C2' : Rabs (B2R (Fmul x2 y2)) <= bpow radix2 (1000 + 1)) by (eapply Rle_trans; [exact C2|apply bpow_le; lia]).
  destruct (add_val _ _ (Fmul x2 y2) V2 V3 V1 C1 1001 ltac:(lia) ltac:(lia) D2 C2') as (W1 & _ & W3).
  split; [exact W3|]. rewrite <- W1. exact N.
Qed.

Lemma mcompose_get : forall (A : arith) (a b : mat3 A) i j, mget (mcompose a b) i j =
  add A (add A (add A (lit A 0 0) (mul A (mget a i I0) (mget b I0 j))) (mul A (mget a i I1) (mget b I1 j))) (mul A (mget a i I2) (mget b I2 j)).
Proof. intros A a b i j. destruct i, j; reflexivity. Qed.
Lemma mapply_get : forall (A : arith) (a : mat3 A) x i, vget (mapply a x) i =
  add A (add A (mul A (mget a I0 i) (vget x I0)) (mul A (mget a I1 i) (vget x I1))) (mul A (mget a I2 i) (vget x I2)).
Proof. intros A a x i. destruct i; reflexivity. Qed.

(** C31 in binary64: for finite entries up to 2^500 in size every entry of a product is
    within four roundings of the true value, relative to the sum of the sizes of the terms
    (and 2^-1072 for underflow). *)
Lemma C31_compose_b64_pf : forall lm (a b : mat3 (b64A lm)),
  (forall i j, fin (mget (A := b64A lm) a i j) = true /\ Rabs (B2R (mget (A := b64A lm) a i j)) <= bpow radix2 500) ->
  (forall i j, fin (mget (A := b64A lm) b i j) = true /\ Rabs (B2R (mget (A := b64A lm) b i j)) <= bpow radix2 500) ->
  forall i j, let t k := B2R (mget (A := b64A lm) a i k) * B2R (mget (A := b64A lm) b k j) in
  near (mget (A := b64A lm) (mcompose (A := b64A lm) a b) i j) (t I0 + t I1 + t I2)
    (4 * bpow radix2 (-53) * (Rabs (t I0) + Rabs (t I1) + Rabs (t I2)) + bpow radix2 (-1072)).
Proof. intros lm a b Ha Hb i j. cbv zeta. rewrite mcompose_get. b64A_ops. apply dot3_loop; auto. Qed.

(** C31, any arithmetic (so binary64, NaN and infinities included): the transpose copies the
    entries. *)
Lemma C31_transpose_any_pf : forall (A : arith) (a : mat3 A) i j, mget (mtranspose a) i j = mget a j i.
Proof. intros A a i j. destruct i, j; reflexivity. Qed.

(** C32 in binary64: [apply] is the row action within the same error. *)
Lemma C32_apply_b64_partial_pf : forall lm (a : mat3 (b64A lm)) (x : vec3 (b64A lm)),
  (forall i j, fin (mget (A := b64A lm) a i j) = true /\ Rabs (B2R (mget (A := b64A lm) a i j)) <= bpow radix2 500) ->
  (forall i, fin (vget (A := b64A lm) x i) = true /\ Rabs (B2R (vget (A := b64A lm) x i)) <= bpow radix2 500) ->
  forall i, let t k := B2R (mget (A := b64A lm) a k i) * B2R (vget (A := b64A lm) x k) in
  near (vget (A := b64A lm) (mapply (A := b64A lm) a x) i) (t I0 + t I1 + t I2)
    (4 * bpow radix2 (-53) * (Rabs (t I0) + Rabs (t I1) + Rabs (t I2)) + bpow radix2 (-1072)).
Proof. intros lm a x Ha Hx i. cbv zeta. rewrite mapply_get. b64A_ops. apply dot3; auto. Qed.

Lemma near_rnd : forall x r, fin x = true -> B2R x = rnd r -> near x r (bpow radix2 (-53) * Rabs r + bpow radix2 (-1075)).
Proof. intros x r F E. split; [exact F|]. rewrite E. apply rnd_ue. Qed.

(** C63 in binary64: for finite coordinates up to 2^500 in size the scalar product, sum,
    difference and multiple of vectors. *)
Lemma C63_accuracy_b64_pf : forall lm (x y : vec3 (b64A lm)) (c : b64),
  (forall i, fin (vget (A := b64A lm) x i) = true /\ Rabs (B2R (vget (A := b64A lm) x i)) <= bpow radix2 500) ->
  (forall i, fin (vget (A := b64A lm) y i) = true /\ Rabs (B2R (vget (A := b64A lm) y i)) <= bpow radix2 500) ->
  fin c = true -> Rabs (B2R c) <= bpow radix2 500 ->
  let X i := B2R (vget (A := b64A lm) x i) in let Y i := B2R (vget (A := b64A lm) y i) in
  near (vdot (A := b64A lm) x y) (X I0 * Y I0 + X I1 * Y I1 + X I2 * Y I2)
    (4 * bpow radix2 (-53) * (Rabs (X I0 * Y I0) + Rabs (X I1 * Y I1) + Rabs (X I2 * Y I2)) + bpow radix2 (-1072)) /\
  forall i,
  near (vget (A := b64A lm) (vadd (A := b64A lm) x y) i) (X i + Y i) (bpow radix2 (-53) * Rabs (X i + Y i) + bpow radix2 (-1075)) /\
  near (vget (A := b64A lm) (vsub (A := b64A lm) x y) i) (X i - Y i) (bpow radix2 (-53) * Rabs (X i - Y i) + bpow radix2 (-1075)) /\
  near (vget (A := b64A lm) (vscale (A := b64A lm) x c) i) (B2R c * X i) (bpow radix2 (-53) * Rabs (B2R c * X i) + bpow radix2 (-1075)) /\
  near (vget (A := b64A lm) (vneg (A := b64A lm) x) i) (- X i) 0.
Proof.
  intros lm x y c Hx Hy Fc Hc X Y. split.
  - unfold vdot, X, Y. b64A_ops. change (v0 x) with (vget (A := b64A lm) x I0). change (v1 x) with (vget (A := b64A lm) x I1). change (v2 x) with (vget (A := b64A lm) x I2).
    change (v0 y) with (vget (A := b64A lm) y I0). change (v1 y) with (vget (A := b64A lm) y I1). change (v2 y) with (vget (A := b64A lm) y I2). apply dot3; auto.
  - intros i. destruct (Hx i) as [Fx Bx]. destruct (Hy i) as [Fy By].
    assert (EA : vget (A := b64A lm) (vadd (A := b64A lm) x y) i = Fadd (vget (A := b64A lm) x i) (vget (A := b64A lm) y i)) by (destruct i; reflexivity).
    assert (ES : vget (A := b64A lm) (vsub (A := b64A lm) x y) i = Fsub (vget (A := b64A lm) x i) (vget (A := b64A lm) y i)) by (destruct i; reflexivity).
    assert (EM : vget (A := b64A lm) (vscale (A := b64A lm) x c) i = Fmul c (vget (A := b64A lm) x i)) by (destruct i; reflexivity).
    assert (EN : vget (A := b64A lm) (vneg (A := b64A lm) x) i = Bopp (vget (A := b64A lm) x i)) by (destruct i; reflexivity).
    rewrite EA, ES, EM, EN. unfold X, Y. clear EA ES EM EN X Y. set (a := vget (A := b64A lm) x i) in *. set (b := vget (A := b64A lm) y i) in *. clearbody a b.
    assert (BD : bpow radix2 500 + bpow radix2 500 = bpow radix2 501) by (change 501%Z with (500 + 1)%Z; rewrite bpow_plus; change (bpow radix2 1) with 2; ring).
    split; [|split; [|split]].
    + destruct (Fadd_ok a b Fx Fy) as [V F]; [|apply near_rnd; assumption].
      apply (small_le _ 501); [lia|]. eapply Rle_trans; [apply Rabs_triang|]. change (num (b64A lm)) with b64 in *. lra.
    + destruct (Fsub_ok a b Fx Fy) as [V F]; [|apply near_rnd; assumption].
      apply (small_le _ 501); [lia|]. eapply Rle_trans; [apply Rabs_triang|]. rewrite Rabs_Ropp. lra.
    + destruct (mul_near c a Fc Fx Hc Bx) as (M1 & _ & M3). split; [exact M1|exact M3].
    + split; [rewrite is_finite_Bopp; exact Fx|]. rewrite B2R_Bopp. unfold Rminus. rewrite Rplus_opp_r, Rabs_R0. apply Rle_refl.
Qed.

(** The scalar product of (1e8, 1, 1) and (1e8, 1, 0), 1e16 + 1, is 1e16 in binary64. *)
Example C63_b64_example_pf : forall lm,
  vdot (A := b64A lm) (V3 (A := b64A lm) (Flit 1 8) (Flit 1 0) (Flit 1 0)) (V3 (A := b64A lm) (Flit 1 8) (Flit 1 0) (Flit 0 0)) = Flit 1 16.
Proof. intros lm. apply B2SF_inj. vm_compute. reflexivity. Qed.
