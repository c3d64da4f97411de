(** * Geodetic to geocentric on any ellipsoid in binary64: lemmas for the properties *)

From Coq Require Import ZArith Reals Lra Lia Bool List.
From Flocq Require Import Core BinarySingleNaN.
From Verif Require Import Outcome Arith ArithR ArithF Spec_Float Spec_Accuracy M_Common M_Ellipsoid Spec_Matrix Spec_Ell.
From Verif Require Import L_ArithF L_ArithR L_Flit L_Apx L_ApxMod L_ApxAngle L_ApxFrames L_ApxGeo.
From Verif Require L_PMatF L_PAccGeo L_PMatrix.
Import ListNotations.
Open Scope R_scope.

(** ** The unitless part *)
Section Any.
Context {A : arith}.
Local Notation lit := (lit A).
Local Open Scope num_scope.
Definition anyW (f : num A) : num A := let w := lit 1 0 - f in w * w.
Definition anyD (f sp cp : num A) : num A := cp * cp + anyW f * sp * sp.
End Any.
Lemma any_val : forall (A : arith) (c : EllipsoidConverter A) a f l ph h, cv_el c = MkEll a f ->
  geodetic_to_geocentric c (MkGeod l ph h) =
  let sp := nsin A ph in let cp := ncos A ph in let s := nsin A l in let k := ncos A l in
  let d := anyD f sp cp in let ac := div A a (nsqrt A d) in let r := mul A (add A ac h) cp in
  if ltb A (lit A 0 0) d then Ok (V3 (mul A r k) (mul A r s) (mul A (add A (mul A (anyW f) ac) h) sp)) else Err BadCoordinates.
Proof. intros A c a f l ph h E. unfold geodetic_to_geocentric. rewrite E. reflexivity. Qed.
Lemma any_eval : forall (A : arith) (x0 x1 x2 : num A),
  eval A [x0] (anyW (A := exprA) (EVar 0)) = anyW x0 /\
  eval A [x0; x1; x2] (anyD (A := exprA) (EVar 0) (EVar 1) (EVar 2)) = anyD x0 x1 x2.
Proof. intros. repeat split. Qed.

Definition b_f : bnd := B 0 (one / 8) 0.
Definition b_tr : bnd := b_unit (2 ^ 76).
Definition b_W : bnd := Eval vm_compute in match bound [b_f] (anyW (A := exprA) (EVar 0)) with Some b => b | None => B 0 0 0 end.
Definition b_D : bnd := Eval vm_compute in match bound [b_f; b_tr; b_tr] (anyD (A := exprA) (EVar 0) (EVar 1) (EVar 2)) with Some b => B (49 * one / 64) one (er b) | None => B 0 0 0 end.
Definition b_S : bnd := Eval vm_compute in match b_sqrt b_D with Some b => b | None => B 0 0 0 end.

Lemma apx_f : forall f, fin f = true -> 0 <= B2R f <= 1 / 8 -> apx f (B2R f) b_f.
Proof.
  intros f F H. split; [exact F|]. unfold b_f. cbn [lo hi er]. rewrite val_0. split; [split; [apply H|]|rewrite Rminus_diag_eq by reflexivity; rewrite Rabs_R0; apply Rle_refl].
  replace (val (one / 8)) with (1 / 8); [apply H|]. replace (one / 8)%Z with (2 ^ 125)%Z by (vm_compute; reflexivity).
  apply Rmult_eq_reg_r with 8; [|lra]. replace (1 / 8 * 8) with (val one) by (rewrite val_one; lra). unfold val.
  rewrite Rmult_assoc, (Rmult_comm uu), <- Rmult_assoc, <- mult_IZR. reflexivity.
Qed.
Lemma near_W : forall lm, good_libm lm -> forall f, fin f = true -> 0 <= B2R f <= 1 / 8 -> near (anyW (A := b64A lm) f) ((1 - B2R f) ^ 2) (34 / 10 ^ 17).
Proof.
  intros lm G f F H. pose proof (apx_f f F H) as AF.
  assert (E : bound [b_f] (anyW (A := exprA) (EVar 0)) = Some b_W) by (vm_compute; reflexivity).
  pose proof (bound_ok lm G _ _ _ (apxl_cons AF apxl_nil) _ _ E) as K.
  change (apx (anyW (A := b64A lm) f) (anyW (A := realA) (B2R f)) b_W) in K.
  replace ((1 - B2R f) ^ 2) with (anyW (A := realA) (B2R f)) by (unfold anyW; realA_ops; cbv zeta; rewrite (Rlit_0 1); ring).
  split; [apply K|]. replace (34 / 10 ^ 17) with (IZR 34 / IZR (10 ^ 17)) by (change (10 ^ 17)%Z with 100000000000000000%Z; lra).
  apply (apx_err _ _ _ _ _ K); vm_compute; reflexivity.
Qed.
Definition truD (f t : R) : R := cos t ^ 2 + (1 - f) ^ 2 * sin t ^ 2.
Lemma truD_range : forall f t, 0 <= f <= 1 / 8 -> 49 / 64 <= truD f t <= 1.
Proof.
  intros f t H. unfold truD. pose proof (sin2_cos2 t) as Q. unfold Rsqr in Q.
  assert (0 <= sin t * sin t) by (apply Rle_0_sqr). assert (0 <= cos t * cos t) by (apply Rle_0_sqr).
  set (s := sin t * sin t) in *. set (c := cos t * cos t) in *.
  replace (cos t ^ 2) with c by (unfold c; ring). replace (sin t ^ 2) with s by (unfold s; ring).
  assert (49 / 64 <= (1 - f) ^ 2 <= 1) by (simpl; nra). set (w := (1 - f) ^ 2) in *. clearbody s c w. split; nra.
Qed.
Lemma near_S : forall lm, good_libm lm -> forall f ph, fin f = true -> fin ph = true -> 0 <= B2R f <= 1 / 8 ->
  let d := anyD (A := b64A lm) f (lm_sin lm ph) (lm_cos lm ph) in
  Bltb (Flit 0 0) d = true /\ near (Fsqrt d) (R_sqrt.sqrt (truD (B2R f) (B2R ph))) (215 / 10 ^ 17).
Proof.
  intros lm G f ph F Fp H d. pose proof (apx_f f F H) as AF.
  destruct (L_PAccGeo.apx_any ph Fp) as (bp & Ap & Ep).
  assert (TR : b_trig bp = b_tr) by (unfold b_trig, b_tr, b_unit; rewrite Ep; reflexivity).
  pose proof (apx_sin lm G _ _ _ Ap) as Sp. pose proof (apx_cos lm G _ _ _ Ap) as Cp. rewrite TR in Sp, Cp. clear TR Ap Ep bp.
  assert (E : exists b, bound [b_f; b_tr; b_tr] (anyD (A := exprA) (EVar 0) (EVar 1) (EVar 2)) = Some b /\ er b = er b_D) by (vm_compute; eexists; split; reflexivity).
  destruct E as (b & E & Eb).
  pose proof (bound_ok lm G _ _ _ (apxl_cons AF (apxl_cons Sp (apxl_cons Cp apxl_nil))) _ _ E) as K.
  change (apx d (anyD (A := realA) (B2R f) (sin (B2R ph)) (cos (B2R ph))) b) in K.
  replace (anyD (A := realA) (B2R f) (sin (B2R ph)) (cos (B2R ph))) with (truD (B2R f) (B2R ph)) in K
    by (unfold anyD, anyW, truD; realA_ops; cbv zeta; rewrite (Rlit_0 1); ring).
  pose proof (truD_range (B2R f) (B2R ph) H) as TD.
  assert (K2 : apx d (truD (B2R f) (B2R ph)) b_D).
  { replace b_D with (B (49 * one / 64) one (er b)) by (rewrite Eb; vm_compute; reflexivity). apply (apx_refine _ _ _ _ _ K). rewrite val_one. split; [|apply TD].
    replace (val (49 * one / 64)) with (49 / 64); [apply TD|].
    replace (49 * one / 64)%Z with (49 * 2 ^ 122)%Z by (vm_compute; reflexivity).
    apply Rmult_eq_reg_r with 64; [|lra]. replace (49 / 64 * 64) with (val (49 * one)) by (rewrite val_int; lra). unfold val.
    rewrite Rmult_assoc, (Rmult_comm uu), <- Rmult_assoc, <- mult_IZR. reflexivity. }
  split.
  - destruct K2 as (Fd & _ & Hd). destruct lit_0 as [L0 F0]. rewrite Bltb_correct by assumption. apply Rlt_bool_true. rewrite L0.
    assert (val (er b_D) <= 1 / 2) by (apply (val_dec (er b_D) 1 2); [lia|vm_compute; discriminate]). apply Rabs_le_inv in Hd. lra.
  - assert (ES : b_sqrt b_D = Some b_S) by (vm_compute; reflexivity). pose proof (apx_sqrt _ _ _ _ K2 ES) as KS. split; [apply KS|].
    replace (215 / 10 ^ 17) with (IZR 215 / IZR (10 ^ 17)) by (change (10 ^ 17)%Z with 100000000000000000%Z; lra).
    apply (apx_err _ _ _ _ _ KS); vm_compute; reflexivity.
Qed.

(** ** The part with a length in it: errors relative to a length [M] *)
Section Scaled.
Variable M : R.
Hypothesis HM : bpow radix2 (-400) <= M <= bpow radix2 402.
Definition sapx (x : b64) (r b e : R) : Prop := fin x = true /\ Rabs r <= b * M /\ Rabs (B2R x - r) <= e * M.
Let k0 := / 10 ^ 30.
Lemma M_pos : 0 < M. Proof. eapply Rlt_le_trans; [apply (bpow_gt_0 radix2 (-400))|apply HM]. Qed.
Lemma ee_M : bpow radix2 (-1075) <= k0 * M.
Proof.
  apply Rle_trans with (bpow radix2 (-200) * bpow radix2 (-400)).
  - rewrite <- bpow_plus. apply bpow_le. lia.
  - apply Rmult_le_compat; try apply bpow_ge_0; [|apply HM]. unfold k0.
    apply Rle_trans with (bpow radix2 (-100)); [apply bpow_le; lia|]. unfold bpow. change (Z.pow_pos radix2 100) with (2 ^ 100)%Z. 
    apply Rinv_le_contravar; [lra|]. change (2 ^ 100)%Z with 1267650600228229401496703205376%Z. lra.
Qed.
Lemma small_M : forall v t, Rabs v <= t * M -> t <= 64 -> small v.
Proof.
  intros v t H T. apply (small_le _ 408); [lia|]. eapply Rle_trans; [exact H|]. change 408%Z with (6 + 402)%Z. rewrite bpow_plus.
  change (bpow radix2 6) with 64. pose proof M_pos. apply Rle_trans with (64 * M); [apply Rmult_le_compat_r; lra|]. apply Rmult_le_compat_l; [lra|apply HM].
Qed.
Lemma rnd_M : forall v t, Rabs v <= t * M -> Rabs (rnd v - v) <= (/ 9007199254740992 * t + k0) * M.
Proof.
  intros v t H. pose proof (L_PMatF.rnd_ue v) as R. rewrite L_PMatF.uu_val in R. pose proof ee_M as E. change (bpow radix2 (-1075)) with L_PMatF.ee in E.
  assert (/ 9007199254740992 * Rabs v <= / 9007199254740992 * (t * M)) by (apply Rmult_le_compat_l; lra). lra.
Qed.
Lemma s_add : forall x y r s b1 e1 b2 e2, sapx x r b1 e1 -> sapx y s b2 e2 -> b1 + e1 + b2 + e2 <= 64 ->
  sapx (Fadd x y) (r + s) (b1 + b2) (e1 + e2 + / 9007199254740992 * (b1 + e1 + b2 + e2) + k0).
Proof.
  intros x y r s b1 e1 b2 e2 (Fx & Rx & Ex) (Fy & Ry & Ey) T.
  assert (H : Rabs (B2R x + B2R y) <= (b1 + e1 + b2 + e2) * M).
  { replace (B2R x + B2R y) with ((r + s) + ((B2R x - r) + (B2R y - s))) by ring.
    pose proof (Rabs_triang (r + s) ((B2R x - r) + (B2R y - s))). pose proof (Rabs_triang r s). pose proof (Rabs_triang (B2R x - r) (B2R y - s)). lra. }
  destruct (Fadd_ok x y Fx Fy (small_M _ _ H T)) as [V F]. split; [exact F|]. split.
  - pose proof (Rabs_triang r s). lra.
  - rewrite V. pose proof (rnd_M _ _ H) as Q. replace (rnd (B2R x + B2R y) - (r + s)) with ((rnd (B2R x + B2R y) - (B2R x + B2R y)) + ((B2R x - r) + (B2R y - s))) by ring.
    pose proof (Rabs_triang (rnd (B2R x + B2R y) - (B2R x + B2R y)) ((B2R x - r) + (B2R y - s))). pose proof (Rabs_triang (B2R x - r) (B2R y - s)). lra.
Qed.
(** times a pure number *)
Lemma s_mul : forall x c r q b1 e1 b2 e2, sapx x r b1 e1 -> 0 <= b1 -> 0 <= e1 -> fin c = true -> Rabs q <= b2 -> Rabs (B2R c - q) <= e2 -> (b1 + e1) * (b2 + e2) <= 64 ->
  sapx (Fmul x c) (r * q) (b1 * b2) (e1 * (b2 + e2) + b1 * e2 + / 9007199254740992 * ((b1 + e1) * (b2 + e2)) + k0).
Proof.
  intros x c r q b1 e1 b2 e2 (Fx & Rx & Ex) Pb Pe Fc Rc Ec T. pose proof M_pos as PM.
  assert (HX : Rabs (B2R x) <= (b1 + e1) * M). { replace (B2R x) with (r + (B2R x - r)) by ring. pose proof (Rabs_triang r (B2R x - r)). lra. }
  assert (HC : Rabs (B2R c) <= b2 + e2). { replace (B2R c) with (q + (B2R c - q)) by ring. pose proof (Rabs_triang q (B2R c - q)). lra. }
  assert (H : Rabs (B2R x * B2R c) <= (b1 + e1) * (b2 + e2) * M).
  { rewrite Rabs_mult. replace ((b1 + e1) * (b2 + e2) * M) with (((b1 + e1) * M) * (b2 + e2)) by ring. apply Rmult_le_compat; try apply Rabs_pos; assumption. }
  destruct (Fmul_ok x c Fx Fc (small_M _ _ H T)) as [V F]. split; [exact F|]. split.
  - rewrite Rabs_mult. replace (b1 * b2 * M) with ((b1 * M) * b2) by ring. apply Rmult_le_compat; try apply Rabs_pos; assumption.
  - rewrite V. pose proof (rnd_M _ _ H) as Q.
    replace (rnd (B2R x * B2R c) - r * q) with ((rnd (B2R x * B2R c) - B2R x * B2R c) + ((B2R x - r) * B2R c + r * (B2R c - q))) by ring.
    pose proof (Rabs_triang (rnd (B2R x * B2R c) - B2R x * B2R c) ((B2R x - r) * B2R c + r * (B2R c - q))) as T1. pose proof (Rabs_triang ((B2R x - r) * B2R c) (r * (B2R c - q))) as T2.
    rewrite (Rabs_mult (B2R x - r)), (Rabs_mult r) in T2.
    assert (Rabs (B2R x - r) * Rabs (B2R c) <= (e1 * M) * (b2 + e2)) by (apply Rmult_le_compat; try apply Rabs_pos; assumption).
    assert (Rabs r * Rabs (B2R c - q) <= (b1 * M) * e2) by (apply Rmult_le_compat; try apply Rabs_pos; assumption). lra.
Qed.
End Scaled.

Lemma s_weaken : forall M x r b e b' e', 0 < M -> sapx M x r b e -> b <= b' -> e <= e' -> sapx M x r b' e'.
Proof. intros M x r b e b' e' HM (F & H1 & H2) Hb He. split; [exact F|]. split; [apply Rle_trans with (b * M); [exact H1|apply Rmult_le_compat_r; lra]|apply Rle_trans with (e * M); [exact H2|apply Rmult_le_compat_r; lra]]. Qed.

(** C70 on any ellipsoid of revolution with a flattening of at most 1/8 and a radius from 2^-400
    to 2^400, at any longitude and latitude and any height up to 2^400: each coordinate is
    within 5e-15 (a + |h|) of the exact position. *)
Lemma C70_any_ellipsoid_pf : forall lm, good_libm lm -> forall c a f lo la h,
  conv_new (A := b64A lm) (MkEll (A := b64A lm) a f) = Ok c ->
  fin a = true -> fin f = true -> fin lo = true -> fin la = true -> fin h = true ->
  bpow radix2 (-400) <= B2R a <= bpow radix2 400 -> 0 <= B2R f <= 1 / 8 -> Rabs (B2R h) <= bpow radix2 400 ->
  exists v, geodetic_to_geocentric (A := b64A lm) c (MkGeod (A := b64A lm) lo la h) = Ok v /\
  forall i, near (vget (A := b64A lm) v i) (coord (ellipsoid_at (B2R a) (B2R f) (B2R lo) (B2R la) (B2R h)) i)
    (5 / 10 ^ 15 * (B2R a + Rabs (B2R h))).
Proof.
  intros lm G c a f lo la h Hc Fa Ff Fo Fl Fh Ba Bf Bh. apply conv_el in Hc.
  rewrite (any_val (b64A lm) c a f lo la h Hc). cbv zeta.
  destruct (near_S lm G f la Ff Fl Bf) as [P [FS ES]]. cbv zeta in P. destruct (near_W lm G f Ff Bf) as [FW EW].
  destruct (good_sin lm G la Fl) as [Fsp Esp]. destruct (good_cos lm G la Fl) as [Fcp Ecp].
  destruct (good_sin lm G lo Fo) as [Fs Es]. destruct (good_cos lm G lo Fo) as [Fk Ek].
  pose proof (SIN_bound (B2R la)) as Bsp. pose proof (COS_bound (B2R la)) as Bcp. pose proof (SIN_bound (B2R lo)) as Bs. pose proof (COS_bound (B2R lo)) as Bk.
  change (nsin (b64A lm)) with (lm_sin lm). change (ncos (b64A lm)) with (lm_cos lm). b64A_ops. rewrite P.
  set (D := anyD (A := b64A lm) f (lm_sin lm la) (lm_cos lm la)) in *. set (W := anyW (A := b64A lm) f) in *.
  set (sp := lm_sin lm la) in *. set (cp := lm_cos lm la) in *. set (s := lm_sin lm lo) in *. set (k := lm_cos lm lo) in *.
  set (S := Fsqrt D) in *. clearbody S W. clear P D. clearbody sp cp s k.
  unfold ellipsoid_at. cbv zeta. change (cos (B2R la) ^ 2 + (1 - B2R f) ^ 2 * sin (B2R la) ^ 2) with (truD (B2R f) (B2R la)).
  set (T := R_sqrt.sqrt (truD (B2R f) (B2R la))) in *.
  assert (BT : 7 / 8 <= T <= 1).
  { pose proof (truD_range (B2R f) (B2R la) Bf) as TD. unfold T. split.
    - rewrite <- (sqrt_pow2 (7 / 8)) by lra. apply sqrt_le_1; lra.
    - rewrite <- sqrt_1. apply sqrt_le_1; lra. }
  clearbody T. set (w := (1 - B2R f) ^ 2) in *. assert (Bw : 0 <= w <= 1) by (unfold w; simpl; nra). clearbody w.
  change (bpow radix2 (-52)) with (/ 4503599627370496) in *.
  set (M := B2R a + Rabs (B2R h)). pose proof (Rabs_pos (B2R h)) as Ph. pose proof (bpow_gt_0 radix2 (-400)) as P4.
  assert (HM : bpow radix2 (-400) <= M <= bpow radix2 402).
  { unfold M. split; [lra|]. change 402%Z with (2 + 400)%Z. rewrite bpow_plus. change (bpow radix2 2) with 4. pose proof (bpow_gt_0 radix2 400). lra. }
  pose proof (M_pos M HM) as PM.
  assert (Aac : sapx M (Fdiv a S) (B2R a / T) (8 / 7) (295 / 10 ^ 17)).
  { apply Rabs_le_inv in ES. assert (BS : 0.874 <= B2R S <= 1.01) by lra.
    assert (RT : forall t, 0.874 <= t -> 0 <= B2R a / t <= 1.1442 * B2R a).
    { intros t Ht. split; [apply Rmult_le_pos; [lra|apply Rlt_le, Rinv_0_lt_compat; lra]|]. apply Rmult_le_reg_r with t; [lra|]. unfold Rdiv. rewrite Rmult_assoc, Rinv_l by lra.
      assert (1 <= 1.1442 * t) by lra. assert (B2R a * 1 <= B2R a * (1.1442 * t)) by (apply Rmult_le_compat_l; lra). lra. }
    destruct (RT (B2R S) ltac:(lra)) as [Q1 Q2].
    assert (HV : Rabs (B2R a / B2R S) <= 1.1442 * M) by (rewrite Rabs_pos_eq by exact Q1; unfold M; lra).
    destruct (Fdiv_ok a S Fa ltac:(lra) (small_M M HM _ _ HV ltac:(lra))) as [V F]. split; [exact F|]. split.
    - destruct (RT T ltac:(lra)) as [R1 _]. rewrite Rabs_pos_eq by exact R1. apply Rmult_le_reg_r with T; [lra|]. unfold Rdiv at 1. rewrite Rmult_assoc, Rinv_l by lra.
      assert (1 <= 8 / 7 * T) by lra. assert (B2R a * 1 <= B2R a * (8 / 7 * T)) by (apply Rmult_le_compat_l; lra). assert (0 <= Rabs (B2R h) * (8 / 7 * T)) by (apply Rmult_le_pos; lra). unfold M. lra.
    - rewrite V. pose proof (rnd_M M HM _ _ HV) as Q.
      replace (rnd (B2R a / B2R S) - B2R a / T) with ((rnd (B2R a / B2R S) - B2R a / B2R S) + (B2R a / B2R S - B2R a / T)) by ring.
      eapply Rle_trans; [apply Rabs_triang|].
      assert (DQ : Rabs (B2R a / B2R S - B2R a / T) <= 2.82 / 10 ^ 15 * M).
      { replace (B2R a / B2R S - B2R a / T) with (B2R a / B2R S * ((T - B2R S) / T)) by (field; lra).
        rewrite Rabs_mult. assert (RR : Rabs ((T - B2R S) / T) <= 8 / 7 * (215 / 10 ^ 17)).
        { unfold Rdiv at 1. rewrite Rabs_mult, Rmult_comm. apply Rmult_le_compat; try apply Rabs_pos.
          - rewrite Rabs_pos_eq by (apply Rlt_le, Rinv_0_lt_compat; lra). replace (8 / 7) with (/ (7 / 8)) by lra. apply Rinv_le_contravar; lra.
          - apply Rabs_le; lra. }
        apply Rle_trans with ((1.1442 * M) * (8 / 7 * (215 / 10 ^ 17))); [apply Rmult_le_compat; try apply Rabs_pos; assumption|]. lra. }
      assert (K0 : / 10 ^ 30 <= 1 / 10 ^ 20) by lra.
      assert ((/ 9007199254740992 * 1.1442 + / 10 ^ 30) * M <= (1.28 / 10 ^ 16) * M) by (apply Rmult_le_compat_r; lra). lra. }
  assert (Ah : sapx M h (B2R h) 1 0).
  { split; [exact Fh|]. split; [unfold M; lra|]. rewrite Rminus_diag_eq by reflexivity. rewrite Rabs_R0. lra. }
  assert (K0 : 0 < / 10 ^ 30 <= 1 / 10 ^ 25) by lra.
  assert (Ar : sapx M (Fadd (Fdiv a S) h) (B2R a / T + B2R h) 2.143 (3.2 / 10 ^ 15)).
  { eapply s_weaken; [exact PM|apply (s_add M HM _ _ _ _ _ _ _ _ Aac Ah); lra|lra|lra]. }
  assert (Ar2 : sapx M (Fmul (Fadd (Fdiv a S) h) cp) ((B2R a / T + B2R h) * cos (B2R la)) 2.143 (3.93 / 10 ^ 15)).
  { eapply s_weaken; [exact PM|apply (s_mul M HM _ cp _ (cos (B2R la)) _ _ 1 (/ 4503599627370496) Ar); [lra|lra|exact Fcp|apply Rabs_le; lra|exact Ecp|lra]|lra|lra]. }
  assert (AX : forall t q, fin t = true -> -1 <= q <= 1 -> Rabs (B2R t - q) <= / 4503599627370496 ->
    sapx M (Fmul (Fmul (Fadd (Fdiv a S) h) cp) t) ((B2R a / T + B2R h) * cos (B2R la) * q) 2.143 (5 / 10 ^ 15)).
  { intros t q Ft Bq Et. eapply s_weaken; [exact PM|apply (s_mul M HM _ t _ q _ _ 1 (/ 4503599627370496) Ar2); [lra|lra|exact Ft|apply Rabs_le; lra|exact Et|lra]|lra|lra]. }
  assert (Aw : sapx M (Fmul W (Fdiv a S)) (w * (B2R a / T)) (8 / 7) (3.5 / 10 ^ 15)).
  { rewrite L_PMatrix.Fmul_comm, (Rmult_comm w). eapply s_weaken; [exact PM|apply (s_mul M HM _ W _ w _ _ 1 (34 / 10 ^ 17) Aac); [lra|lra|exact FW|apply Rabs_le; lra|exact EW|lra]|lra|lra]. }
  assert (Az : sapx M (Fadd (Fmul W (Fdiv a S)) h) (w * (B2R a / T) + B2R h) 2.143 (3.75 / 10 ^ 15)).
  { eapply s_weaken; [exact PM|apply (s_add M HM _ _ _ _ _ _ _ _ Aw Ah); lra|lra|lra]. }
  assert (AZ : sapx M (Fmul (Fadd (Fmul W (Fdiv a S)) h) sp) ((w * (B2R a / T) + B2R h) * sin (B2R la)) 2.143 (5 / 10 ^ 15)).
  { eapply s_weaken; [exact PM|apply (s_mul M HM _ sp _ (sin (B2R la)) _ _ 1 (/ 4503599627370496) Az); [lra|lra|exact Fsp|apply Rabs_le; lra|exact Esp|lra]|lra|lra]. }
  eexists. split; [reflexivity|]. intros i. unfold coord. destruct i; cbn [vget v0 v1 v2].
  - destruct (AX k _ Fk Bk Ek) as (F1 & _ & F2). split; [exact F1|exact F2].
  - destruct (AX s _ Fs Bs Es) as (F1 & _ & F2). split; [exact F1|exact F2].
  - destruct AZ as (F1 & _ & F2). split; [exact F1|exact F2].
Qed.

(** C70 for a Jupiter-like ellipsoid (71492 km, flattening 1/16), 100 km above the equator at
    longitude 0, in metres: within 4e-7 m. *)
Example C70_any_example_pf : forall lm, good_libm lm -> exists c v,
  conv_new (A := b64A lm) (MkEll (A := b64A lm) (Flit 71492000 0) (Flit 625 (-4))) = Ok c /\
  geodetic_to_geocentric (A := b64A lm) c (MkGeod (A := b64A lm) (Flit 0 0) (Flit 0 0) (Flit 100000 0)) = Ok v /\
  near (v0 (A := b64A lm) v) 71592000 (4 / 10 ^ 7).
Proof.
  intros lm G.
  assert (C : exists c, conv_new (A := b64A lm) (MkEll (A := b64A lm) (Flit 71492000 0) (Flit 625 (-4))) = Ok c).
  { unfold conv_new. cbn [el_a el_f]. b64A_ops.
    match goal with |- exists c, (if ?b then _ else _) = _ => replace b with false by (vm_compute; reflexivity) end.
    match goal with |- exists c, (if ?b then _ else _) = _ => replace b with false by (vm_compute; reflexivity) end.
    cbv zeta.
    match goal with |- exists c, (if ?b then _ else _) = _ => replace b with false by (vm_compute; reflexivity) end.
    eexists. reflexivity. }
  destruct C as (c & Hc). 
  destruct (Flit_int 71492000 ltac:(lia)) as [V1 F1]. destruct (Flit_int 100000 ltac:(lia)) as [V2 F2]. destruct lit_0 as [V0 F0].
  assert (VF : B2R (Flit 625 (-4)) = 1 / 16 /\ fin (Flit 625 (-4)) = true) by flit_prove. destruct VF as [VF FF].
  destruct (C70_any_ellipsoid_pf lm G c _ _ (Flit 0 0) (Flit 0 0) (Flit 100000 0) Hc F1 FF F0 F0 F2) as (v & Hv & K).
  - rewrite V1. split; [apply Rle_trans with (bpow radix2 0); [apply bpow_le; lia|change (bpow radix2 0) with 1; lra]|apply Rle_trans with (bpow radix2 30); [change (bpow radix2 30) with 1073741824; lra|apply bpow_le; lia]].
  - rewrite VF. lra.
  - rewrite V2, Rabs_pos_eq by lra. apply Rle_trans with (bpow radix2 30); [change (bpow radix2 30) with 1073741824; lra|apply bpow_le; lia].
  - exists c, v. split; [exact Hc|]. split; [exact Hv|]. destruct (K I0) as [Fv Ev]. split; [exact Fv|].
    rewrite V0, V1, V2, VF in Ev. unfold coord, ellipsoid_at in Ev. cbv zeta in Ev. cbn [vget v0] in Ev. rewrite sin_0, cos_0 in Ev.
    replace (1 ^ 2 + (1 - 1 / 16) ^ 2 * 0 ^ 2) with 1 in Ev by ring. rewrite sqrt_1, (Rabs_pos_eq 100000) in Ev by lra.
    replace ((71492000 / 1 + 100000) * 1 * 1) with 71592000 in Ev by lra. change (v0 v) with (vget (A := b64A lm) v I0). eapply Rle_trans; [exact Ev|]. lra.
Qed.
