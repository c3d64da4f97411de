(** * Proofs that the tests of tests.rs pass, C101 *)

From Coq Require Import ZArith Reals Lra Lia Bool List Ascii String.
From Flocq Require Import Core BinarySingleNaN.
From Verif Require Import Outcome Arith ArithR ArithF Spec_Float M_Common M_Calendar M_DeltaAt M_Time M_Earth M_Frames M_Ellipsoid M_Display M_Tests Spec_Calendar Spec_Api Spec_Matrix Spec_Accuracy Spec_Tests.
From Verif Require Import L_ArithR L_ArithF L_Flit L_Matrix L_Fro L_Apx L_Calendar L_FromJulianF L_PCalendar L_PTimeOfDay L_PSeries L_PVec L_PMatrix L_PAccuracy.
Import ListNotations.
Open Scope R_scope.

Lemma each_ok : forall (X : Type) (P : X -> Prop) body l, (forall x, P x -> body x = Val tt) -> Forall P l -> each body l = Val tt.
Proof.
  intros X P body l H F. induction F as [|x l Hx _ IH]; [reflexivity|]. cbn [each]. rewrite (H x Hx). cbn [bind]. exact IH.
Qed.

Lemma eps_F : forall lm, B2R (EPSILON (A := b64A lm)) = bpow radix2 (-52) /\ fin (EPSILON (A := b64A lm)) = true.
Proof.
  intros lm. unfold EPSILON. b64A_ops. split; [|vm_compute; reflexivity].
  rewrite <- SF2R_B2SF. replace (B2SF (Flit 2220446049250313080847263336181640625 (-52))) with (SpecFloat.S754_finite false 4503599627370496 (-104)) by (vm_compute; reflexivity).
  cbn [SF2R]. unfold F2R. cbn [cond_Zopp Fnum Fexp]. 
  replace (IZR (Z.pos 4503599627370496)) with (bpow radix2 52) by (cbn; lra). rewrite <- bpow_plus. reflexivity.
Qed.
Lemma sqeps_F : forall lm, B2R (nsqrt (b64A lm) (EPSILON (A := b64A lm))) = bpow radix2 (-26) /\ fin (nsqrt (b64A lm) (EPSILON (A := b64A lm))) = true.
Proof.
  intros lm. unfold EPSILON. b64A_ops. split; [|vm_compute; reflexivity].
  rewrite <- SF2R_B2SF. replace (B2SF (Fsqrt (Flit 2220446049250313080847263336181640625 (-52)))) with (SpecFloat.S754_finite false 4503599627370496 (-78)) by (vm_compute; reflexivity).
  cbn [SF2R]. unfold F2R. cbn [cond_Zopp Fnum Fexp]. 
  replace (IZR (Z.pos 4503599627370496)) with (bpow radix2 52) by (cbn; lra). rewrite <- bpow_plus. reflexivity.
Qed.

Lemma diff_F : forall (a b : b64) t, fin a = true -> fin b = true -> format t -> t <= 1 -> Rabs (B2R a - B2R b) <= t ->
  fin (Babs (Fsub a b)) = true /\ B2R (Babs (Fsub a b)) <= t.
Proof.
  intros a b t Fa Fb Ft L H. destruct (Fsub_ok a b Fa Fb) as [V F].
  { apply (small_le _ 1); [lia|]. change (bpow radix2 1) with 2. lra. }
  rewrite is_finite_Babs, B2R_Babs, V. split; [exact F|]. apply rnd_abs_le; assumption.
Qed.
Lemma gt_false : forall (a b tol : b64), fin a = true -> fin b = true -> fin tol = true -> B2R tol <= 1 ->
  Rabs (B2R a - B2R b) <= B2R tol -> Bltb tol (Babs (Fsub a b)) = false.
Proof.
  intros a b tol Fa Fb Ft L H. destruct (diff_F a b (B2R tol) Fa Fb (format_B2R tol) L H) as [F V].
  rewrite (Bltb_correct 53 1024 _ _ Ft F). apply Rlt_bool_false. exact V.
Qed.
Lemma ge_false : forall (a b tol : b64) k, fin a = true -> fin b = true -> fin tol = true -> (-1000 <= k <= 0)%Z ->
  Rabs (B2R a - B2R b) <= bpow radix2 k -> bpow radix2 k < B2R tol -> Bleb tol (Babs (Fsub a b)) = false.
Proof.
  intros a b tol k Fa Fb Ft Hk H L. 
  assert (FK : format (bpow radix2 k)).
  { replace (bpow radix2 k) with (IZR 1 * bpow radix2 k) by ring. apply format_dyadic; lia. }
  assert (K1 : bpow radix2 k <= 1) by (change 1 with (bpow radix2 0); apply bpow_le; lia).
  destruct (diff_F a b (bpow radix2 k) Fa Fb FK K1 H) as [F V].
  rewrite (Bleb_correct 53 1024 _ _ Ft F). apply Rle_bool_false. lra.
Qed.

Lemma hms_pass_ok : forall lm f, drawn f -> hms_pass (A := b64A lm) f = Val tt.
Proof.
  intros lm f [F B]. unfold hms_pass.
  destruct (C15_hms_fields_pf lm f F ltac:(lra)) as (h & m & s & E & Hh & Hm & Fs & Bs & I & _).
  destruct (C17_fraction_roundtrip_pf lm f F ltac:(lra)) as (x & E' & Fx & D). rewrite E in E'.
  assert (X : MkHMS (A := b64A lm) h m s = x) by congruence. subst x.
  rewrite E. cbn [unwrap bind hour minute second].
  replace (h <? 24)%Z with true by (symmetry; apply Z.ltb_lt; destruct (Z.eq_dec h 24) as [->|]; [destruct I as [I _]; specialize (I eq_refl); lra|lia]).
  replace (m <? 60)%Z with true by (symmetry; apply Z.ltb_lt; lia). cbn [M_Tests.assert bind].
  destruct lit_0 as [Z0 F0]. destruct lit_60 as [Z6 F6].
  assert (S : (leb (b64A lm) (lit (b64A lm) 0 0) s && ltb (b64A lm) s (lit (b64A lm) 60 0))%bool = true).
  { b64A_ops. rewrite (Bleb_correct 53 1024 _ _ F0 Fs), (Bltb_correct 53 1024 _ _ Fs F6), Z0, Z6.
    rewrite Rle_bool_true, Rlt_bool_true by lra. reflexivity. }
  rewrite S. cbn [M_Tests.assert bind]. unfold compare_numbers. destruct (eps_F lm) as [EV EF].
  set (z := hms_to_fraction (A := b64A lm) (MkHMS (A := b64A lm) h m s)) in *.
  change (ltb (b64A lm) (EPSILON (A := b64A lm)) (nabs (b64A lm) (sub (b64A lm) f z))) with (Bltb (EPSILON (A := b64A lm)) (Babs (Fsub f z))).
  rewrite gt_false; [reflexivity|exact F|exact Fx|exact EF| |].
  - rewrite EV. change 1 with (bpow radix2 0). apply bpow_le. lia.
  - rewrite EV. rewrite Rabs_minus_sym. exact D.
Qed.

Lemma nfloor_F : forall lm x, fin x = true -> Rabs (B2R x) <= 4194304 ->
  fin (nfloor (A := b64A lm) x) = true /\ exists n : Z, B2R (nfloor (A := b64A lm) x) = IZR n /\ B2R x - 1 < IZR n <= B2R x.
Proof.
  intros lm x F B. unfold nfloor. b64A_ops. destruct (Ftrunc_full x F) as (V & FT & _). destruct lit_1 as [Z1 F1].
  pose proof (trunc_bound (B2R x) 4194304 B) as TB.
  rewrite (Bltb_correct 53 1024 _ _ F FT), V. case Rlt_bool_spec; intros H.
  - destruct (Fsub_ok (Ftrunc x) (Flit 1 0) FT F1) as [V2 F2].
    { rewrite V, Z1. rewrite <- minus_IZR. apply small_big. rewrite <- abs_IZR. apply IZR_le. lia. }
    split; [exact F2|]. exists (Ztrunc (B2R x) - 1)%Z. rewrite V2, V, Z1, <- minus_IZR, rnd_id by (apply format_IZR; lia).
    split; [reflexivity|]. rewrite minus_IZR.
    assert (N : B2R x < 0). { destruct (Rlt_le_dec (B2R x) 0) as [|P]; [assumption|]. rewrite Ztrunc_floor in H by exact P. pose proof (Zfloor_lb (B2R x)). lra. }
    rewrite Ztrunc_ceil in * by lra. pose proof (Zceil_lb (B2R x)). pose proof (Zceil_ub (B2R x)). lra.
  - split; [exact FT|]. exists (Ztrunc (B2R x)). split; [exact V|]. split; [|exact H].
    destruct (Rlt_le_dec (B2R x) 0) as [N|P].
    + rewrite Ztrunc_ceil in * by lra. pose proof (Zceil_ub (B2R x)). lra.
    + rewrite Ztrunc_floor in * by exact P. pose proof (Zfloor_ub (B2R x)). lra.
Qed.

Lemma mjd_old : mjd (-4800, 3, 1)%Z = (-2432045)%Z /\ valid_civil (-4800, 3, 1)%Z.
Proof. split; [reflexivity|]. split; vm_compute; split; discriminate. Qed.
Lemma mjd_new : mjd (2000, 1, 1)%Z = 51544%Z /\ valid_civil (2000, 1, 1)%Z.
Proof. split; [reflexivity|]. split; vm_compute; split; discriminate. Qed.

Lemma to_julian_pass : forall lm p g n, valid_civil (of_date g) -> day_count mjd_epoch (of_date g) n -> (-2432040 <= n <= 50000)%Z ->
  to_julian (A := b64A lm) p g = Val (Flit 24000005 (-1), FofZ n).
Proof.
  intros lm p g n V D H. pose proof (day_count_fun _ n V D) as E. destruct mjd_old as [M1 V1]. destruct mjd_new as [M2 V2].
  assert (L1 : civil_lt (-4800, 3, 1)%Z (of_date g)) by (apply mjd_lt_iff; [assumption|assumption|lia]).
  assert (L2 : civil_lt (of_date g) (2000, 1, 1)%Z) by (apply mjd_lt_iff; [assumption|assumption|lia]).
  unfold to_julian. rewrite to_mjd_ok.
  - cbn [bind]. rewrite <- E. reflexivity.
  - apply V.
  - destruct V as [_ V]. pose proof (month_length_bounds (year g) (month g)). lia.
  - destruct V as [V _]. unfold of_date, civil_lt in L1, L2. unfold my. destruct (Z.leb_spec (month g) 2); lia.
Qed.

Lemma calendar_pass_ok : forall lm p u, drawn2 u -> calendar_pass (A := b64A lm) p u = Val tt.
Proof.
  intros lm p [u1 f1] [[Fu Bu] [Ff Bf]]. cbn [fst snd] in *. unfold calendar_pass.
  destruct lit_mjd0 as [E0 F0]. destruct lit_djmin as [E1 F1]. destruct lit_half as [E2 F2].
  destruct (Flit_int 36500 ltac:(lia)) as [E3 F3].
  destruct (Fadd_ok (Flit 24000005 (-1)) (Flit 36500 0) F0 F3) as [V4 F4].
  { rewrite E0, E3. apply small_big. rewrite Rabs_pos_eq; lra. }
  rewrite E0, E3 in V4. replace (2400000 + / 2 + 36500) with (IZR 4873001 * bpow radix2 (-1)) in V4 by (cbn; lra).
  rewrite rnd_id in V4 by (apply format_dyadic; lia). change (bpow radix2 (-1)) with (/ 2) in V4.
  set (w := Fadd (Flit 24000005 (-1)) (Flit 36500 0)) in *.
  assert (FW : format (IZR 4873001 * / 2)) by (apply (format_dyadic 4873001 (-1)); lia).
  destruct (Fmul_ok w u1 F4 Fu) as [V5 F5].
  { rewrite V4. apply small_big. rewrite Rabs_pos_eq by nra. nra. }
  assert (B5 : 0 <= B2R (Fmul w u1) <= IZR 4873001 * / 2).
  { rewrite V5, V4. split; [apply rnd_ge; [apply (format_IZR 0); lia|nra]|apply rnd_le; [exact FW|nra]]. }
  set (v := Fmul w u1) in *.
  destruct (Fadd_ok (Flit (-32000) 0) v F1 F5) as [V6 F6].
  { rewrite E1. apply small_big. apply Rabs_le. lra. }
  assert (B6 : -32000 <= B2R (Fadd (Flit (-32000) 0) v) <= 2404501).
  { rewrite V6, E1. split; [apply rnd_ge; [apply (format_IZR (-32000)); lia|lra]|apply rnd_le; [apply (format_IZR 2404501); lia|lra]]. }
  set (x := Fadd (Flit (-32000) 0) v) in *.
  destruct (nfloor_F lm x F6 ltac:(apply Rabs_le; lra)) as (F7 & n & V7 & B7).
  assert (N1 : (-32000 <= n)%Z) by (apply Zlt_succ_le; apply lt_IZR; unfold Z.succ; rewrite plus_IZR; lra).
  assert (N2 : (n <= 2404501)%Z) by (apply le_IZR; lra).
  change (add (b64A lm) (DJ_MIN (A := b64A lm)) (mul (b64A lm) (add (b64A lm) (MJD_ZERO (A := b64A lm)) (lit (b64A lm) 36500 0)) u1)) with x.
  set (fl := nfloor (A := b64A lm) x) in *.
  destruct (Fadd_ok fl (Flit 5 (-1)) F7 F2) as [V8 F8].
  { rewrite V7, E2. apply small_big. apply IZR_le in N1, N2. apply Rabs_le. lra. }
  rewrite V7, E2 in V8. 
  assert (G : forall k : Z, (Z.abs k <= 5000000)%Z -> format (IZR k + / 2)).
  { intros k Hk. replace (IZR k + / 2) with (IZR (2 * k + 1) * bpow radix2 (-1)); [apply format_dyadic; lia|].
    rewrite plus_IZR, mult_IZR. change (bpow radix2 (-1)) with (/ 2). lra. }
  rewrite rnd_id in V8 by (apply G; lia).
  change (add (b64A lm) fl (lit (b64A lm) 5 (-1))) with (Fadd fl (Flit 5 (-1))). set (a := Fadd fl (Flit 5 (-1))) in *. clearbody a. clear fl F7 V7 B7.
  apply IZR_le in N1, N2.
  destruct (C07_from_julian_accuracy_pf lm p a f1 F8 Ff) as (g & f2 & m & E & VC & Ff2 & Bf2 & DC & AC).
  { apply Rabs_le. lra. } { apply Rabs_le. lra. } { lra. }
  assert (AC' : Rabs (2400000 + / 2 + IZR m + B2R f2 - (B2R a + B2R f1)) <= / 10 ^ 11).
  { eapply Rle_trans; [exact AC|]. 
    assert (M : Rabs (Rmin (B2R a) (B2R f1)) <= 32000) by (unfold Rmin; destruct Rle_dec; apply Rabs_le; lra).
    change (bpow radix2 (-53)) with (/ 9007199254740992). lra. }
  clear AC. apply Rabs_le_inv in AC'.
  assert (M1 : (-2432040 <= m)%Z) by (apply le_IZR; lra). assert (M2 : (m <= 50000)%Z) by (apply le_IZR; lra).
  rewrite E. cbn [bind unwrap]. rewrite (to_julian_pass lm p g m VC DC ltac:(lia)). cbn [bind].
  destruct (FofZ_ok m ltac:(lia)) as (W1 & G1 & _).
  destruct (Fadd_ok (Flit 24000005 (-1)) (FofZ m) F0 G1) as [W2 G2].
  { rewrite E0, W1. apply small_big. apply IZR_le in M1, M2. apply Rabs_le. lra. }
  rewrite E0, W1 in W2. replace (2400000 + / 2 + IZR m) with (IZR (2400000 + m) + / 2) in W2 by (rewrite plus_IZR; ring).
  rewrite rnd_id in W2 by (apply G; lia). rewrite plus_IZR in W2.
  destruct (Fadd_ok (Fadd (Flit 24000005 (-1)) (FofZ m)) f2 G2 Ff2) as [W3 G3].
  { rewrite W2. apply small_big. apply Rabs_le. lra. }
  rewrite W2 in W3.
  pose proof (rnd_error (2400000 + IZR m + / 2 + B2R f2) 22 ltac:(lia)) as R1.
  pose proof (rnd_error (B2R a + B2R f1) 22 ltac:(lia)) as R2.
  change (bpow radix2 22) with 4194304 in *. specialize (R1 ltac:(apply Rabs_le; lra)). specialize (R2 ltac:(apply Rabs_le; lra)).
  destruct (Fadd_ok a f1 F8 Ff) as [W4 G4]. { apply small_big. apply Rabs_le. lra. }
  destruct (sqeps_F lm) as [SE SF].

  match goal with |- context [leb ?A ?t ?e] => change (leb A t e) with (Bleb (nsqrt (b64A lm) (EPSILON (A := b64A lm))) (Babs (Fsub (Fadd a f1) (Fadd (Fadd (Flit 24000005 (-1)) (FofZ m)) f2)))) end.
  rewrite (ge_false _ _ _ (-27)); [reflexivity|exact G4|exact G3|exact SF|lia| |].
  - rewrite W4, W3. apply Rabs_le_inv in R1, R2. apply Rabs_le. 
    replace (bpow radix2 (-27)) with (/ 134217728) by reflexivity.
    match type of R1 with context [bpow radix2 ?k] => assert (KK : bpow radix2 k <= / 2147483648) by (change (/ 2147483648) with (bpow radix2 (-31)); apply bpow_le; lia) end.
    lra.
  - rewrite SE. apply bpow_lt. lia.
Qed.

Lemma rot_near : forall lm, good_libm lm -> forall x, fin x = true ->
  exists m, rotation (A := b64A lm) 0 x = Val m /\ mfro m (rot3 I0 (B2R x)) (/ 10 ^ 14).
Proof.
  intros lm G x F. destruct (mfro_rotation lm G I0 x (B2R x) 0) as (m & E & M).
  { split; [exact F|]. exists 0%Z. rewrite Rmult_0_l, Rplus_0_r, Rminus_diag_eq, Rabs_R0 by reflexivity. lra. }
  exists m. split; [exact E|]. eapply mfro_le; [exact M|]. change (bpow radix2 (-52)) with (/ 4503599627370496). lra.
Qed.

Lemma proper_rot : forall t, proper (rot3 I0 t).
Proof. intros t. apply (C33_rotation_pf I0 0 t). Qed.

Lemma compare_matrices_ok : forall lm (a b : mat3 (b64A lm)) tol, fin tol = true -> B2R tol <= 1 ->
  (forall i j, fin (mget (A := b64A lm) a i j) = true /\ fin (mget (A := b64A lm) b i j) = true /\
     Rabs (B2R (mget (A := b64A lm) a i j) - B2R (mget (A := b64A lm) b i j)) <= B2R tol) ->
  compare_matrices (A := b64A lm) a b tol = Val tt.
Proof.
  intros lm a b tol F L H. unfold compare_matrices. apply (each_ok _ (fun _ => True)); [|repeat constructor].
  intros i _. apply (each_ok _ (fun _ => True)); [|repeat constructor]. intros j _. destruct (H i j) as (A & B & C).
  match goal with |- context [ltb ?A ?t ?e] => change (ltb A t e) with (Bltb tol (Babs (Fsub (mget (A := b64A lm) a i j) (mget (A := b64A lm) b i j)))) end.
  rewrite gt_false by assumption. reflexivity.
Qed.

Lemma rotation_pass_ok : forall lm, good_libm lm -> forall u, drawn3 u -> rotation_pass (A := b64A lm) u = Val tt.
Proof.
  intros lm G [[u0 u1] u2] [[[F0 B0] [F1 B1]] [F2 B2]]. cbn [fst snd] in *. unfold rotation_pass.
  assert (T : forall u, fin u = true -> 0 <= B2R u < 1 -> fin (mul (b64A lm) u (c_two_pi (b64A lm))) = true).
  { intros u F B. destruct (C64_constants_pf lm) as (_ & [FP HP] & _). pose proof L_Pi.PI_bounds_24 as PB. apply Rabs_le_inv in HP. destruct (Fmul_ok u (c_two_pi (b64A lm)) F FP) as [_ K]; [|exact K].
    apply small_big. rewrite Rabs_mult. rewrite (Rabs_pos_eq (B2R u)) by lra. rewrite (Rabs_pos_eq (B2R (c_two_pi (b64A lm)))) by lra. nra. }
  pose proof (T u0 F0 B0) as T0. pose proof (T u1 F1 B1) as T1. pose proof (T u2 F2 B2) as T2. clear T.
  set (t0 := mul (b64A lm) u0 (c_two_pi (b64A lm))) in *. set (t1 := mul (b64A lm) u1 (c_two_pi (b64A lm))) in *. set (t2 := mul (b64A lm) u2 (c_two_pi (b64A lm))) in *.
  clearbody t0 t1 t2. clear u0 u1 u2 F0 F1 F2 B0 B1 B2.
  assert (N : forall t : b64, fin t = true -> fin (neg (b64A lm) t) = true /\ B2R (neg (b64A lm) t) = - B2R t).
  { intros t F. split; [exact (eq_trans (is_finite_Bopp 53 1024 t) F)|exact (B2R_Bopp 53 1024 t)]. }
  destruct (N t0 T0) as [S0 W0]. destruct (N t1 T1) as [S1 W1]. destruct (N t2 T2) as [S2 W2].
  destruct (rot_near lm G t0 T0) as (m0 & E0 & M0). destruct (rot_near lm G t1 T1) as (m1 & E1 & M1). destruct (rot_near lm G t2 T2) as (m2 & E2 & M2).
  destruct (rot_near lm G _ S0) as (k0 & E3 & K0). destruct (rot_near lm G _ S1) as (k1 & E4 & K1). destruct (rot_near lm G _ S2) as (k2 & E5 & K2).
  rewrite W0 in K0. rewrite W1 in K1. rewrite W2 in K2.
  rewrite E0, E1, E2, E3, E4, E5. cbn [bind]. 
  pose proof (fun a b a' b' f g H1 H2 => mfro_compose lm G a b (rot3 I0 a') (rot3 I0 b') f g (proper_rot a') (proper_rot b') H1 H2) as C.
  assert (R : forall s t, mcompose (A := realA) (rot3 I0 s) (rot3 I0 t) = rot3 I0 (s + t)) by (intros; apply rot3_add).
  pose proof (C _ _ _ _ _ _ M1 M2 ltac:(lra) ltac:(lra)) as A1. rewrite R in A1.
  pose proof (C _ _ _ _ _ _ M0 A1 ltac:(lra) ltac:(lra)) as A2. rewrite R in A2.
  pose proof (C _ _ _ _ _ _ K1 K0 ltac:(lra) ltac:(lra)) as A3. rewrite R in A3.
  pose proof (C _ _ _ _ _ _ K2 A3 ltac:(lra) ltac:(lra)) as A4. rewrite R in A4.
  pose proof (C _ _ _ _ _ _ A2 A4 ltac:(lra) ltac:(lra)) as A5. rewrite R in A5.
  replace (B2R t0 + (B2R t1 + B2R t2) + (- B2R t2 + (- B2R t1 + - B2R t0))) with 0 in A5 by ring.
  destruct (sqeps_F lm) as [SE SF]. apply compare_matrices_ok; [exact SF|rewrite SE; change 1 with (bpow radix2 0); apply bpow_le; lia|].
  intros i j. destruct (mfro_near _ _ _ _ i j A5) as [X Y]. destruct (mfro_near _ _ _ _ i j (mfro_identity lm)) as [X' Y'].
  split; [exact X|]. split; [exact X'|]. 
  replace (rot3 I0 0) with (midentity (A := realA)) in Y by (symmetry; apply (C33_rotation_pf I0 0 0)).
  rewrite SE. change (bpow radix2 (-26)) with (/ 67108864). apply Rabs_le_inv in Y, Y'. apply Rabs_le. lra.
Qed.

(** C101, random draws.  Whatever numbers in [0, 1) fastrand draws, and however many, the
    calendar and time-of-day tests pass in both build profiles on any platform; the rotation test
    passes with any libm accurate to 2^-52. *)
Lemma C101_random_pf : forall lm p,
  (forall draws, Forall drawn2 draws -> test_calendar (A := b64A lm) p draws = Val tt) /\
  (forall draws, Forall drawn draws -> test_hms (A := b64A lm) draws = Val tt) /\
  (good_libm lm -> forall draws, Forall drawn3 draws -> test_rotation (A := b64A lm) draws = Val tt).
Proof.
  intros lm p. split; [|split].
  - intros draws H. unfold test_calendar.
    match goal with |- bind ?e _ = _ => replace e with (Val tt) by (destruct p; vm_compute; reflexivity) end. cbn [bind].
    match goal with |- bind ?e _ = _ => replace e with (Val tt) by (destruct p; vm_compute; reflexivity) end. cbn [bind].
    apply (each_ok _ drawn2); [apply calendar_pass_ok|exact H].
  - intros draws H. apply (each_ok _ drawn); [apply hms_pass_ok|exact H].
  - intros G draws H. apply (each_ok _ drawn3); [apply rotation_pass_ok; exact G|exact H].
Qed.

Definition hour_days (lm : libm) (h : Z) : b64 :=
  let d := tdb_from_tt (A := b64A lm) (MkTT (A := b64A lm) (DJ00 (A := b64A lm)) (Fadd (FofZ 0) (Fdiv (FofZ h) (Flit 24 0)))) (Flit 0 0) in
  Fadd (Fsub (tdb_1 (A := b64A lm) d) (Flit 2451545 0)) (tdb_2 (A := b64A lm) d).
Lemma hours_small : forall lm, forallb (fun h => (fin (hour_days lm h) && Bltb (Babs (hour_days lm h)) (Flit 36525 0))%bool) (map Z.of_nat (seq 0 24)) = true.
Proof. intros lm. vm_compute. reflexivity. Qed.

(** C101, the tests without random numbers and without reference tables pass on any platform, with any
    libm whatever and any way of rounding ties in the formatter. *)
Lemma C101_fixed_pf : forall lm p tie,
  test_delta_at (A := b64A lm) p = Val tt /\ test_earth (A := b64A lm) = Val tt /\ test_geodetic_display tie (lm := lm) p = Val tt.
Proof.
  intros lm p tie. split; [destruct p; vm_compute; reflexivity|]. split; [|destruct p; vm_compute; reflexivity].
  unfold test_earth. apply (each_ok _ (fun h => (0 <= h < 24)%Z)).
  - intros h Hh.
    set (tt := MkTT (A := b64A lm) _ _). set (tdb := tdb_from_tt (A := b64A lm) tt _). set (ut := ut1_from_tt (A := b64A lm) tt _).
    destruct (C41_warning_b64_pf lm tdb) as (r & E & W & _). rewrite E. cbn [bind].
    destruct (C39_no_panic_pf (b64A lm)) as (_ & _ & _ & _ & _ & C).
    destruct (C tt ut (lit (b64A lm) 0 0) (lit (b64A lm) 0 0)) as [m Em].
    assert (N : warning (A := b64A lm) r = None).
    { apply W. subst tdb tt. generalize (hours_small lm). intros K. rewrite forallb_forall in K. specialize (K h).
      destruct (andb_prop _ _ (K ltac:(apply in_map_iff; exists (Z.to_nat h); split; [lia|apply in_seq; lia]))) as [K1 K2].
      split; [exact K1|]. rewrite (Bltb_correct 53 1024 _ _ (eq_trans (is_finite_Babs 53 1024 _) K1) (proj2 (Flit_int 36525 ltac:(lia)))), B2R_Babs, (proj1 (Flit_int 36525 ltac:(lia))) in K2.
      revert K2. case Rlt_bool_spec; [intros K2 _; exact K2|discriminate]. }
    rewrite N. cbn [M_Tests.assert bind]. rewrite Em. reflexivity.
  - apply Forall_forall. intros z Hz. apply in_map_iff in Hz. destruct Hz as (k & <- & Hk). apply in_seq in Hk. lia.
Qed.

(** Draws at both ends of the interval.  The lowest draw of the calendar test is a day of the year
    -4800, which [new] rejects.  Outside the interval the time test fails. *)
Example C101_example_pf : forall lm p,
  drawn (Fof (2 ^ 52 - 1) (-52)) /\
  test_hms (A := b64A lm) [Flit 0 0; Fof (2 ^ 52 - 1) (-52); Flit 75 (-2)] = Val tt /\
  test_calendar (A := b64A lm) p [(Flit 0 0, Fof (2 ^ 52 - 1) (-52)); (Fof (2 ^ 52 - 1) (-52), Flit 0 0)] = Val tt /\
  from_julian (A := b64A lm) p (Flit (-319995) (-1)) (Flit 0 0) = Val (Ok (MkDate (-4800) 4 15, Flit 0 0)) /\
  date_new (-4800) 4 15 = Val (Err BadYear) /\
  test_hms (A := b64A lm) [Flit 1 0] = Panic.
Proof.
  intros lm p. set (u := Fof (2 ^ 52 - 1) (-52)).
  assert (D : drawn u).
  { split; [reflexivity|]. rewrite <- SF2R_B2SF. replace (B2SF u) with (SpecFloat.S754_finite false (2 ^ 53 - 2) (-53)) by (vm_compute; reflexivity).
    unfold SF2R, F2R; cbn [cond_Zopp Fnum Fexp bpow]. change (Z.pow_pos radix2 53) with 9007199254740992%Z.
    change (Z.pos (2^53-2)) with 9007199254740990%Z. lra. }
  split; [exact D|].
  assert (D0 : drawn (Flit 0 0)) by (split; [reflexivity|]; rewrite (proj1 lit_0); lra).
  destruct (C101_random_pf lm p) as (C & H & _).
  split; [destruct p; vm_compute; reflexivity|]. split; [destruct p; vm_compute; reflexivity|].
  split; [destruct p; vm_compute; reflexivity|]. split; [reflexivity|]. vm_compute. reflexivity.
Qed.
