(** * Proofs of the angle properties C28-C30 *)

From Coq Require Import ZArith Reals Lra Lia Bool.
From Flocq Require Import Core BinarySingleNaN.
From Verif Require Import Outcome Arith ArithR ArithF Spec_Float M_Common M_Time M_Earth.
From Verif Require Import L_ArithR L_ArithF L_Flit L_FromJulianF L_Sym.
Open Scope R_scope.

Lemma Rrem_bounds : forall x y, 0 < y -> - y < Rrem x y < y /\ (0 <= x -> 0 <= Rrem x y).
Proof.
  intros x y Hy. unfold Rrem. destruct (Ztrunc_plus_frac (x / y)) as (r & E & B & P & _).
  assert (K : x - y * IZR (Ztrunc (x / y)) = y * r).
  { assert (X : x = y * (x / y)) by (field; lra). rewrite X at 1. rewrite E at 1. ring. }
  rewrite K. split; [nra|]. intros Hx. assert (0 <= r) by (apply P; apply Rmult_le_pos; [lra|apply Rlt_le, Rinv_0_lt_compat; lra]). nra.
Qed.

(** C28.  Exact arithmetic: in [0, 2 pi), a whole number of turns away. *)
Lemma C28_anp_pf : forall a, 0 <= anp (A := realA) a < 2 * PI /\
  exists k : Z, a = anp (A := realA) a + IZR k * (2 * PI).
Proof.
  intros a. unfold anp. realA_ops. rlit_in_goal. pose proof PI_RGT_0 as P.
  destruct (Rrem_bounds a (2 * PI) ltac:(lra)) as [B _].
  destruct (Rlt_bool_spec (Rrem a (2 * PI)) 0).
  - split; [lra|]. exists (Ztrunc (a / (2 * PI)) - 1)%Z. rewrite minus_IZR. unfold Rrem. ring.
  - split; [lra|]. exists (Ztrunc (a / (2 * PI)))%Z. unfold Rrem. ring.
Qed.

(** The result is the only such angle, so C28 determines [anp]. *)
Lemma C28_anp_unique_pf : forall a w, 0 <= w < 2 * PI -> (exists k : Z, a = w + IZR k * (2 * PI)) ->
  anp (A := realA) a = w.
Proof.
  intros a w Hw [k E]. destruct (C28_anp_pf a) as [B [j F]].
  pose proof PI_RGT_0 as P. change (num realA) with R in *. 
  generalize dependent (anp (A := realA) a). change (num realA) with R. intros z B F. rewrite E in F.
  assert (K : IZR (j - k) * (2 * PI) = w - z) by (rewrite minus_IZR; lra).
  assert (j - k = 0)%Z.
  { assert (-1 < IZR (j - k) < 1) as [A1 A2] by nra.
    apply (lt_IZR (-1)) in A1. apply (lt_IZR _ 1) in A2. lia. }
  rewrite H in K. lra.
Qed.

Lemma two_pi_F : fin (Flit 6283185307179586476925287 (-24)) = true /\
  6 < B2R (Flit 6283185307179586476925287 (-24)) < 7.
Proof.
  assert (B : 6.1 < Rlit 6283185307179586476925287 (-24) < 6.9).
  { unfold Rlit. change (Z.pow_pos 10 24) with 1000000000000000000000000%Z. lra. }
  destruct (Flit_neg 6283185307179586476925287 24) as [E F].
  - apply small_big. apply Rabs_le. lra.
  - split; [exact F|]. rewrite E.
    pose proof (rnd_error (Rlit 6283185307179586476925287 (-24)) 3 ltac:(lia)) as Q.
    change (bpow radix2 3) with 8 in Q. specialize (Q ltac:(apply Rabs_le; lra)).
    change (bpow radix2 (3 - 53)) with (/ 1125899906842624) in Q. apply Rabs_le_inv in Q. lra.
Qed.

(** C28, binary64: every finite angle gives a finite number in [0, TWO_PI],
    within 2^-51 of a whole number of (binary64) turns from the input. *)
Lemma C28_anp_b64_pf : forall lm a, fin a = true ->
  let T := B2R (c_two_pi (b64A lm)) in
  fin (anp (A := b64A lm) a) = true /\ 0 <= B2R (anp (A := b64A lm) a) <= T /\
  exists k : Z, Rabs (B2R a - (B2R (anp (A := b64A lm) a) + IZR k * T)) <= bpow radix2 (-51).
Proof.
  intros lm a Fa T. unfold anp. b64A_ops. destruct two_pi_F as [FT BT]. fold T in BT.
  destruct (Frem_full a (Flit 6283185307179586476925287 (-24)) Fa FT ltac:(fold T; lra)) as (R1 & R2 & _).
  fold T in R1. set (w := Frem a (Flit 6283185307179586476925287 (-24))) in *.
  destruct (Rrem_bounds (B2R a) T ltac:(lra)) as [B _]. rewrite <- R1 in B.
  assert (K0 : B2R a - (B2R w + IZR (Ztrunc (B2R a / T)) * T) = 0) by (rewrite R1; unfold Rrem; ring).
  destruct lit_0 as [E0 F0].
  rewrite (Bltb_correct 53 1024 w _ R2 F0), E0. pose proof (bpow_ge_0 radix2 (-51)).
  destruct (Rlt_bool_spec (B2R w) 0).
  - destruct (Fadd_ok w (Flit 6283185307179586476925287 (-24)) R2 FT) as [A1 A2].
    { fold T. apply small_big. apply Rabs_le. lra. }
    fold T in A1. split; [exact A2|]. rewrite A1. split.
    + split; [apply rnd_ge; [apply (format_IZR 0); lia|lra]|apply rnd_le; [apply format_B2R|lra]].
    + exists (Ztrunc (B2R a / T) - 1)%Z. rewrite minus_IZR.
      pose proof (rnd_error (B2R w + T) 3 ltac:(lia)) as Q.
      change (bpow radix2 3) with 8 in Q. specialize (Q ltac:(apply Rabs_le; lra)).
      replace (/ 2 * bpow radix2 (3 - 53)) with (bpow radix2 (-51)) in Q.
      * replace (B2R a - (rnd (B2R w + T) + (IZR (Ztrunc (B2R a / T)) - 1) * T))
          with (- (rnd (B2R w + T) - (B2R w + T))) by lra. rewrite Rabs_Ropp. exact Q.
      * change (bpow radix2 (-51)) with (/ 2251799813685248). change (bpow radix2 (3-53)) with (/ 1125899906842624). lra.
  - split; [exact R2|]. split; [lra|].
    exists (Ztrunc (B2R a / T))%Z. rewrite K0, Rabs_R0. exact H.
Qed.

(** In binary64 the upper end can be reached: anp(-1e-20) = TWO_PI. *)
Lemma C28_anp_b64_reaches_two_pi_pf : forall lm,
  anp (A := b64A lm) (Flit (-1) (-20)) = c_two_pi (b64A lm).
Proof. intros lm. apply B2SF_inj. vm_compute. reflexivity. Qed.

(** C28, binary64: NaN and the infinities give NaN. *)
Lemma C28_anp_b64_not_finite_pf : forall lm a, fin a = false -> is_nan (anp (A := b64A lm) a) = true.
Proof. intros lm [s|s| |s m e H] F; try discriminate; [destruct s|]; vm_compute; reflexivity. Qed.

(** C28 on concrete angles: three quarters of a turn backwards, and ten radians. *)
Example C28_example_pf : anp (A := realA) (- (3 * PI / 2)) = PI / 2 /\ anp (A := realA) 10 = 10 - 2 * PI.
Proof.
  pose proof PI_RGT_0. pose proof PI_4. 
  assert (3 < PI) by (pose proof PI2_3_2; unfold PI2 in *; lra).
  split; apply C28_anp_unique_pf; try lra; [exists (-1)%Z|exists 1%Z]; lra.
Qed.

(** Fraction of a turn. *)
Lemma anp_turns : forall y, anp (A := realA) (2 * PI * y) = 2 * PI * (y - IZR (Zfloor y)).
Proof.
  intros y. pose proof PI_RGT_0. pose proof (Zfloor_lb y). pose proof (Zfloor_ub y).
  apply C28_anp_unique_pf; [nra|]. exists (Zfloor y). ring.
Qed.

(** C29.  Exact arithmetic: 2 pi times the fractional part of the IAU 2000
    Earth rotation angle, a function of the total date only. *)
Lemma C29_era_total_pf : forall dj1 dj2,
  let th := 0.7790572732640 + 1.00273781191135448 * (dj1 + dj2 - 2451545) in
  rotation_angle (A := realA) (MkUT1 (A := realA) dj1 dj2) = 2 * PI * (th - IZR (Zfloor th)) /\
  0 <= rotation_angle (A := realA) (MkUT1 (A := realA) dj1 dj2) < 2 * PI.
Proof.
  intros dj1 dj2 th. unfold rotation_angle, DJ00. cbn [ut1_1 ut1_2].
  assert (G : forall d1 d2, d1 + d2 = dj1 + dj2 ->
    anp (A := realA) (2 * PI * (Rrem d1 1 + Rrem d2 1 + Rlit 7790572732640 (-13) +
       Rlit 273781191135448 (-17) * (d1 + (d2 - Rlit 2451545 0)))) = 2 * PI * (th - IZR (Zfloor th))).
  { intros d1 d2 E. rewrite anp_turns. f_equal. rewrite !Rrem_1. rlit_in_goal.
    set (y := _ + _). 
    assert (Y : y = th + IZR (2451545 - Ztrunc d1 - Ztrunc d2)).
    { unfold y, th. rewrite !minus_IZR. lra. }
    clearbody y. rewrite Y.
    assert (F : Zfloor (th + IZR (2451545 - Ztrunc d1 - Ztrunc d2)) = (Zfloor th + (2451545 - Ztrunc d1 - Ztrunc d2))%Z).
    { apply Zfloor_unique_frac. rewrite plus_IZR. pose proof (Zfloor_lb th). pose proof (Zfloor_ub th). lra. }
    rewrite F, plus_IZR. lra. }
  assert (E : rotation_angle (A := realA) (MkUT1 (A := realA) dj1 dj2) = 2 * PI * (th - IZR (Zfloor th))).
  { unfold rotation_angle, DJ00. cbn [ut1_1 ut1_2]. realA_ops.
    destruct (Rlt_bool dj1 dj2); apply G; ring. }
  unfold rotation_angle, DJ00 in E. cbn [ut1_1 ut1_2] in E.
  split; [exact E|]. rewrite E. pose proof PI_RGT_0. pose proof (Zfloor_lb th). pose proof (Zfloor_ub th). nra.
Qed.

(** C29, in particular: any two splits of the same date give the same angle. *)
Lemma C29_era_split_pf : forall dj1 dj2 dj1' dj2', dj1 + dj2 = dj1' + dj2' ->
  rotation_angle (A := realA) (MkUT1 (A := realA) dj1 dj2) =
  rotation_angle (A := realA) (MkUT1 (A := realA) dj1' dj2').
Proof.
  intros dj1 dj2 dj1' dj2' E.
  rewrite (proj1 (C29_era_total_pf dj1 dj2)), (proj1 (C29_era_total_pf dj1' dj2')). rewrite E. reflexivity.
Qed.

Lemma Fmul_nan_r : forall x, Fmul x B754_nan = B754_nan.
Proof. intros [| [|] | |]; reflexivity. Qed.

Definition era_ord (d1 d2 : b64) : b64 :=
  Fmul (Flit 6283185307179586476925287 (-24))
    (Fadd (Fadd (Fadd (Frem d1 (Flit 1 0)) (Frem d2 (Flit 1 0))) (Flit 7790572732640 (-13)))
       (Fmul (Flit 273781191135448 (-17)) (Fadd d1 (Fsub d2 (Flit 2451545 0))))).

Lemma era_nan : forall d1 d2, is_nan d1 = true \/ is_nan d2 = true -> era_ord d1 d2 = B754_nan.
Proof.
  intros d1 d2 H. unfold era_ord.
  assert (E : Fadd d1 (Fsub d2 (Flit 2451545 0)) = B754_nan).
  { destruct H as [H|H].
    - destruct d1; try discriminate. apply Fadd_nan_l.
    - destruct d2; try discriminate. rewrite Fsub_nan_l. apply Fadd_nan_r. }
  rewrite E, Fmul_nan_r, Fadd_nan_r, Fmul_nan_r. reflexivity.
Qed.

(** C30.  Bit-identical when the two parts are exchanged, for all binary64 values. *)
Lemma C30_era_symmetric_pf : forall lm a b,
  rotation_angle (A := b64A lm) (MkUT1 (A := b64A lm) a b) =
  rotation_angle (A := b64A lm) (MkUT1 (A := b64A lm) b a).
Proof.
  intros lm a b.
  assert (G : forall x y, rotation_angle (A := b64A lm) (MkUT1 (A := b64A lm) x y) =
    anp (A := b64A lm) (if Bltb x y then era_ord x y else era_ord y x)).
  { intros x y. unfold rotation_angle. cbn [ut1_1 ut1_2]. unfold DJ00. b64A_ops.
    destruct (Bltb x y); reflexivity. }
  rewrite !G. f_equal.
  destruct (is_nan a) eqn:Na.
  { destruct a; try discriminate. rewrite !era_nan by (auto; right; reflexivity).
    destruct (Bltb b B754_nan), (Bltb B754_nan b); reflexivity. }
  destruct (is_nan b) eqn:Nb.
  { destruct b; try discriminate. rewrite !era_nan by (auto; right; reflexivity).
    destruct (Bltb a B754_nan), (Bltb B754_nan a); reflexivity. }
  assert (L : forall x y : b64, is_nan x = false -> is_nan y = false -> Bltb x y = negb (Bleb y x)).
  { intros x y Nx Ny. pose proof (Bcompare_swap _ _ y x) as K.
    unfold Bcompare in K. unfold Bleb, Bltb, SpecFloat.SFleb, SpecFloat.SFltb.
    rewrite K. destruct (SpecFloat.SFcompare (B2SF y) (B2SF x)) as [[| |]|] eqn:E; try reflexivity.
    exfalso. clear K. destruct x as [[|]|[|]| |[|] ? ? ?], y as [[|]|[|]| |[|] ? ? ?]; discriminate. }
  rewrite (L a b Na Nb), (L b a Nb Na).
  destruct (Bleb b a) eqn:L1, (Bleb a b) eqn:L2; cbn [negb]; try reflexivity.
  - destruct (Bleb_antisym _ _ L1 L2) as [->|(Zb & Za & Fb & Fa)]; [reflexivity|].
    destruct (zero_cases a Fa Za) as [s ->]. destruct (zero_cases b Fb Zb) as [t ->].
    apply B2SF_inj. destruct s, t; vm_compute; reflexivity.
  - rewrite (Bleb_total _ _ Na Nb L2) in L1. discriminate.
Qed.

(** C29 at 2000-01-01 12:00 UT1, for two splits of the date. *)
Example C29_example_pf :
  rotation_angle (A := realA) (MkUT1 (A := realA) 2451545 0) = 2 * PI * 0.7790572732640 /\
  rotation_angle (A := realA) (MkUT1 (A := realA) 2400000.5 51544.5) = 2 * PI * 0.7790572732640.
Proof.
  split.
  - rewrite (proj1 (C29_era_total_pf _ _)). 
    rewrite (Zfloor_unique_frac _ 0) by lra. lra.
  - rewrite (proj1 (C29_era_total_pf _ _)). 
    rewrite (Zfloor_unique_frac _ 0) by lra. lra.
Qed.

(** C30 on a quarter of a day after the epoch. *)
Example C30_example_pf : forall lm,
  B2SF (rotation_angle (A := b64A lm) (MkUT1 (A := b64A lm) (Flit 2451545 0) (Flit 25 (-2)))) =
    SpecFloat.S754_finite false 6732801362896320 (-55) /\
  B2SF (rotation_angle (A := b64A lm) (MkUT1 (A := b64A lm) (Flit 25 (-2)) (Flit 2451545 0))) =
    SpecFloat.S754_finite false 6732801362896320 (-55).
Proof. intros lm. split; vm_compute; reflexivity. Qed.
