(** * Lemmas for C97: geodetic coordinates exist and are unique on any ellipsoid of flattening
    up to 0.006; round trips of the conversions in binary64 *)

From Coq Require Import ZArith Reals Lra Lia Bool List Psatz.
From Flocq Require Import Core BinarySingleNaN.
From Verif Require Import Outcome Arith ArithR ArithF Spec_Float Spec_Accuracy M_Common M_Ellipsoid Spec_Matrix Spec_Ell.
From Verif Require Import L_ArithF L_ArithR L_Flit L_PMatrix L_Frames L_Rel L_Ellipsoid L_GeodesyEl.
From Verif Require L_Apx L_ApxMod L_ApxEl L_Pi L_PGeoAny L_PGdAny L_PEllipsoid L_Geodesy L_PGeoTrip L_Halley.
Open Scope R_scope.

(** ** From the unit ellipsoid *)
Lemma el_scale : forall a f lo la h, 0 < a -> let w := ellipsoid_at 1 f lo la (h / a) in
  ellipsoid_at a f lo la h = V3 (A := realA) (a * v0 (A := realA) w) (a * v1 (A := realA) w) (a * v2 (A := realA) w).
Proof.
  intros a f lo la h Ha w. unfold w, ellipsoid_at. cbv zeta. cbn [v0 v1 v2]. set (g := R_sqrt.sqrt _). clearbody g. unfold Rdiv. rewrite Rmult_1_l.
  assert (E : a * (h * / a) = h) by (field; lra). f_equal.
  - rewrite <- E at 1. ring.
  - rewrite <- E at 1. ring.
  - rewrite <- E at 1. ring.
Qed.

Lemma v3_inj : forall x y z x' y' z', V3 (A := realA) x y z = V3 (A := realA) x' y' z' -> x = x' /\ y = y' /\ z = z'.
Proof.
  intros x y z x' y' z' E. assert (EX := f_equal (fun v => v0 (A := realA) v) E). assert (EY := f_equal (fun v => v1 (A := realA) v) E). assert (EZ := f_equal (fun v => v2 (A := realA) v) E).
  cbn [v0 v1 v2] in EX, EY, EZ. split; [exact EX|split; [exact EY|exact EZ]].
Qed.

Lemma v3_eta : forall w : vec3 realA, w = V3 (A := realA) (v0 (A := realA) w) (v1 (A := realA) w) (v2 (A := realA) w).
Proof. intros [x y z]. reflexivity. Qed.

Lemma norm_scale : forall a x y z, 0 < a -> sqrt ((a * x) ^ 2 + (a * y) ^ 2 + (a * z) ^ 2) = a * sqrt (x ^ 2 + y ^ 2 + z ^ 2).
Proof.
  intros a x y z Ha. replace ((a * x) ^ 2 + (a * y) ^ 2 + (a * z) ^ 2) with (a * a * (x ^ 2 + y ^ 2 + z ^ 2)) by ring.
  rewrite sqrt_mult_alt by (apply Rlt_le, Rmult_lt_0_compat; exact Ha). rewrite sqrt_square by lra. reflexivity.
Qed.

(** C97: on any ellipsoid of flattening up to 0.006, every point 0.92 equatorial radii or more
    from the centre has geodetic coordinates. *)
Lemma C97_exists_pf : forall a f X Y Z, 0 < a -> 0 <= f <= 0.006 -> 0.92 * a <= sqrt (X ^ 2 + Y ^ 2 + Z ^ 2) -> exists lo la h,
  - PI < lo <= PI /\ - (PI / 2) <= la <= PI / 2 /\ - (a / 12) <= h <= sqrt (X ^ 2 + Y ^ 2 + Z ^ 2) /\ ellipsoid_at a f lo la h = V3 (A := realA) X Y Z.
Proof.
  intros a f X Y Z Ha Hf HR.
  assert (EX : X = a * (X / a)) by (field; lra). assert (EY : Y = a * (Y / a)) by (field; lra). assert (EZ : Z = a * (Z / a)) by (field; lra).
  set (x := X / a) in *. set (y := Y / a) in *. set (z := Z / a) in *. clearbody x y z. subst X Y Z. rewrite norm_scale in * by exact Ha.
  assert (HR' : 0.92 <= sqrt (x ^ 2 + y ^ 2 + z ^ 2)) by (apply (Rmult_le_reg_l a); [exact Ha|]; lra).
  destruct (el_exists f Hf x y z HR') as (lo & la & h & Hlo & Hla & Hh & E).
  exists lo, la, (a * h). split; [exact Hlo|]. split; [exact Hla|]. split.
  - split; [|apply Rmult_le_compat_l; lra]. apply Rle_trans with (a * -0.083); [lra|apply Rmult_le_compat_l; lra].
  - rewrite el_scale by exact Ha. cbv zeta. replace (a * h / a) with h by (field; lra). rewrite E. cbn [v0 v1 v2]. reflexivity.
Qed.

(** C97: geodetic coordinates above the depth of 0.89 equatorial radii are unique (the
    longitude away from the axis). *)
Lemma C97_unique_pf : forall a f lo la h lo' la' h', 0 < a -> 0 <= f <= 0.006 -> - PI < lo <= PI -> - PI < lo' <= PI ->
  - (PI / 2) <= la <= PI / 2 -> - (PI / 2) <= la' <= PI / 2 -> - (0.89 * a) <= h -> - (0.89 * a) <= h' ->
  ellipsoid_at a f lo la h = ellipsoid_at a f lo' la' h' -> la = la' /\ h = h' /\ (cos la <> 0 -> lo = lo').
Proof.
  intros a f lo la h lo' la' h' Ha Hf Hlo Hlo' Hla Hla' Hh Hh' E.
  assert (EH : h = a * (h / a)) by (field; lra). assert (EH' : h' = a * (h' / a)) by (field; lra).
  rewrite (el_scale a f lo la h Ha), (el_scale a f lo' la' h' Ha) in E. cbv zeta in E. apply v3_inj in E. destruct E as (E0 & E1 & E2).
  apply Rmult_eq_reg_l in E0; [|lra]. apply Rmult_eq_reg_l in E1; [|lra]. apply Rmult_eq_reg_l in E2; [|lra].
  set (n := h / a) in *. set (n' := h' / a) in *. clearbody n n'. subst h h'.
  assert (N : -0.89 <= n) by (apply (Rmult_le_reg_l a); [exact Ha|]; lra). assert (N' : -0.89 <= n') by (apply (Rmult_le_reg_l a); [exact Ha|]; lra).
  destruct (el_unique f Hf lo la n lo' la' n' Hlo Hlo' Hla Hla' N N') as (A & B & C).
  - rewrite (v3_eta (ellipsoid_at 1 f lo la n)), (v3_eta (ellipsoid_at 1 f lo' la' n')), E0, E1, E2. reflexivity.
  - split; [exact A|]. split; [rewrite B; reflexivity|exact C].
Qed.

(** C97, binary64: every point from 0.92 to 989 equatorial radii from the centre has geodetic
    coordinates, and the computed ones are within 1.1e-9 rad, and 3.1e-15 of the distance, of them. *)
Lemma C97_point_pf : forall lm, good_libm lm -> forall c a f x y z,
  conv_new (A := b64A lm) (MkEll (A := b64A lm) a f) = Ok c ->
  fin a = true -> fin f = true -> / 10 ^ 6 <= B2R a <= 10 ^ 12 -> B2R f <= 0.006 ->
  fin x = true -> fin y = true -> fin z = true ->
  let r := sqrt (B2R x ^ 2 + B2R y ^ 2 + B2R z ^ 2) in 0.92 * B2R a <= r <= 989 * B2R a -> exists lo la h,
  - PI < lo <= PI /\ - (PI / 2) <= la <= PI / 2 /\ - (B2R a / 12) <= h <= r /\ ellipsoid_at (B2R a) (B2R f) lo la h = V3 (A := realA) (B2R x) (B2R y) (B2R z) /\
  let g := geocentric_to_geodetic (A := b64A lm) c (V3 (A := b64A lm) x y z) in
  near (phi (A := b64A lm) g) la (1.1 / 10 ^ 9) /\ near (height (A := b64A lm) g) h ((Rabs h + 1.01 * B2R a) * (3.1 / 10 ^ 15)) /\
  (/ 10 ^ 300 <= B2R x ^ 2 + B2R y ^ 2 -> near_angle (elong (A := b64A lm) g) lo (bpow radix2 (-51))).
Proof.
  intros lm G c a f x y z Hc Fa Ff Ba Bf Fx Fy Fz r HR.
  assert (AP : 0 < B2R a) by (assert (0 < / 10 ^ 6) by (apply Rinv_0_lt_compat, pow_lt; lra); lra).
  pose proof (L_PGdAny.conv_ok_f lm a f c Hc Ff) as F0.
  destruct (C97_exists_pf (B2R a) (B2R f) _ _ _ AP ltac:(lra) (proj1 HR)) as (lo & la & h & Hlo & Hla & Hh & E). fold r in Hh.
  exists lo, la, h. split; [exact Hlo|]. split; [exact Hla|]. split; [exact Hh|]. split; [exact E|]. intros g.
  assert (Hh' : - (B2R a / 12) <= h <= 990 * B2R a) by lra.
  destruct (L_PGdAny.C96_everywhere_pf lm G c a f x y z lo la h Hc Fa Ff Ba Bf Fx Fy Fz Hlo Hla Hh' E) as [A1 A2].
  destruct (L_PGdAny.C96_geodetic_pf lm G c a f x y z lo la h Hc Fa Ff Ba Bf Fx Fy Fz Hlo Hla Hh' E) as (_ & _ & A3).
  split; [exact A1|]. split; [exact A2|exact A3].
Qed.

(** ** Geocentric to geodetic and back *)
Lemma any_fwd : forall a f, 0 < a -> 0 <= f <= 0.006 -> forall lo la h lo' la' h',
  let e := (1.026 * a + Rabs h) * Rabs (la' - la) + Rabs (h' - h) in
  let w := ellipsoid_at a f lo la h in let w' := ellipsoid_at a f lo' la' h' in let n := Rabs ((a / gg f la + h) * cos la) in
  Rabs (v0 (A := realA) w' - v0 (A := realA) w) <= e + n * Rabs (cos lo' - cos lo) /\
  Rabs (v1 (A := realA) w' - v1 (A := realA) w) <= e + n * Rabs (sin lo' - sin lo) /\
  Rabs (v2 (A := realA) w' - v2 (A := realA) w) <= e.
Proof.
  intros a f Ha Hf lo la h lo' la' h' e w w' n. unfold w, w'. rewrite (el_scale a f lo la h Ha), (el_scale a f lo' la' h' Ha). cbv zeta. cbn [v0 v1 v2].
  destruct (el_fwd f Hf lo la (h / a) lo' la' (h' / a)) as (W0 & W1 & W2). cbv zeta in W0, W1, W2.
  set (u := ellipsoid_at 1 f lo la (h / a)) in *. set (u' := ellipsoid_at 1 f lo' la' (h' / a)) in *.
  assert (EE : a * ((1.026 * 1 + Rabs (h / a)) * Rabs (la' - la) + Rabs (h' / a - h / a)) = e).
  { unfold e. replace (h' / a - h / a) with ((h' - h) * / a) by (field; lra). unfold Rdiv. rewrite !Rabs_mult, (Rabs_pos_eq (/ a)) by (apply Rlt_le, Rinv_0_lt_compat; exact Ha). set (b := Rabs (la' - la)). set (q := Rabs h). set (t := Rabs (h' - h)). clearbody b q t. field. lra. }
  assert (EN : a * Rabs ((1 / gg f la + h / a) * cos la) = n).
  { unfold n. rewrite <- (Rabs_pos_eq a) at 1 by lra. rewrite <- Rabs_mult. f_equal. pose proof (gg_pos f Hf la). field. lra. }
  assert (SC : forall p q, Rabs (a * p - a * q) = a * Rabs (p - q)) by (intros p q; rewrite <- Rmult_minus_distr_l, Rabs_mult, (Rabs_pos_eq a) by lra; reflexivity).
  rewrite !SC, <- EE, <- EN. 
  set (e0 := (1.026 * 1 + Rabs (h / a)) * Rabs (la' - la) + Rabs (h' / a - h / a)) in *. set (n0 := Rabs ((1 / gg f la + h / a) * cos la)) in *.
  split; [|split].
  - replace (a * e0 + a * n0 * Rabs (cos lo' - cos lo)) with (a * (e0 + n0 * Rabs (cos lo' - cos lo))) by ring. apply Rmult_le_compat_l; [lra|exact W0].
  - replace (a * e0 + a * n0 * Rabs (sin lo' - sin lo)) with (a * (e0 + n0 * Rabs (sin lo' - sin lo))) by ring. apply Rmult_le_compat_l; [lra|exact W1].
  - apply Rmult_le_compat_l; [lra|exact W2].
Qed.

(** The computed longitude is a finite number. *)
Lemma fin_elong : forall lm, good_libm lm -> forall (c : EllipsoidConverter (b64A lm)) x y z, fin x = true -> fin y = true ->
  B2R x * B2R x + B2R y * B2R y <= 10 ^ 40 ->
  fin (elong (A := b64A lm) (geocentric_to_geodetic (A := b64A lm) c (V3 (A := b64A lm) x y z))) = true.
Proof.
  intros lm G c x y z Fx Fy HP. unfold geocentric_to_geodetic. cbn [v0 v1 v2]. unfold sq. b64A_ops.
  destruct (L_PGdAny.p2_F x y Fx Fy HP) as (Fp & Pp & Ep). set (p2 := Fadd (Fmul x x) (Fmul y y)) in *.
  destruct (gc2gd_phi_height (A := b64A lm) c p2 (Babs z)) as [ph h]. cbn [elong].
  destruct lit_0 as [L0 LF]. rewrite Bltb_correct by assumption. rewrite L0.
  destruct (Rlt_bool_spec 0 (B2R p2)) as [L|L]; [|exact LF].
  apply (good_atan2 lm G y x Fy Fx).
  destruct (Req_dec (B2R x) 0) as [E1|E1]; [|left; exact E1]. right. intros E2. rewrite E1, E2 in Ep.
  destruct (Fmul_ok x x Fx Fx) as [M1 F1]; [rewrite E1; unfold small; rewrite Rmult_0_r, Rabs_R0; apply bpow_ge_0|].
  destruct (Fmul_ok y y Fy Fy) as [M2 F2]; [rewrite E2; unfold small; rewrite Rmult_0_r, Rabs_R0; apply bpow_ge_0|].
  assert (RZ : rnd (0 * 0) = 0) by (rewrite Rmult_0_r; apply rnd_id, generic_format_0). rewrite E1, RZ in M1. rewrite E2, RZ in M2.
  destruct (Fadd_ok _ _ F1 F2) as [M3 _]; [rewrite M1, M2; unfold small; rewrite Rplus_0_r, Rabs_R0; apply bpow_ge_0|].
  fold p2 in M3. rewrite M3, M1, M2, Rplus_0_r in L. rewrite (rnd_id 0 (generic_format_0 _ _)) in L. lra.
Qed.

Lemma inv_gg : forall f, 0 <= f <= 0.006 -> forall t, 1 <= / gg f t <= / 0.99.
Proof.
  intros f Hf t. pose proof (L_ApxEl.g_range f Hf t) as R. fold (gg f t) in R. split; [rewrite <- Rinv_1 at 1|]; apply Rinv_le; lra.
Qed.

Lemma trip : forall lm, good_libm lm -> forall c a f x y z lo la h e1 e2,
  conv_new (A := b64A lm) (MkEll (A := b64A lm) a f) = Ok c ->
  fin a = true -> fin f = true -> / 10 ^ 6 <= B2R a <= 10 ^ 12 -> B2R f <= 0.006 ->
  fin x = true -> fin y = true -> fin z = true ->
  - PI < lo <= PI -> - (PI / 2) <= la <= PI / 2 -> - (B2R a / 12) <= h <= 990 * B2R a ->
  ellipsoid_at (B2R a) (B2R f) lo la h = V3 (A := realA) (B2R x) (B2R y) (B2R z) ->
  let g := geocentric_to_geodetic (A := b64A lm) c (V3 (A := b64A lm) x y z) in
  near (phi (A := b64A lm) g) la e1 -> near (height (A := b64A lm) g) h e2 -> e2 <= 0.001 * B2R a ->
  (/ 10 ^ 300 <= B2R x ^ 2 + B2R y ^ 2 -> near_angle (elong (A := b64A lm) g) lo (bpow radix2 (-51))) ->
  exists v, geodetic_to_geocentric (A := b64A lm) c g = Ok v /\
  let e := (1.026 * B2R a + Rabs h) * e1 + e2 + 5.5 / 10 ^ 15 * (B2R a * 1.02 + Rabs h) in
  near (v0 (A := b64A lm) v) (B2R x) e /\ near (v1 (A := b64A lm) v) (B2R y) e /\ near (v2 (A := b64A lm) v) (B2R z) e.
Proof.
  intros lm G c a f x y z lo la h e1 e2 Hc Fa Ff Ba Bf Fx Fy Fz Hlo Hla Hh E g P1 P2 E2 P3.
  pose proof (L_PGdAny.conv_ok_f lm a f c Hc Ff) as F0. assert (Hf : 0 <= B2R f <= 0.006) by lra.
  set (A0 := B2R a) in *. assert (AP : 0 < A0) by (assert (0 < / 10 ^ 6) by (apply Rinv_0_lt_compat, pow_lt; lra); lra).
  destruct P1 as [FP P1]. destruct P2 as [FH P2].
  pose proof (inv_gg _ Hf la) as IG. pose proof (gg_pos _ Hf la) as GP. set (G0 := gg (B2R f) la) in *.
  assert (NN : B2R x * B2R x + B2R y * B2R y = ((A0 / G0 + h) * cos la) * ((A0 / G0 + h) * cos la)).
  { rewrite (el_scale A0 _ lo la h AP) in E. cbv zeta in E. apply v3_inj in E. destruct E as (EX & EY & _). rewrite el_gg in EX, EY. cbn [v0 v1] in EX, EY. fold G0 in EX, EY.
    rewrite <- EX, <- EY. transitivity (((A0 / G0 + h) * cos la) * ((A0 / G0 + h) * cos la) * (sin lo * sin lo + cos lo * cos lo)); [field; lra|]. rewrite sc1. ring. }
  set (N := (A0 / G0 + h) * cos la) in *.
  assert (AG : A0 <= A0 / G0 <= 1.02 * A0).
  { unfold Rdiv. split; [rewrite <- (Rmult_1_r A0) at 1; apply Rmult_le_compat_l; lra|]. apply Rle_trans with (A0 * / 0.99); [apply Rmult_le_compat_l; lra|lra]. }
  assert (HA : Rabs h <= 990 * A0) by (apply Rabs_le; lra). pose proof (Rabs_pos h) as HP.
  assert (NB : Rabs N <= A0 * 1.02 + Rabs h).
  { unfold N. rewrite <- (Rmult_1_r (A0 * 1.02 + Rabs h)). apply L_Halley.abs_mul_bd; [|apply Rabs_le; pose proof (COS_bound la); lra].
    eapply Rle_trans; [apply Rabs_triang|]. rewrite (Rabs_pos_eq (A0 / G0)) by lra. lra. }
  assert (FE : fin (elong (A := b64A lm) g) = true).
  { apply (fin_elong lm G c x y z Fx Fy). rewrite NN. apply Rle_trans with (10 ^ 16 * 10 ^ 16); [|lra].
    rewrite <- (Rabs_pos_eq (N * N)) by apply Rle_0_sqr. apply L_Halley.abs_mul_bd; lra. }
  assert (H1 : Rabs (B2R (height (A := b64A lm) g)) <= Rabs h + e2).
  { replace (B2R (height (A := b64A lm) g)) with ((B2R (height (A := b64A lm) g) - h) + h) by ring. eapply Rle_trans; [apply Rabs_triang|]. lra. }
  destruct (L_PGeoAny.C70_any_ellipsoid_pf lm G c a f (elong (A := b64A lm) g) (phi (A := b64A lm) g) (height (A := b64A lm) g) Hc Fa Ff FE FP FH) as (v & V & A).
  { fold A0. split; [apply Rle_trans with (/ 10 ^ 6); [|lra]|apply Rle_trans with (10 ^ 12); [lra|]].
    - apply Rle_trans with (bpow radix2 (-20)); [apply bpow_le; lia|]. change (bpow radix2 (-20)) with (/ 1048576). lra.
    - apply Rle_trans with (bpow radix2 40); [change (bpow radix2 40) with 1099511627776; lra|apply bpow_le; lia]. }
  { lra. }
  { apply Rle_trans with (10 ^ 16); [lra|]. apply Rle_trans with (bpow radix2 60); [change (bpow radix2 60) with 1152921504606846976; lra|apply bpow_le; lia]. }
  exists v. split; [replace g with (MkGeod (A := b64A lm) (elong (A := b64A lm) g) (phi (A := b64A lm) g) (height (A := b64A lm) g)) by (destruct g; reflexivity); exact V|].
  fold A0 in A.
  pose proof (A I0) as A1. pose proof (A I1) as A2. pose proof (A I2) as A3. clear A.
  unfold coord, vget in A1, A2, A3. set (w' := ellipsoid_at _ _ _ _ _) in A1, A2, A3.
  destruct (any_fwd A0 (B2R f) AP Hf lo la h (B2R (elong (A := b64A lm) g)) (B2R (phi (A := b64A lm) g)) (B2R (height (A := b64A lm) g))) as (W0 & W1 & W2).
  cbv zeta in W0, W1, W2. fold w' in W0, W1, W2. fold G0 in W0, W1, W2. fold N in W0, W1, W2. rewrite E in W0, W1, W2. cbn [v0 v1 v2] in W0, W1, W2.
  set (q := (1.026 * A0 + Rabs h) * Rabs (B2R (phi (A := b64A lm) g) - la) + Rabs (B2R (height (A := b64A lm) g) - h)) in *.
  assert (Q : q <= (1.026 * A0 + Rabs h) * e1 + e2).
  { unfold q. apply Rplus_le_compat; [apply Rmult_le_compat_l; [lra|exact P1]|exact P2]. }
  assert (TR : Rabs N * Rabs (cos (B2R (elong (A := b64A lm) g)) - cos lo) <= 4.5 / 10 ^ 16 * (A0 * 1.02 + Rabs h) /\ Rabs N * Rabs (sin (B2R (elong (A := b64A lm) g)) - sin lo) <= 4.5 / 10 ^ 16 * (A0 * 1.02 + Rabs h)).
  { destruct (Rle_or_lt (/ 10 ^ 300) (B2R x ^ 2 + B2R y ^ 2)) as [L|L].
    - destruct (P3 L) as (_ & k & HK). destruct (L_ApxMod.trig_turns lo k) as [T1 T2]. rewrite <- T1, <- T2.
      assert (B51 : bpow radix2 (-51) <= 4.5 / 10 ^ 16) by (cbn -[IZR]; lra).
      split; (rewrite (Rmult_comm (4.5 / 10 ^ 16)); apply Rmult_le_compat; try apply Rabs_pos; [exact NB|]).
      + eapply Rle_trans; [apply L_Apx.cos_lip|]. lra.
      + eapply Rle_trans; [apply L_Apx.sin_lip|]. lra.
    - assert (N2 : N * N <= / 10 ^ 300) by (rewrite <- NN; replace (B2R x * B2R x + B2R y * B2R y) with (B2R x ^ 2 + B2R y ^ 2) by ring; lra).
      assert (NS : Rabs N <= / 10 ^ 24).
      { apply Rnot_lt_le. intros L2. assert (I : 0 < / 10 ^ 24) by (apply Rinv_0_lt_compat, pow_lt; lra).
        assert (/ 10 ^ 24 * / 10 ^ 24 < Rabs N * Rabs N) by (apply Rmult_le_0_lt_compat; lra). rewrite <- Rabs_mult, (Rabs_pos_eq (N * N)) in H by apply Rle_0_sqr.
        assert (/ 10 ^ 300 <= / 10 ^ 48) by (apply Rinv_le; [apply pow_lt; lra|apply Rle_pow; [lra|lia]]).
        assert (/ 10 ^ 48 = / 10 ^ 24 * / 10 ^ 24) by (rewrite <- Rinv_mult; f_equal; ring). lra. }
      set (b := B2R (elong (A := b64A lm) g)).
      assert (C2 : Rabs (cos b - cos lo) <= 2) by (pose proof (COS_bound b); pose proof (COS_bound lo); apply Rabs_le; lra).
      assert (S2 : Rabs (sin b - sin lo) <= 2) by (pose proof (SIN_bound b); pose proof (SIN_bound lo); apply Rabs_le; lra).
      split; (apply Rle_trans with (/ 10 ^ 24 * 2); [apply Rmult_le_compat; try apply Rabs_pos; assumption|lra]). }
  destruct TR as [TC TS]. destruct A1 as [F1 A1]. destruct A2 as [F2 A2]. destruct A3 as [F3 A3]. cbv zeta.
  assert (EB : 5 / 10 ^ 15 * (A0 + Rabs (B2R (height (A := b64A lm) g))) <= 5.05 / 10 ^ 15 * (A0 * 1.02 + Rabs h)) by lra.
  clearbody q w'. apply Rabs_le_inv in A1. apply Rabs_le_inv in A2. apply Rabs_le_inv in A3. apply Rabs_le_inv in W0. apply Rabs_le_inv in W1. apply Rabs_le_inv in W2.
  set (m := (1.026 * A0 + Rabs h) * e1) in *. clearbody m.
  set (eb := 5 / 10 ^ 15 * (A0 + Rabs (B2R (height (A := b64A lm) g)))) in *. clearbody eb.
  split; [split; [exact F1|]|split; [split; [exact F2|]|split; [exact F3|]]]; apply Rabs_le; lra.
Qed.

Lemma far_low : forall a f lo la h, 0 < a -> 0 <= f <= 0.006 -> 0 <= h ->
  let w := ellipsoid_at a f lo la h in h + 0.9 * a <= sqrt (v0 (A := realA) w ^ 2 + v1 (A := realA) w ^ 2 + v2 (A := realA) w ^ 2).
Proof.
  intros a f lo la h Ha Hf Hh w. pose proof (inv_gg f Hf la) as IG. pose proof (gg_pos f Hf la) as GP. pose proof (L_GeodesyEl.k_sq f Hf) as K.
  unfold w. rewrite (el_scale a f lo la h Ha). cbv zeta. cbn [v0 v1 v2]. rewrite norm_scale by exact Ha.
  assert (EH : h = a * (h / a)) by (field; lra). assert (N : 0 <= h / a) by (apply Rmult_le_pos; [exact Hh|apply Rlt_le, Rinv_0_lt_compat, Ha]).
  set (n := h / a) in *. rewrite EH. clearbody n. replace (a * n + 0.9 * a) with (a * (n + 0.9)) by ring. apply Rmult_le_compat_l; [lra|].
  rewrite el_gg. cbn [v0 v1 v2]. set (g := gg f la) in *. unfold Rdiv. rewrite Rmult_1_l. set (k := L_ApxEl.kE f * L_ApxEl.kE f) in *. clearbody k. set (i := / g) in *. clearbody i.
  rewrite <- (sqrt_square (n + 0.9)) by lra. apply sqrt_le_1_alt.
  replace (((i + n) * (cos la * cos lo)) ^ 2 + ((i + n) * (cos la * sin lo)) ^ 2 + ((k * i + n) * sin la) ^ 2)
    with ((i + n) * (i + n) * (cos la * cos la) * (sin lo * sin lo + cos lo * cos lo) + (k * i + n) * (k * i + n) * (sin la * sin la)) by ring.
  rewrite sc1, Rmult_1_r. pose proof (sc1 la) as T. pose proof (Rle_0_sqr (sin la)) as S2. pose proof (Rle_0_sqr (cos la)) as C2. unfold Rsqr in S2, C2.
  set (s := sin la * sin la) in *. set (c := cos la * cos la) in *. clearbody s c.
  assert (KI : 0.9 <= k * i) by (apply Rle_trans with (0.9 * 1); [lra|apply Rmult_le_compat; lra]).
  assert (Q1 : (n + 0.9) * (n + 0.9) <= (i + n) * (i + n)) by (apply Rmult_le_compat; lra). assert (Q2 : (n + 0.9) * (n + 0.9) <= (k * i + n) * (k * i + n)) by (apply Rmult_le_compat; lra).
  set (q := (n + 0.9) * (n + 0.9)) in *. apply Rle_trans with (q * c + q * s); [rewrite <- Rmult_plus_distr_l; replace (c + s) with 1 by lra; lra|].
  apply Rplus_le_compat; apply Rmult_le_compat_r; assumption.
Qed.

(** C97, binary64: from geocentric to geodetic and back, any point from 0.92 to 989 equatorial
    radii from the centre: each coordinate comes back within 1.4e-9 of the distance from the
    centre (the truncation of the formula at altitude). *)
Lemma C97_round_trip_pf : forall lm, good_libm lm -> forall c a f x y z,
  conv_new (A := b64A lm) (MkEll (A := b64A lm) a f) = Ok c ->
  fin a = true -> fin f = true -> / 10 ^ 6 <= B2R a <= 10 ^ 12 -> B2R f <= 0.006 ->
  fin x = true -> fin y = true -> fin z = true ->
  let r := sqrt (B2R x ^ 2 + B2R y ^ 2 + B2R z ^ 2) in 0.92 * B2R a <= r <= 989 * B2R a ->
  exists v, geodetic_to_geocentric (A := b64A lm) c (geocentric_to_geodetic (A := b64A lm) c (V3 (A := b64A lm) x y z)) = Ok v /\
  let e := 1.4 / 10 ^ 9 * r in
  near (v0 (A := b64A lm) v) (B2R x) e /\ near (v1 (A := b64A lm) v) (B2R y) e /\ near (v2 (A := b64A lm) v) (B2R z) e.
Proof.
  intros lm G c a f x y z Hc Fa Ff Ba Bf Fx Fy Fz r HR.
  destruct (C97_point_pf lm G c a f x y z Hc Fa Ff Ba Bf Fx Fy Fz HR) as (lo & la & h & Hlo & Hla & Hh & E & A1 & A2 & A3). fold r in Hh.
  pose proof (L_PGdAny.conv_ok_f lm a f c Hc Ff) as F0. assert (Hf : 0 <= B2R f <= 0.006) by lra.
  set (A0 := B2R a) in *. assert (AP : 0 < A0) by (assert (0 < / 10 ^ 6) by (apply Rinv_0_lt_compat, pow_lt; lra); lra).
  assert (HA : Rabs h <= 990 * A0) by (apply Rabs_le; lra). pose proof (Rabs_pos h) as HP.
  destruct (trip lm G c a f x y z lo la h _ _ Hc Fa Ff Ba Bf Fx Fy Fz Hlo Hla ltac:(fold A0; lra) E A1 A2) as (v & V & T0 & T1 & T2); [fold A0; lra|exact A3|].
  exists v. split; [exact V|]. fold A0 in T0, T1, T2.
  assert (HB : 1.026 * A0 + Rabs h <= 1.21 * r).
  { destruct (Rle_or_lt 0 h) as [P|P]; [|rewrite Rabs_left by exact P; lra]. rewrite Rabs_pos_eq by exact P.
    pose proof (far_low A0 (B2R f) lo la h AP Hf P) as FL. cbv zeta in FL. rewrite E in FL. cbn [v0 v1 v2] in FL. fold r in FL. lra. }
  assert (B : (1.026 * A0 + Rabs h) * (1.1 / 10 ^ 9) + (Rabs h + 1.01 * A0) * (3.1 / 10 ^ 15) + 5.5 / 10 ^ 15 * (A0 * 1.02 + Rabs h) <= 1.4 / 10 ^ 9 * r) by lra.
  cbv zeta. destruct T0 as [F1 T0]. destruct T1 as [F2 T1]. destruct T2 as [F3 T2].
  split; [split; [exact F1|lra]|split; [split; [exact F2|lra]|split; [exact F3|lra]]].
Qed.

(** C97 near the surface (a 600th of the radius either way): the round trip is good to 3.2e-14
    of the radius. *)
Lemma C97_round_trip_ground_pf : forall lm, good_libm lm -> forall c a f x y z lo la h,
  conv_new (A := b64A lm) (MkEll (A := b64A lm) a f) = Ok c ->
  fin a = true -> fin f = true -> / 10 ^ 6 <= B2R a <= 10 ^ 12 -> B2R f <= 0.006 ->
  fin x = true -> fin y = true -> fin z = true ->
  - PI < lo <= PI -> - (PI / 2) <= la <= PI / 2 -> - (B2R a / 600) <= h <= B2R a / 600 ->
  ellipsoid_at (B2R a) (B2R f) lo la h = V3 (A := realA) (B2R x) (B2R y) (B2R z) ->
  exists v, geodetic_to_geocentric (A := b64A lm) c (geocentric_to_geodetic (A := b64A lm) c (V3 (A := b64A lm) x y z)) = Ok v /\
  let e := 3.2 / 10 ^ 14 * B2R a in
  near (v0 (A := b64A lm) v) (B2R x) e /\ near (v1 (A := b64A lm) v) (B2R y) e /\ near (v2 (A := b64A lm) v) (B2R z) e.
Proof.
  intros lm G c a f x y z lo la h Hc Fa Ff Ba Bf Fx Fy Fz Hlo Hla Hh E.
  destruct (L_PGdAny.C96_ground_pf lm G c a f x y z lo la h Hc Fa Ff Ba Bf Fx Fy Fz Hlo Hla Hh E) as [A1 A2].
  assert (AP : 0 < B2R a) by (assert (0 < / 10 ^ 6) by (apply Rinv_0_lt_compat, pow_lt; lra); lra).
  destruct (L_PGdAny.C96_geodetic_pf lm G c a f x y z lo la h Hc Fa Ff Ba Bf Fx Fy Fz Hlo Hla ltac:(lra) E) as (_ & _ & A3).
  destruct (trip lm G c a f x y z lo la h _ _ Hc Fa Ff Ba Bf Fx Fy Fz Hlo Hla ltac:(lra) E A1 A2 ltac:(lra) A3) as (v & V & T0 & T1 & T2).
  exists v. split; [exact V|]. set (A0 := B2R a) in *. assert (HA : 0 <= Rabs h <= A0 / 600) by (split; [apply Rabs_pos|apply Rabs_le; lra]).
  assert (B : (1.026 * A0 + Rabs h) * (2.2 / 10 ^ 14) + 3.2 / 10 ^ 15 * A0 + 5.5 / 10 ^ 15 * (A0 * 1.02 + Rabs h) <= 3.2 / 10 ^ 14 * A0) by lra.
  cbv zeta. destruct T0 as [F1 T0]. destruct T1 as [F2 T1]. destruct T2 as [F3 T2].
  split; [split; [exact F1|lra]|split; [split; [exact F2|lra]|split; [exact F3|lra]]].
Qed.

(** ** Geodetic to geocentric and back *)
Lemma back : forall lm, good_libm lm -> forall c a f lo la h,
  conv_new (A := b64A lm) (MkEll (A := b64A lm) a f) = Ok c ->
  fin a = true -> fin f = true -> / 10 ^ 6 <= B2R a <= 10 ^ 12 -> B2R f <= 0.006 ->
  fin lo = true -> fin la = true -> fin h = true ->
  - (PI / 2) <= B2R la <= PI / 2 -> - (B2R a / 16) <= B2R h <= 989 * B2R a ->
  exists v lo1 la1 h1, geodetic_to_geocentric (A := b64A lm) c (MkGeod (A := b64A lm) lo la h) = Ok v /\
  fin (v0 (A := b64A lm) v) = true /\ fin (v1 (A := b64A lm) v) = true /\ fin (v2 (A := b64A lm) v) = true /\
  - PI < lo1 <= PI /\ - (PI / 2) <= la1 <= PI / 2 /\ - (B2R a / 12) <= h1 <= 990 * B2R a /\
  ellipsoid_at (B2R a) (B2R f) lo1 la1 h1 = V3 (A := realA) (B2R (v0 (A := b64A lm) v)) (B2R (v1 (A := b64A lm) v)) (B2R (v2 (A := b64A lm) v)) /\
  Rabs (la1 - B2R la) <= 1.23 / 10 ^ 14 /\ Rabs (h1 - B2R h) <= 8.7 / 10 ^ 15 * (B2R a + Rabs (B2R h)) /\
  cos (B2R la) * cos la1 * (2 * (1 - cos (lo1 - B2R lo))) <= 1.03 / 10 ^ 28.
Proof.
  intros lm G c a f lo la h Hc Fa Ff Ba Bf Flo Fla Fh Hla Hh.
  pose proof (L_PGdAny.conv_ok_f lm a f c Hc Ff) as F0. assert (Hf : 0 <= B2R f <= 0.006) by lra.
  set (A0 := B2R a) in *. assert (AP : 0 < A0) by (assert (0 < / 10 ^ 6) by (apply Rinv_0_lt_compat, pow_lt; lra); lra).
  assert (HA : Rabs (B2R h) <= 989 * A0) by (apply Rabs_le; lra). pose proof (Rabs_pos (B2R h)) as HP.
  destruct (L_PGeoAny.C70_any_ellipsoid_pf lm G c a f lo la h Hc Fa Ff Flo Fla Fh) as (v & V & A).
  { fold A0. split; [apply Rle_trans with (/ 10 ^ 6); [|lra]|apply Rle_trans with (10 ^ 12); [lra|]].
    - apply Rle_trans with (bpow radix2 (-20)); [apply bpow_le; lia|]. change (bpow radix2 (-20)) with (/ 1048576). lra.
    - apply Rle_trans with (bpow radix2 40); [change (bpow radix2 40) with 1099511627776; lra|apply bpow_le; lia]. }
  { lra. }
  { apply Rle_trans with (10 ^ 16); [lra|]. apply Rle_trans with (bpow radix2 60); [change (bpow radix2 60) with 1152921504606846976; lra|apply bpow_le; lia]. }
  fold A0 in A. pose proof (A I0) as A1. pose proof (A I1) as A2. pose proof (A I2) as A3. clear A.
  unfold coord, vget in A1, A2, A3. destruct A1 as [F1 A1]. destruct A2 as [F2 A2]. destruct A3 as [F3 A3].
  rewrite (el_scale A0 _ _ _ _ AP) in A1, A2, A3. cbv zeta in A1, A2, A3. cbn [v0 v1 v2] in A1, A2, A3.
  set (X := B2R (v0 (A := b64A lm) v)) in *. set (Y := B2R (v1 (A := b64A lm) v)) in *. set (Z := B2R (v2 (A := b64A lm) v)) in *.
  assert (EH : B2R h = A0 * (B2R h / A0)) by (field; lra). set (n := B2R h / A0) in *.
  assert (Hn : -0.0625 <= n <= 989) by (split; apply (Rmult_le_reg_l A0); try exact AP; rewrite <- EH; lra).
  assert (EAH : Rabs (B2R h) = A0 * Rabs n) by (rewrite EH, Rabs_mult, (Rabs_pos_eq A0) by lra; reflexivity).
  assert (Hm : 0 <= Rabs n <= 989) by (split; [apply Rabs_pos|apply Rabs_le; lra]).
  set (m := Rabs n) in *.
  assert (EX : X = A0 * (X / A0)) by (field; lra). assert (EY : Y = A0 * (Y / A0)) by (field; lra). assert (EZ : Z = A0 * (Z / A0)) by (field; lra).
  set (x := X / A0) in *. set (y := Y / A0) in *. set (z := Z / A0) in *.
  set (w := ellipsoid_at 1 (B2R f) (B2R lo) (B2R la) n) in *.
  assert (SC : forall p q, Rabs (A0 * p - A0 * q) <= 5 / 10 ^ 15 * (A0 + Rabs (B2R h)) -> Rabs (p - q) <= 5 / 10 ^ 15 * (1 + m)).
  { intros p q H. rewrite <- Rmult_minus_distr_l, Rabs_mult, (Rabs_pos_eq A0), EAH in H by lra. apply (Rmult_le_reg_l A0); [exact AP|]. lra. }
  rewrite EX in A1. rewrite EY in A2. rewrite EZ in A3. apply SC in A1. apply SC in A2. apply SC in A3. clear SC.
  pose proof (el_low (B2R f) Hf (B2R lo) (B2R la) n ltac:(lra)) as WL. cbv zeta in WL. fold w in WL. specialize (WL ltac:(lra)).
  assert (WU := L_PGdAny.ell_dist 1 (B2R f) (B2R lo) (B2R la) n ltac:(lra) Hf ltac:(lra)). cbv zeta in WU. fold w in WU. destruct WU as [_ WU]. fold m in WU.
  assert (D2B : L_Geodesy.dist2 w (V3 (A := realA) x y z) <= 7.5 / 10 ^ 29 * ((1 + m) * (1 + m))).
  { unfold L_Geodesy.dist2. cbn [v0 v1 v2]. set (p0 := v0 (A := realA) _) in *. set (p1 := v1 (A := realA) _) in *. set (p2 := v2 (A := realA) _) in *. clearbody p0 p1 p2 x y z. clear -A1 A2 A3.
    assert (S : forall u w, Rabs (u - w) <= 5 / 10 ^ 15 * (1 + m) -> (w - u) ^ 2 <= 25 / 10 ^ 30 * ((1 + m) * (1 + m))).
    { intros u w H. rewrite <- (Rabs_pos_eq ((w - u) ^ 2)) by apply pow2_ge_0. replace (25 / 10 ^ 30 * ((1 + m) * (1 + m))) with (5 / 10 ^ 15 * (1 + m) * (5 / 10 ^ 15 * (1 + m))) by lra.
      replace ((w - u) ^ 2) with ((u - w) * (u - w)) by ring. apply L_Halley.abs_mul_bd; exact H. }
    pose proof (S _ _ A1). pose proof (S _ _ A2). pose proof (S _ _ A3). lra. }
  assert (RX : 0.92 <= sqrt (x ^ 2 + y ^ 2 + z ^ 2) <= 1000).
  { set (p0 := v0 (A := realA) w) in *. set (p1 := v1 (A := realA) w) in *. set (p2 := v2 (A := realA) w) in *. clearbody p0 p1 p2 x y z m. clear -A1 A2 A3 WL WU Hm.
    set (s := p0 ^ 2 + p1 ^ 2 + p2 ^ 2) in *. pose proof (pow2_ge_0 p0) as Q0. pose proof (pow2_ge_0 p1) as Q1. pose proof (pow2_ge_0 p2) as Q2.
    assert (S0 : 0 <= s) by (unfold s; lra). pose proof (sqrt_sqrt s S0) as SS. set (r := sqrt s) in *.
    assert (SL : 0.93 * 0.93 <= s) by (rewrite <- SS; apply Rmult_le_compat; lra).
    assert (SU : s <= 991 * 991) by (rewrite <- SS; apply Rmult_le_compat; lra). clearbody r.
    assert (S : forall u w, Rabs (u - w) <= 5 / 10 ^ 15 * (1 + m) -> w ^ 2 <= s -> Rabs (u ^ 2 - w ^ 2) <= 0.001).
    { intros u w H Hw. assert (Rabs w <= 991).
      { apply Rnot_lt_le. intros L. assert (991 * 991 < Rabs w * Rabs w) by (apply Rmult_le_0_lt_compat; lra).
        rewrite <- Rabs_mult, (Rabs_pos_eq (w * w)) in H0 by apply Rle_0_sqr. lra. }
      replace (u ^ 2 - w ^ 2) with ((u - w) * ((u - w) + 2 * w)) by ring.
      apply Rle_trans with (/ 10 ^ 7 * 2000); [|lra]. apply L_Halley.abs_mul_bd; [lra|].
      apply Rabs_le. apply Rabs_le_inv in H. apply Rabs_le_inv in H0. lra. }
    assert (R0 := S _ _ A1 ltac:(unfold s; lra)). assert (R1 := S _ _ A2 ltac:(unfold s; lra)). assert (R2 := S _ _ A3 ltac:(unfold s; lra)).
    apply Rabs_le_inv in R0. apply Rabs_le_inv in R1. apply Rabs_le_inv in R2.
    split.
    - rewrite <- (sqrt_square 0.92) by lra. apply sqrt_le_1_alt. unfold s in SL. lra.
    - rewrite <- (sqrt_square 1000) by lra. apply sqrt_le_1_alt. unfold s in SU. lra. }
  destruct (el_exists (B2R f) Hf x y z (proj1 RX)) as (lo1 & la1 & n1 & Hlo1 & Hla1 & Hn1' & E1).
  assert (Hn1 : -0.083 <= n1 <= 1000) by lra. clear Hn1'.
  destruct (el_lip (B2R f) Hf (B2R lo) (B2R la) n lo1 la1 n1 ltac:(lra) ltac:(lra)) as [L1 L2]. cbv zeta in L1, L2. fold w in L1, L2. rewrite E1 in L1, L2.
  set (D2 := L_Geodesy.dist2 _ _) in *. pose proof (L_Geodesy.zdot_le1 (B2R lo) (B2R la) lo1 la1) as DP.
  pose proof (L_PGeoTrip.zdot_split (B2R lo) (B2R la) lo1 la1) as ZS. set (d := L_Geodesy.zdot _ _ _ _) in *.
  assert (M1 : n <= m) by apply Rle_abs. assert (M2 : m <= 0.0625 \/ m = n).
  { unfold m. destruct (Rle_or_lt 0 n); [right; apply Rabs_pos_eq; assumption|left; rewrite Rabs_left by assumption; lra]. }
  clearbody m D2.
  assert (MM : 1 <= (1 + m) * (1 + m)) by (rewrite <- (Rmult_1_r 1) at 1; apply Rmult_le_compat; lra).
  assert (DA : forall k b, 0 < k -> k * (1 + m) <= 0.974 + (n + n1) / 2 -> 7.5 / 10 ^ 29 <= k * k * b -> 2 * (1 - d) <= b).
  { intros k b K HK HB. set (t := 0.974 + (n + n1) / 2) in *. assert (T : k * (1 + m) * (k * (1 + m)) <= t ^ 2).
    { replace (t ^ 2) with (t * t) by ring. assert (0 <= k * (1 + m)) by (apply Rmult_le_pos; lra). apply Rmult_le_compat; lra. }
    set (u := 2 * (1 - d)) in *. assert (U0 : 0 <= u) by (unfold u; lra).
    assert (P1 : k * (1 + m) * (k * (1 + m)) * u <= t ^ 2 * u) by (apply Rmult_le_compat_r; assumption).
    assert (P2 : 7.5 / 10 ^ 29 * ((1 + m) * (1 + m)) <= k * k * b * ((1 + m) * (1 + m))) by (apply Rmult_le_compat_r; lra).
    assert (KK : 0 < k * k * ((1 + m) * (1 + m))) by (apply Rmult_lt_0_compat; [apply Rmult_lt_0_compat; exact K|lra]).
    apply (Rmult_le_reg_l (k * k * ((1 + m) * (1 + m)))); [exact KK|]. lra. }
  assert (SQ : sqrt D2 <= 8.661 / 10 ^ 15 * (1 + m)).
  { rewrite <- (sqrt_square (8.661 / 10 ^ 15 * (1 + m))) by lra. apply sqrt_le_1_alt. lra. }
  assert (MX : 0 <= Rmax (Rabs n) (Rabs n1) <= 1000).
  { split; [eapply Rle_trans; [apply Rabs_pos|apply Rmax_l]|]. apply Rmax_lub; apply Rabs_le; lra. }
  assert (D1 : 2 * (1 - d) <= 3.13 / 10 ^ 28).
  { apply (DA 0.49); [lra| |lra]. destruct M2 as [M2|M2]; lra. }
  assert (NN : Rabs (n - n1) <= 0.001).
  { eapply Rle_trans; [exact L2|]. assert (Rmax (Rabs n) (Rabs n1) * (1 - d) <= 1000 * (1.6 / 10 ^ 28)) by (apply Rmult_le_compat; lra). lra. }
  assert (D : 2 * (1 - d) <= 1.03 / 10 ^ 28).
  { apply Rabs_le_inv in NN. apply (DA 0.854); [lra| |lra]. destruct M2 as [M2|M2]; lra. }
  exists v, lo1, la1, (A0 * n1). split; [exact V|]. split; [exact F1|]. split; [exact F2|]. split; [exact F3|]. split; [exact Hlo1|]. split; [exact Hla1|].
  split. { apply Rabs_le_inv in NN. split; [apply Rle_trans with (A0 * -0.083); [lra|apply Rmult_le_compat_l; lra]|apply Rle_trans with (A0 * 990); [apply Rmult_le_compat_l; lra|lra]]. }
  split. { rewrite (el_scale A0 _ _ _ _ AP). cbv zeta. replace (A0 * n1 / A0) with n1 by (field; lra). rewrite E1. cbn [v0 v1 v2]. rewrite <- EX, <- EY, <- EZ. reflexivity. }
  pose proof PI_RGT_0.
  assert (CC : 0 <= cos (B2R la) * cos la1 * (1 - cos (B2R lo - lo1))).
  { assert (0 <= cos (B2R la)) by (apply cos_ge_0; lra). assert (0 <= cos la1) by (apply cos_ge_0; lra). pose proof (COS_bound (B2R lo - lo1)).
    apply Rmult_le_pos; [apply Rmult_le_pos; assumption|lra]. }
  pose proof (COS_bound (B2R la - la1)) as CB.
  assert (CN : forall x y, cos (x - y) = cos (y - x)) by (intros x' y'; rewrite <- cos_neg; f_equal; ring).
  split; [|split].
  - eapply Rle_trans; [apply (L_PGeoTrip.small_angle (la1 - B2R la) (1.02 / 10 ^ 14)); [lra|lra|]|lra]. rewrite CN. lra.
  - rewrite EAH, EH. rewrite <- Rmult_minus_distr_l, Rabs_mult, (Rabs_pos_eq A0) by lra.
    replace (8.7 / 10 ^ 15 * (A0 + A0 * m)) with (A0 * (8.7 / 10 ^ 15 * (1 + m))) by ring. apply Rmult_le_compat_l; [lra|]. rewrite Rabs_minus_sym.
    eapply Rle_trans; [exact L2|]. assert (Rmax (Rabs n) (Rabs n1) * (1 - d) <= 1000 * (0.52 / 10 ^ 28)) by (apply Rmult_le_compat; lra). lra.
  - rewrite CN. set (p := cos (B2R la) * cos la1) in *. set (u := 1 - cos (B2R lo - lo1)) in *. set (mu := p * u) in *. replace (p * (2 * u)) with (2 * mu) by (unfold mu; ring). lra.
Qed.

Lemma back_long : forall lo lo1 la la1, - (PI / 2) <= la <= PI / 2 -> / 10 ^ 6 <= cos la -> Rabs (la1 - la) <= 1.23 / 10 ^ 14 ->
  cos la * cos la1 * (2 * (1 - cos (lo1 - lo))) <= 1.03 / 10 ^ 28 ->
  99 / 100 * cos la <= cos la1 /\ exists k : Z, Rabs (lo1 - (lo + IZR k * (2 * PI))) <= 1.236 / 10 ^ 14 / cos la.
Proof.
  intros lo lo1 la la1 Hla C L H. set (c := cos la) in *. pose proof (L_Apx.cos_lip la1 la) as CL. fold c in CL.
  assert (C1 : 99 / 100 * c <= cos la1) by (apply Rabs_le_inv in CL; lra). split; [exact C1|].
  destruct (L_PGeoTrip.reduce_turn (lo1 - lo)) as [k HK]. exists (- k)%Z. rewrite opp_IZR.
  destruct (L_ApxMod.trig_turns (lo1 - lo) k) as [T _]. set (t := lo1 - lo + IZR k * (2 * PI)) in *.
  replace (lo1 - (lo + - IZR k * (2 * PI))) with t by (unfold t; ring). rewrite <- T in H.
  assert (CP : 0 < c) by lra. assert (I : 0 < / c <= 10 ^ 6).
  { split; [apply Rinv_0_lt_compat; exact CP|]. rewrite <- (Rinv_inv (10 ^ 6)). apply Rinv_le; [lra|exact C]. }
  replace (1.236 / 10 ^ 14 / c) with (6 / 5 * (1.03 / 10 ^ 14 * / c)) by (unfold Rdiv; lra).
  apply L_PGeoTrip.small_angle; [exact HK|lra|].
  pose proof (COS_bound t) as CT. set (u := 2 * (1 - cos t)) in *. assert (U : 0 <= u) by (unfold u; lra). clearbody u.
  assert (M : 99 / 100 * (c * c) * u <= 1.03 / 10 ^ 28).
  { eapply Rle_trans; [|exact H]. apply Rmult_le_compat_r; [exact U|]. replace (99 / 100 * (c * c)) with (c * (99 / 100 * c)) by ring. apply Rmult_le_compat_l; [lra|exact C1]. }
  replace (1.03 / 10 ^ 14 * / c * (1.03 / 10 ^ 14 * / c)) with (1.0609 / 10 ^ 28 * (/ c * / c)) by lra.
  replace u with (c * c * u * (/ c * / c)) by (field; lra).
  apply Rmult_le_compat_r; [apply Rmult_le_pos; lra|]. lra.
Qed.

(** C97, binary64: from geodetic to geocentric and back, any place from a 16th of the equatorial
    radius below to 989 radii above the ellipsoid: the latitude comes back within 1.2e-9 rad, the
    height within 1.2e-14 of the distance, and, a millionth of the radius from the axis or more,
    the longitude within 1.3e-14 rad over the cosine of the latitude. *)
Lemma C97_back_pf : forall lm, good_libm lm -> forall c a f lo la h,
  conv_new (A := b64A lm) (MkEll (A := b64A lm) a f) = Ok c ->
  fin a = true -> fin f = true -> / 10 ^ 6 <= B2R a <= 10 ^ 12 -> B2R f <= 0.006 ->
  fin lo = true -> fin la = true -> fin h = true ->
  - (PI / 2) <= B2R la <= PI / 2 -> - (B2R a / 16) <= B2R h <= 989 * B2R a ->
  exists v, geodetic_to_geocentric (A := b64A lm) c (MkGeod (A := b64A lm) lo la h) = Ok v /\
  let g := geocentric_to_geodetic (A := b64A lm) c v in
  near (phi (A := b64A lm) g) (B2R la) (1.2 / 10 ^ 9) /\ near (height (A := b64A lm) g) (B2R h) (1.2 / 10 ^ 14 * (B2R a + Rabs (B2R h))) /\
  (/ 10 ^ 6 <= cos (B2R la) -> near_angle (elong (A := b64A lm) g) (B2R lo) (1.3 / 10 ^ 14 / cos (B2R la))).
Proof.
  intros lm G c a f lo la h Hc Fa Ff Ba Bf Flo Fla Fh Hla Hh.
  destruct (back lm G c a f lo la h Hc Fa Ff Ba Bf Flo Fla Fh Hla Hh) as (v & lo1 & la1 & h1 & V & F1 & F2 & F3 & Hlo1 & Hla1 & Hh1 & E & Bla & Bh & Blo).
  exists v. split; [exact V|]. intros g.
  destruct (L_PGdAny.C96_everywhere_pf lm G c a f _ _ _ lo1 la1 h1 Hc Fa Ff Ba Bf F1 F2 F3 Hlo1 Hla1 Hh1 E) as [P1 P2].
  destruct (L_PGdAny.C96_geodetic_pf lm G c a f _ _ _ lo1 la1 h1 Hc Fa Ff Ba Bf F1 F2 F3 Hlo1 Hla1 Hh1 E) as (_ & _ & P3).
  replace (V3 (A := b64A lm) (v0 (A := b64A lm) v) (v1 (A := b64A lm) v) (v2 (A := b64A lm) v)) with v in P1, P2, P3 by (destruct v; reflexivity).
  fold g in P1, P2, P3. destruct P1 as [FP P1]. destruct P2 as [FH P2].
  pose proof (L_PGdAny.conv_ok_f lm a f c Hc Ff) as F0. assert (Hf : 0 <= B2R f <= 0.006) by lra.
  set (A0 := B2R a) in *. assert (AP : 0 < A0) by (assert (0 < / 10 ^ 6) by (apply Rinv_0_lt_compat, pow_lt; lra); lra).
  pose proof (Rabs_pos (B2R h)) as HP.
  assert (HA : Rabs h1 <= Rabs (B2R h) + 8.7 / 10 ^ 15 * (A0 + Rabs (B2R h))).
  { replace h1 with ((h1 - B2R h) + B2R h) by ring. eapply Rle_trans; [apply Rabs_triang|]. lra. }
  split; [|split].
  - split; [exact FP|]. apply Rabs_le_inv in P1. apply Rabs_le_inv in Bla. apply Rabs_le. lra.
  - split; [exact FH|]. apply Rabs_le_inv in P2. apply Rabs_le_inv in Bh. apply Rabs_le. lra.
  - intros C. destruct (back_long _ _ _ _ Hla C Bla Blo) as [C1 [k HK]].
    assert (NN : / 10 ^ 300 <= B2R (v0 (A := b64A lm) v) ^ 2 + B2R (v1 (A := b64A lm) v) ^ 2).
    { rewrite (el_scale A0 _ _ _ _ AP) in E. cbv zeta in E. apply v3_inj in E. destruct E as (EX & EY & _). rewrite el_gg in EX, EY. cbn [v0 v1] in EX, EY. rewrite <- EX, <- EY.
      pose proof (inv_gg _ Hf la1) as IG. pose proof (gg_pos _ Hf la1) as GP. set (G0 := gg (B2R f) la1) in *. set (q := (1 / G0 + h1 / A0)).
      replace ((A0 * (q * (cos la1 * cos lo1))) ^ 2 + (A0 * (q * (cos la1 * sin lo1))) ^ 2) with ((A0 * q * cos la1) * (A0 * q * cos la1) * (sin lo1 * sin lo1 + cos lo1 * cos lo1)) by ring. rewrite sc1, Rmult_1_r.
      assert (AQ : 0.9 * A0 <= A0 * q).
      { unfold q. rewrite Rmult_plus_distr_l. replace (A0 * (h1 / A0)) with h1 by (field; lra). unfold Rdiv. rewrite Rmult_1_l. assert (A0 * 1 <= A0 * / G0) by (apply Rmult_le_compat_l; lra). lra. }
      assert (N1 : / 10 ^ 13 <= A0 * q * cos la1).
      { apply Rle_trans with (0.9 * / 10 ^ 6 * (99 / 100 * / 10 ^ 6)); [lra|]. apply Rmult_le_compat; lra. }
      apply Rle_trans with (/ 10 ^ 13 * / 10 ^ 13); [|apply Rmult_le_compat; lra].
      rewrite <- Rinv_mult. apply Rinv_le; [lra|]. replace (10 ^ 13 * 10 ^ 13) with (10 ^ 26) by ring. apply Rle_pow; [lra|lia]. }
    destruct (P3 NN) as (FE & j & HJ). split; [exact FE|]. exists (j + k)%Z. rewrite plus_IZR.
    assert (B51 : bpow radix2 (-51) <= 4.5 / 10 ^ 16) by (cbn -[IZR]; lra).
    assert (I : 1 <= / cos (B2R la)) by (rewrite <- Rinv_1 at 1; apply Rinv_le; [lra|pose proof (COS_bound (B2R la)); lra]).
    unfold Rdiv in HK |- *. set (ic := / cos (B2R la)) in *. clearbody ic. set (e := B2R (elong (A := b64A lm) g)) in *.
    apply Rabs_le_inv in HK. apply Rabs_le_inv in HJ. apply Rabs_le. lra.
Qed.

(** C97 near the surface (a 601st of the radius either way): latitude within 3.5e-14 rad, height
    within 1.2e-14 of the radius. *)
Lemma C97_back_ground_pf : forall lm, good_libm lm -> forall c a f lo la h,
  conv_new (A := b64A lm) (MkEll (A := b64A lm) a f) = Ok c ->
  fin a = true -> fin f = true -> / 10 ^ 6 <= B2R a <= 10 ^ 12 -> B2R f <= 0.006 ->
  fin lo = true -> fin la = true -> fin h = true ->
  - (PI / 2) <= B2R la <= PI / 2 -> - (B2R a / 601) <= B2R h <= B2R a / 601 ->
  exists v, geodetic_to_geocentric (A := b64A lm) c (MkGeod (A := b64A lm) lo la h) = Ok v /\
  let g := geocentric_to_geodetic (A := b64A lm) c v in
  near (phi (A := b64A lm) g) (B2R la) (3.5 / 10 ^ 14) /\ near (height (A := b64A lm) g) (B2R h) (1.2 / 10 ^ 14 * B2R a).
Proof.
  intros lm G c a f lo la h Hc Fa Ff Ba Bf Flo Fla Fh Hla Hh.
  assert (AP : 0 < B2R a) by (assert (0 < / 10 ^ 6) by (apply Rinv_0_lt_compat, pow_lt; lra); lra).
  destruct (back lm G c a f lo la h Hc Fa Ff Ba Bf Flo Fla Fh Hla ltac:(lra)) as (v & lo1 & la1 & h1 & V & F1 & F2 & F3 & Hlo1 & Hla1 & Hh1 & E & Bla & Bh & Blo).
  assert (HA : Rabs (B2R h) <= B2R a / 601) by (apply Rabs_le; lra).
  exists v. split; [exact V|]. intros g.
  destruct (L_PGdAny.C96_ground_pf lm G c a f _ _ _ lo1 la1 h1 Hc Fa Ff Ba Bf F1 F2 F3 Hlo1 Hla1 ltac:(apply Rabs_le_inv in Bh; lra) E) as [P1 P2].
  replace (V3 (A := b64A lm) (v0 (A := b64A lm) v) (v1 (A := b64A lm) v) (v2 (A := b64A lm) v)) with v in P1, P2 by (destruct v; reflexivity).
  fold g in P1, P2. destruct P1 as [FP P1]. destruct P2 as [FH P2].
  split.
  - split; [exact FP|]. apply Rabs_le_inv in P1. apply Rabs_le_inv in Bla. apply Rabs_le. lra.
  - split; [exact FH|]. apply Rabs_le_inv in P2. apply Rabs_le_inv in Bh. apply Rabs_le. lra.
Qed.

(** C97 on the Moon taken as a sphere (radius 1737400 m, flattening 0): latitude and longitude
    one radian, 1000 m up. *)
Example C97_example_pf : forall lm, good_libm lm -> exists c v,
  conv_new (A := b64A lm) (MkEll (A := b64A lm) (Flit 1737400 0) (Flit 0 0)) = Ok c /\
  geodetic_to_geocentric (A := b64A lm) c (MkGeod (A := b64A lm) (Flit 1 0) (Flit 1 0) (Flit 1000 0)) = Ok v /\
  let g := geocentric_to_geodetic (A := b64A lm) c v in
  near (phi (A := b64A lm) g) 1 (3.5 / 10 ^ 14) /\ near (height (A := b64A lm) g) 1000 (2.1 / 10 ^ 8).
Proof.
  intros lm G. destruct (Flit_int 1737400 ltac:(lia)) as [EA FA]. destruct (Flit_int 0 ltac:(lia)) as [E0 F0].
  destruct (Flit_int 1 ltac:(lia)) as [E1 F1]. destruct (Flit_int 1000 ltac:(lia)) as [E2 F2].
  destruct (L_PGdAny.C96_accepted_pf lm (Flit 1737400 0) (Flit 0 0) FA F0 ltac:(rewrite EA; lra) ltac:(rewrite E0; lra)) as [c Hc].
  pose proof L_Pi.PI_bounds_24 as PB.
  destruct (C97_back_ground_pf lm G c _ _ (Flit 1 0) (Flit 1 0) (Flit 1000 0) Hc FA F0 ltac:(rewrite EA; lra) ltac:(rewrite E0; lra) F1 F1 F2 ltac:(rewrite E1; lra) ltac:(rewrite E2, EA; lra)) as (v & V & T).
  rewrite E1, E2, EA in T. exists c, v. split; [exact Hc|]. split; [exact V|]. cbv zeta in T |- *. destruct T as [T1 [F T2]]. split; [exact T1|]. split; [exact F|]. lra.
Qed.
