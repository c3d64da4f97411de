(** * Lemmas for C74 and C75: geodetic coordinates exist and are unique; round
    trips of the WGS84 conversions in binary64 *)

From Coq Require Import ZArith Reals Lra Lia Bool List Psatz.
From Flocq Require Import Core BinarySingleNaN.
From Verif Require Import Outcome Arith ArithR ArithF Spec_Float Spec_Accuracy M_Common M_Ellipsoid Spec_Matrix Spec_Geo.
From Verif Require Import L_ArithF L_ArithR L_Flit L_PMatrix L_Frames L_Ellipsoid L_ApxGd L_Geodesy.
From Verif Require L_Apx L_ApxMod L_Pi L_PAccGeo L_PAccGd L_PEllipsoid L_PSunAngle L_PAngles L_Halley.
Open Scope R_scope.

(** C74: every point 5900 km or more from the centre has geodetic coordinates. *)
Lemma C74_exists_pf : forall X Y Z, 5900000 <= sqrt (X ^ 2 + Y ^ 2 + Z ^ 2) -> exists lo la h,
  - PI < lo <= PI /\ - (PI / 2) <= la <= PI / 2 /\ -500000 <= h <= sqrt (X ^ 2 + Y ^ 2 + Z ^ 2) /\ wgs84_at lo la h = V3 (A := realA) X Y Z.
Proof. exact wgs84_exists. Qed.

(** C74: geodetic coordinates above the depth of 5700 km are unique (the longitude
    away from the axis). *)
Lemma C74_unique_pf : forall lo la h lo' la' h', - PI < lo <= PI -> - PI < lo' <= PI ->
  - (PI / 2) <= la <= PI / 2 -> - (PI / 2) <= la' <= PI / 2 -> -5700000 <= h -> -5700000 <= h' ->
  wgs84_at lo la h = wgs84_at lo' la' h' -> la = la' /\ h = h' /\ (cos la <> 0 -> lo = lo').
Proof. exact wgs84_unique. Qed.

(** C74, binary64: every point from 5900 to 6490000 km from the centre has geodetic
    coordinates, and the computed ones are within 1e-10 rad, and 2.5e-15 of the
    distance, of them. *)
Lemma C74_point_pf : forall lm, good_libm lm -> forall c x y z,
  conv_new (A := b64A lm) (WGS84 (A := b64A lm)) = Ok c -> fin x = true -> fin y = true -> fin z = true ->
  5900000 <= sqrt (B2R x ^ 2 + B2R y ^ 2 + B2R z ^ 2) <= 6490000000 -> exists lo la h,
  - PI < lo <= PI /\ - (PI / 2) <= la <= PI / 2 /\ -500000 <= h <= 6490000000 /\ wgs84_at lo la h = V3 (A := realA) (B2R x) (B2R y) (B2R z) /\
  let g := geocentric_to_geodetic (A := b64A lm) c (V3 (A := b64A lm) x y z) in
  near (phi (A := b64A lm) g) la (/ 10 ^ 10) /\ near (height (A := b64A lm) g) h ((Rabs h + 1.01 * 6378137) * (2.5 / 10 ^ 15)) /\
  (/ 10 ^ 300 <= B2R x ^ 2 + B2R y ^ 2 -> near_angle (elong (A := b64A lm) g) lo (bpow radix2 (-51))).
Proof.
  intros lm G c x y z Hc Fx Fy Fz HR. destruct (wgs84_exists _ _ _ (proj1 HR)) as (lo & la & h & Hlo & Hla & Hh' & E).
  assert (Hh : -500000 <= h <= 6490000000) by lra. clear Hh'.
  exists lo, la, h. split; [exact Hlo|]. split; [exact Hla|]. split; [exact Hh|]. split; [exact E|]. intros g.
  destruct (L_PAccGd.C73_everywhere_pf lm G c x y z lo la h Hc Fx Fy Fz Hlo Hla Hh E) as [A1 A2].
  destruct (L_PAccGd.C73_geodetic_pf lm G c x y z lo la h Hc Fx Fy Fz Hlo Hla Hh E) as (_ & _ & A3).
  split; [exact A1|]. split; [exact A2|exact A3].
Qed.

(** The computed longitude is a finite number. *)
Lemma fin_elong : forall lm, good_libm lm -> forall (c : EllipsoidConverter (b64A lm)) x y z, fin x = true -> fin y = true ->
  B2R x * B2R x + B2R y * B2R y <= 10 ^ 20 ->
  fin (elong (A := b64A lm) (geocentric_to_geodetic (A := b64A lm) c (V3 (A := b64A lm) x y z))) = true.
Proof.
  intros lm G c x y z Fx Fy HP. unfold geocentric_to_geodetic. cbn [v0 v1 v2]. unfold sq. b64A_ops.
  destruct (L_PAccGd.p2_F x y Fx Fy HP) as (Fp & Pp & Ep). set (p2 := Fadd (Fmul x x) (Fmul y y)) in *.
  destruct (gc2gd_phi_height (A := b64A lm) c p2 (Babs z)) as [ph h]. cbn [elong].
  destruct lit_0 as [L0 LF]. rewrite Bltb_correct by assumption. rewrite L0.
  destruct (Rlt_bool_spec 0 (B2R p2)) as [L|L]; [|exact LF].
  apply (good_atan2 lm G y x Fy Fx).
  destruct (Req_dec (B2R x) 0) as [E1|E1]; [|left; exact E1]. right. intros E2. rewrite E1, E2 in Ep.
  destruct (Fmul_ok x x Fx Fx) as [M1 F1]; [rewrite E1; unfold small; rewrite Rmult_0_r, Rabs_R0; apply bpow_ge_0|].
  destruct (Fmul_ok y y Fy Fy) as [M2 F2]; [rewrite E2; unfold small; rewrite Rmult_0_r, Rabs_R0; apply bpow_ge_0|].
  assert (RZ : rnd (0 * 0) = 0) by (rewrite Rmult_0_r; apply rnd_id, generic_format_0). rewrite E1, RZ in M1. rewrite E2, RZ in M2.
  destruct (Fadd_ok _ _ F1 F2) as [M3 _]; [rewrite M1, M2; unfold small; rewrite Rplus_0_r, Rabs_R0; apply bpow_ge_0|].
  fold p2 in M3. rewrite M3, M1, M2, Rplus_0_r in L. rewrite (rnd_id 0 (generic_format_0 _ _)) in L. lra.
Qed.

Lemma trip : forall lm, good_libm lm -> forall c x y z lo la h e1 e2,
  conv_new (A := b64A lm) (WGS84 (A := b64A lm)) = Ok c -> fin x = true -> fin y = true -> fin z = true ->
  - PI < lo <= PI -> - (PI / 2) <= la <= PI / 2 -> -500000 <= h <= 9990000 ->
  wgs84_at lo la h = V3 (A := realA) (B2R x) (B2R y) (B2R z) ->
  let g := geocentric_to_geodetic (A := b64A lm) c (V3 (A := b64A lm) x y z) in
  near (phi (A := b64A lm) g) la e1 -> near (height (A := b64A lm) g) h e2 -> e2 <= 1 ->
  (/ 10 ^ 300 <= B2R x ^ 2 + B2R y ^ 2 -> near_angle (elong (A := b64A lm) g) lo (bpow radix2 (-51))) ->
  exists v, geodetic_to_geocentric (A := b64A lm) c g = Ok v /\
  let e := (1.018 * 6378137 + Rabs h) * e1 + e2 + 3.8 / 10 ^ 8 in
  near (v0 (A := b64A lm) v) (B2R x) e /\ near (v1 (A := b64A lm) v) (B2R y) e /\ near (v2 (A := b64A lm) v) (B2R z) e.
Proof.
  intros lm G c x y z lo la h e1 e2 Hc Fx Fy Fz Hlo Hla Hh E g P1 P2 E2 P3.
  destruct P1 as [FP P1]. destruct P2 as [FH P2].
  assert (NN : B2R x * B2R x + B2R y * B2R y = ((6378137 / gg la + h) * cos la) * ((6378137 / gg la + h) * cos la)).
  { rewrite wgs84_gg in E. assert (EX := f_equal (fun v => v0 (A := realA) v) E). assert (EY := f_equal (fun v => v1 (A := realA) v) E). cbn [v0 v1] in EX, EY.
    rewrite <- EX, <- EY. transitivity (((6378137 / gg la + h) * cos la) * ((6378137 / gg la + h) * cos la) * (sin lo * sin lo + cos lo * cos lo)); [ring|]. rewrite sc1. ring. }
  pose proof (g_range la) as GR. fold (gg la) in GR. pose proof (gg_pos la) as GP.
  set (N := (6378137 / gg la + h) * cos la) in *.
  assert (NB : Rabs N <= 16500000).
  { unfold N. rewrite <- (Rmult_1_r 16500000). apply L_Halley.abs_mul_bd; [|apply Rabs_le; pose proof (COS_bound la); lra].
    assert (6378137 / gg la <= 6378137 * / 0.99) by (apply Rmult_le_compat_l; [lra|apply Rinv_le; lra]).
    assert (0 < 6378137 / gg la) by (apply Rdiv_lt_0_compat; lra). apply Rabs_le. lra. }
  assert (FE : fin (elong (A := b64A lm) g) = true).
  { apply (fin_elong lm G c x y z Fx Fy). rewrite NN. apply Rle_trans with (16500000 * 16500000); [|lra].
    rewrite <- (Rabs_pos_eq (N * N)) by apply Rle_0_sqr. apply L_Halley.abs_mul_bd; assumption. }
  assert (HH : Rabs (B2R (height (A := b64A lm) g)) <= 10000000) by (apply Rabs_le_inv in P2; apply Rabs_le; lra).
  destruct (L_PAccGeo.C70_accuracy_pf lm G c _ _ _ Hc FE FP FH HH) as (v & V & A0 & A1 & A2).
  exists v. split; [replace g with (MkGeod (A := b64A lm) (elong (A := b64A lm) g) (phi (A := b64A lm) g) (height (A := b64A lm) g)) by (destruct g; reflexivity); exact V|].
  unfold coord, vget in A0, A1, A2. set (w' := wgs84_at _ _ _) in A0, A1, A2.
  destruct (wgs84_fwd lo la h (B2R (elong (A := b64A lm) g)) (B2R (phi (A := b64A lm) g)) (B2R (height (A := b64A lm) g))) as (W0 & W1 & W2).
  cbv zeta in W0, W1, W2. fold w' in W0, W1, W2. fold N in W0, W1, W2. rewrite E in W0, W1, W2. cbn [v0 v1 v2] in W0, W1, W2.
  set (q := (1.018 * 6378137 + Rabs h) * Rabs (B2R (phi (A := b64A lm) g) - la) + Rabs (B2R (height (A := b64A lm) g) - h)) in *.
  assert (Q : q <= (1.018 * 6378137 + Rabs h) * e1 + e2).
  { unfold q. apply Rplus_le_compat; [apply Rmult_le_compat_l; [pose proof (Rabs_pos h); lra|exact P1]|exact P2]. }
  assert (TR : Rabs N * Rabs (cos (B2R (elong (A := b64A lm) g)) - cos lo) <= 0.8 / 10 ^ 8 /\ Rabs N * Rabs (sin (B2R (elong (A := b64A lm) g)) - sin lo) <= 0.8 / 10 ^ 8).
  { destruct (Rle_or_lt (/ 10 ^ 300) (B2R x ^ 2 + B2R y ^ 2)) as [L|L].
    - destruct (P3 L) as (_ & k & HK). destruct (L_ApxMod.trig_turns lo k) as [T1 T2]. rewrite <- T1, <- T2.
      assert (B51 : bpow radix2 (-51) <= 4.5 / 10 ^ 16) by (cbn -[IZR]; lra).
      split; (apply Rle_trans with (16500000 * (4.5 / 10 ^ 16)); [apply Rmult_le_compat; try apply Rabs_pos; [exact NB|]|lra]).
      + eapply Rle_trans; [apply L_Apx.cos_lip|]. lra.
      + eapply Rle_trans; [apply L_Apx.sin_lip|]. lra.
    - assert (N2 : N * N <= / 10 ^ 300) by (rewrite <- NN; replace (B2R x * B2R x + B2R y * B2R y) with (B2R x ^ 2 + B2R y ^ 2) by ring; lra).
      assert (NS : Rabs N <= / 10 ^ 9).
      { apply Rnot_lt_le. intros L2. assert (I : 0 < / 10 ^ 9) by (apply Rinv_0_lt_compat, pow_lt; lra).
        assert (/ 10 ^ 9 * / 10 ^ 9 < Rabs N * Rabs N) by (apply Rmult_le_0_lt_compat; lra). rewrite <- Rabs_mult, (Rabs_pos_eq (N * N)) in H by apply Rle_0_sqr.
        assert (/ 10 ^ 300 <= / 10 ^ 18) by (apply Rinv_le; [apply pow_lt; lra|apply Rle_pow; [lra|lia]]).
        assert (/ 10 ^ 18 = / 10 ^ 9 * / 10 ^ 9) by (rewrite <- Rinv_mult; f_equal; ring). lra. }
      set (a := B2R (elong (A := b64A lm) g)).
      assert (C2 : Rabs (cos a - cos lo) <= 2) by (pose proof (COS_bound a); pose proof (COS_bound lo); apply Rabs_le; lra).
      assert (S2 : Rabs (sin a - sin lo) <= 2) by (pose proof (SIN_bound a); pose proof (SIN_bound lo); apply Rabs_le; lra).
      split; (apply Rle_trans with (/ 10 ^ 9 * 2); [apply Rmult_le_compat; try apply Rabs_pos; assumption|lra]). }
  destruct TR as [TC TS]. destruct A0 as [F0 A0]. destruct A1 as [F1 A1]. destruct A2 as [F2 A2]. cbv zeta.
  clearbody q w'. apply Rabs_le_inv in A0. apply Rabs_le_inv in A1. apply Rabs_le_inv in A2. apply Rabs_le_inv in W0. apply Rabs_le_inv in W1. apply Rabs_le_inv in W2.
  set (m := (1.018 * 6378137 + Rabs h) * e1) in *. clearbody m.
  split; [split; [exact F0|]|split; [split; [exact F1|]|split; [exact F2|]]]; apply Rabs_le; lra.
Qed.

(** C74, binary64: from geocentric to geodetic and back, any point from 5900 to
    16300 km from the centre: each coordinate comes back within 2 mm (the
    truncation of the formula at altitude). *)
Lemma C74_round_trip_pf : forall lm, good_libm lm -> forall c x y z,
  conv_new (A := b64A lm) (WGS84 (A := b64A lm)) = Ok c -> fin x = true -> fin y = true -> fin z = true ->
  5900000 <= sqrt (B2R x ^ 2 + B2R y ^ 2 + B2R z ^ 2) <= 16300000 ->
  exists v, geodetic_to_geocentric (A := b64A lm) c (geocentric_to_geodetic (A := b64A lm) c (V3 (A := b64A lm) x y z)) = Ok v /\
  near (v0 (A := b64A lm) v) (B2R x) (2 / 10 ^ 3) /\ near (v1 (A := b64A lm) v) (B2R y) (2 / 10 ^ 3) /\ near (v2 (A := b64A lm) v) (B2R z) (2 / 10 ^ 3).
Proof.
  intros lm G c x y z Hc Fx Fy Fz HR. destruct (C74_point_pf lm G c x y z Hc Fx Fy Fz ltac:(lra)) as (lo & la & h & Hlo & Hla & Hh & E & A1 & A2 & A3).
  assert (HU : h <= 9990000).
  { apply Rnot_lt_le. intros L. pose proof (wgs84_low lo la h ltac:(lra)) as W. cbv zeta in W. rewrite E in W. cbn [v0 v1 v2] in W. destruct W as [_ W]. specialize (W ltac:(lra)). lra. }
  assert (HA : 0 <= Rabs h <= 9990000) by (split; [apply Rabs_pos|apply Rabs_le; lra]).
  destruct (trip lm G c x y z lo la h _ _ Hc Fx Fy Fz Hlo Hla ltac:(lra) E A1 A2) as (v & V & T0 & T1 & T2); [|exact A3|].
  - apply Rle_trans with ((9990000 + 1.01 * 6378137) * (2.5 / 10 ^ 15)); [apply Rmult_le_compat_r; lra|lra].
  - exists v. split; [exact V|].
    assert (B : (1.018 * 6378137 + Rabs h) * / 10 ^ 10 + (Rabs h + 1.01 * 6378137) * (2.5 / 10 ^ 15) + 3.8 / 10 ^ 8 <= 2 / 10 ^ 3) by lra.
    destruct T0 as [F0 T0]. destruct T1 as [F1 T1]. destruct T2 as [F2 T2].
    split; [split; [exact F0|lra]|split; [split; [exact F1|lra]|split; [exact F2|lra]]].
Qed.

(** C74 near the ground (10 km either way): the round trip is good to 0.2
    micrometres. *)
Lemma C74_round_trip_ground_pf : forall lm, good_libm lm -> forall c x y z lo la h,
  conv_new (A := b64A lm) (WGS84 (A := b64A lm)) = Ok c -> fin x = true -> fin y = true -> fin z = true ->
  - PI < lo <= PI -> - (PI / 2) <= la <= PI / 2 -> -10000 <= h <= 10000 ->
  wgs84_at lo la h = V3 (A := realA) (B2R x) (B2R y) (B2R z) ->
  exists v, geodetic_to_geocentric (A := b64A lm) c (geocentric_to_geodetic (A := b64A lm) c (V3 (A := b64A lm) x y z)) = Ok v /\
  near (v0 (A := b64A lm) v) (B2R x) (2 / 10 ^ 7) /\ near (v1 (A := b64A lm) v) (B2R y) (2 / 10 ^ 7) /\ near (v2 (A := b64A lm) v) (B2R z) (2 / 10 ^ 7).
Proof.
  intros lm G c x y z lo la h Hc Fx Fy Fz Hlo Hla Hh E.
  destruct (L_PAccGd.C73_ground_pf lm G c x y z lo la h Hc Fx Fy Fz Hlo Hla Hh E) as [A1 A2].
  destruct (L_PAccGd.C73_geodetic_pf lm G c x y z lo la h Hc Fx Fy Fz Hlo Hla ltac:(lra) E) as (_ & _ & A3).
  destruct (trip lm G c x y z lo la h _ _ Hc Fx Fy Fz Hlo Hla ltac:(lra) E A1 A2 ltac:(lra) A3) as (v & V & T0 & T1 & T2).
  exists v. split; [exact V|]. assert (HA : 0 <= Rabs h <= 10000) by (split; [apply Rabs_pos|apply Rabs_le; lra]).
  assert (B : (1.018 * 6378137 + Rabs h) * (2 / 10 ^ 14) + 1.7 / 10 ^ 8 + 3.8 / 10 ^ 8 <= 2 / 10 ^ 7) by lra.
  destruct T0 as [F0 T0]. destruct T1 as [F1 T1]. destruct T2 as [F2 T2].
  split; [split; [exact F0|lra]|split; [split; [exact F1|lra]|split; [exact F2|lra]]].
Qed.

(** C74 for the point 6378137 m up the axis: geodetic height above the pole of
    exactly a f, and the round trip. *)
Example C74_example_pf : forall lm, good_libm lm -> exists c v,
  conv_new (A := b64A lm) (WGS84 (A := b64A lm)) = Ok c /\
  wgs84_at 0 (PI / 2) (6378137 / 298.257223563) = V3 (A := realA) 0 0 6378137 /\
  geodetic_to_geocentric (A := b64A lm) c (geocentric_to_geodetic (A := b64A lm) c (V3 (A := b64A lm) (Flit 0 0) (Flit 0 0) (Flit 6378137 0))) = Ok v /\
  near (v0 (A := b64A lm) v) 0 (2 / 10 ^ 3) /\ near (v1 (A := b64A lm) v) 0 (2 / 10 ^ 3) /\ near (v2 (A := b64A lm) v) 6378137 (2 / 10 ^ 3).
Proof.
  intros lm G. destruct (L_PSunAngle.wgs84_F lm) as (c & Hc & _).
  destruct (Flit_int 0 ltac:(lia)) as [E0 F0]. destruct (Flit_int 6378137 ltac:(lia)) as [E1 F1].
  destruct (C74_round_trip_pf lm G c _ _ _ Hc F0 F0 F1) as (v & V & T).
  { rewrite E0, E1. replace (0 ^ 2 + 0 ^ 2 + 6378137 ^ 2) with (6378137 * 6378137) by ring. rewrite sqrt_square; lra. }
  rewrite E0, E1 in T. exists c, v. split; [exact Hc|]. split; [|split; [exact V|exact T]].
  unfold wgs84_at. rewrite sin_0, cos_0, cos_PI2, sin_PI2. cbv zeta.
  replace (0 ^ 2 + (1 - 1 / 298.257223563) ^ 2 * 1 ^ 2) with ((1 - 1 / 298.257223563) * (1 - 1 / 298.257223563)) by ring.
  rewrite sqrt_square by lra. f_equal; lra.
Qed.

(** ** Geodetic to geocentric and back *)

Lemma half_angle : forall t, cos t = 1 - 2 * sin (t / 2) * sin (t / 2).
Proof. intros t. rewrite <- cos_2a_sin. f_equal. lra. Qed.

Lemma small_angle : forall t q, - PI <= t <= PI -> 0 <= q <= 1 / 2 -> 2 * (1 - cos t) <= q * q -> Rabs t <= 6 / 5 * q.
Proof.
  assert (P : forall t q, 0 <= t <= PI -> 0 <= q <= 1 / 2 -> 2 * (1 - cos t) <= q * q -> t <= 6 / 5 * q).
  { intros t q Ht Hq C. rewrite half_angle in C. pose proof L_Pi.PI_bounds_24 as PB. 
    assert (S0 : 0 <= sin (t / 2)) by (apply sin_ge_0; lra).
    assert (S1 : 2 * sin (t / 2) <= q).
    { apply Rnot_lt_le. intros L. assert (q * q < 2 * sin (t / 2) * (2 * sin (t / 2))) by (apply Rmult_le_0_lt_compat; lra). lra. }
    destruct (Rle_or_lt (t / 2) 1) as [L|L].
    - pose proof (sin_lower (t / 2) ltac:(lra)). lra.
    - pose proof (sin_lower 1 ltac:(lra)). pose proof (sin_incr_1 1 (t / 2)). lra. }
  intros t q Ht Hq C. apply Rabs_le. destruct (Rle_or_lt 0 t).
  - pose proof (P t q ltac:(lra) Hq C). lra.
  - rewrite <- cos_neg in C. pose proof (P (- t) q ltac:(lra) Hq C). lra.
Qed.

Lemma reduce_turn : forall t, exists k : Z, - PI <= t + IZR k * (2 * PI) <= PI.
Proof.
  intros t. destruct (L_PAngles.C28_anp_pf t) as [B [k E]]. set (a := anp (A := realA) t) in *. clearbody a.
  destruct (Rle_or_lt a PI) as [L|L].
  - exists (- k)%Z. rewrite opp_IZR, E. lra.
  - exists (- k - 1)%Z. rewrite minus_IZR, opp_IZR, E. lra.
Qed.

Lemma zdot_split : forall lo la lo' la', 1 - zdot lo la lo' la' = (1 - cos (la - la')) + cos la * cos la' * (1 - cos (lo - lo')).
Proof. intros. unfold zdot. rewrite !cos_minus. ring. Qed.

Lemma back : forall lm, good_libm lm -> forall c lo la h,
  conv_new (A := b64A lm) (WGS84 (A := b64A lm)) = Ok c -> fin lo = true -> fin la = true -> fin h = true ->
  - (PI / 2) <= B2R la <= PI / 2 -> -400000 <= B2R h <= 10000000 ->
  exists v lo1 la1 h1, geodetic_to_geocentric (A := b64A lm) c (MkGeod (A := b64A lm) lo la h) = Ok v /\
  fin (v0 (A := b64A lm) v) = true /\ fin (v1 (A := b64A lm) v) = true /\ fin (v2 (A := b64A lm) v) = true /\
  - PI < lo1 <= PI /\ - (PI / 2) <= la1 <= PI / 2 /\ -500000 <= h1 <= 25350000 /\
  wgs84_at lo1 la1 h1 = V3 (A := realA) (B2R (v0 (A := b64A lm) v)) (B2R (v1 (A := b64A lm) v)) (B2R (v2 (A := b64A lm) v)) /\
  Rabs (la1 - B2R la) <= 1.08 / 10 ^ 14 /\ Rabs (h1 - B2R h) <= 5.2 / 10 ^ 8 /\
  cos (B2R la) * cos la1 * (2 * (1 - cos (lo1 - B2R lo))) <= 7.95 / 10 ^ 29.
Proof.
  intros lm G c lo la h Hc Flo Fla Fh Hla Hh.
  destruct (L_PAccGeo.C70_accuracy_pf lm G c lo la h Hc Flo Fla Fh ltac:(apply Rabs_le; lra)) as (v & V & A0 & A1 & A2).
  unfold coord, vget in A0, A1, A2. destruct A0 as [F0 A0]. destruct A1 as [F1 A1]. destruct A2 as [F2 A2].
  set (X := B2R (v0 (A := b64A lm) v)) in *. set (Y := B2R (v1 (A := b64A lm) v)) in *. set (Z := B2R (v2 (A := b64A lm) v)) in *.
  pose proof (wgs84_low (B2R lo) (B2R la) (B2R h) ltac:(lra)) as W. cbv zeta in W. destruct W as [WL _]. specialize (WL ltac:(lra)).
  pose proof (L_PAccGd.wgs84_dist (B2R lo) (B2R la) (B2R h)) as WU.
  assert (D2B : dist2 (wgs84_at (B2R lo) (B2R la) (B2R h)) (V3 (A := realA) X Y Z) <= 2.7 / 10 ^ 15).
  { unfold dist2. cbn [v0 v1 v2]. set (p0 := v0 (A := realA) _) in *. set (p1 := v1 (A := realA) _) in *. set (p2 := v2 (A := realA) _) in *. clearbody p0 p1 p2 X Y Z. clear -A0 A1 A2.
    assert (S : forall u w, Rabs (u - w) <= 3 / 10 ^ 8 -> (w - u) ^ 2 <= 9 / 10 ^ 16).
    { intros u w H. rewrite <- (Rabs_pos_eq ((w - u) ^ 2)) by apply pow2_ge_0. replace (9 / 10 ^ 16) with (3 / 10 ^ 8 * (3 / 10 ^ 8)) by lra.
      replace ((w - u) ^ 2) with ((u - w) * (u - w)) by ring. apply L_Halley.abs_mul_bd; exact H. }
    pose proof (S _ _ A0). pose proof (S _ _ A1). pose proof (S _ _ A2). lra. }
  assert (RX : 5900000 <= sqrt (X ^ 2 + Y ^ 2 + Z ^ 2) <= 25350000).
  { destruct (WU ltac:(lra)) as [_ WU']. clear WU. assert (HA : Rabs (B2R h) <= 10000000) by (apply Rabs_le; lra).
    set (w := wgs84_at (B2R lo) (B2R la) (B2R h)) in *. 
    assert (WU : sqrt (v0 (A := realA) w ^ 2 + v1 (A := realA) w ^ 2 + v2 (A := realA) w ^ 2) <= 16400000) by lra. clear WU' D2B.
    set (p0 := v0 (A := realA) w) in *. set (p1 := v1 (A := realA) w) in *. set (p2 := v2 (A := realA) w) in *. clearbody p0 p1 p2 X Y Z. clear -A0 A1 A2 WL WU.
    set (s := p0 ^ 2 + p1 ^ 2 + p2 ^ 2) in *. pose proof (pow2_ge_0 p0) as Q0. pose proof (pow2_ge_0 p1) as Q1. pose proof (pow2_ge_0 p2) as Q2.
    assert (S0 : 0 <= s) by (unfold s; lra). pose proof (sqrt_sqrt s S0) as SS. set (r := sqrt s) in *.
    assert (SL : 5950000 * 5950000 <= s) by (rewrite <- SS; apply Rmult_le_compat; lra).
    assert (SU : s <= 16400000 * 16400000) by (rewrite <- SS; apply Rmult_le_compat; lra). clearbody r.
    assert (S : forall u w, Rabs (u - w) <= 3 / 10 ^ 8 -> w ^ 2 <= s -> Rabs (u ^ 2 - w ^ 2) <= 1).
    { intros u w H Hw. assert (Rabs w <= 16400000).
      { apply Rnot_lt_le. intros L. assert (16400000 * 16400000 < Rabs w * Rabs w) by (apply Rmult_le_0_lt_compat; lra).
        rewrite <- Rabs_mult, (Rabs_pos_eq (w * w)) in H0 by apply Rle_0_sqr. lra. }
      replace (u ^ 2 - w ^ 2) with ((u - w) * ((u - w) + 2 * w)) by ring.
      apply Rle_trans with (3 / 10 ^ 8 * 32800001); [|lra]. apply L_Halley.abs_mul_bd; [exact H|].
      apply Rabs_le. apply Rabs_le_inv in H. apply Rabs_le_inv in H0. lra. }
    assert (R0 := S _ _ A0 ltac:(unfold s; lra)). assert (R1 := S _ _ A1 ltac:(unfold s; lra)). assert (R2 := S _ _ A2 ltac:(unfold s; lra)).
    apply Rabs_le_inv in R0. apply Rabs_le_inv in R1. apply Rabs_le_inv in R2.
    split.
    - rewrite <- (sqrt_square 5900000) by lra. apply sqrt_le_1_alt. unfold s in SL. lra.
    - rewrite <- (sqrt_square 25350000) by lra. apply sqrt_le_1_alt. unfold s in SU. lra. }
  destruct (wgs84_exists X Y Z (proj1 RX)) as (lo1 & la1 & h1 & Hlo1 & Hla1 & Hh1' & E1).
  assert (Hh1 : -500000 <= h1 <= 25350000) by lra. clear Hh1'.
  exists v, lo1, la1, h1. split; [exact V|]. split; [exact F0|]. split; [exact F1|]. split; [exact F2|]. split; [exact Hlo1|]. split; [exact Hla1|]. split; [exact Hh1|]. split; [exact E1|].
  destruct (wgs84_lip (B2R lo) (B2R la) (B2R h) lo1 la1 h1 ltac:(lra) ltac:(lra)) as [L1 L2]. cbv zeta in L1, L2. rewrite E1 in L1, L2.
  set (D2 := dist2 _ _) in *. pose proof (zdot_le1 (B2R lo) (B2R la) lo1 la1) as DP. 
  pose proof (zdot_split (B2R lo) (B2R la) lo1 la1) as ZS. set (d := zdot _ _ _ _) in *.
  assert (D : 2 * (1 - d) <= 7.95 / 10 ^ 29).
  { assert (M : 3.4 * 10 ^ 13 <= (6282464 + (B2R h + h1) / 2) ^ 2).
    { apply Rle_trans with (5832464 ^ 2); [lra|]. apply pow_incr. lra. }
    assert (3.4 * 10 ^ 13 * (2 * (1 - d)) <= 2.7 / 10 ^ 15) by (eapply Rle_trans; [apply Rmult_le_compat_r; [lra|exact M]|lra]). lra. }
  pose proof PI_RGT_0.
  assert (CC : 0 <= cos (B2R la) * cos la1 * (1 - cos (B2R lo - lo1))).
  { assert (0 <= cos (B2R la)) by (apply cos_ge_0; lra). assert (0 <= cos la1) by (apply cos_ge_0; lra). pose proof (COS_bound (B2R lo - lo1)).
    apply Rmult_le_pos; [apply Rmult_le_pos; assumption|lra]. }
  pose proof (COS_bound (B2R la - la1)) as CB.
  assert (CN : forall x y, cos (x - y) = cos (y - x)) by (intros x y; rewrite <- cos_neg; f_equal; ring).
  split; [|split].
  - eapply Rle_trans; [apply (small_angle (la1 - B2R la) (9 / 10 ^ 15)); [lra|lra|]|lra]. rewrite CN. lra.
  - rewrite Rabs_minus_sym. eapply Rle_trans; [exact L2|].
    assert (SQ : sqrt D2 <= 5.197 / 10 ^ 8).
    { rewrite <- (sqrt_square (5.197 / 10 ^ 8)) by lra. apply sqrt_le_1_alt. lra. }
    assert (MX : Rmax (Rabs (B2R h)) (Rabs h1) <= 25350000) by (apply Rmax_lub; apply Rabs_le; lra).
    assert (Rmax (Rabs (B2R h)) (Rabs h1) * (1 - d) <= 25350000 * (4 / 10 ^ 29)).
    { apply Rmult_le_compat; [eapply Rle_trans; [apply Rabs_pos|apply Rmax_l]|lra|exact MX|lra]. }
    lra.
  - rewrite CN. set (m := cos (B2R la) * cos la1) in *. set (u := 1 - cos (B2R lo - lo1)) in *. set (mu := m * u) in *. replace (m * (2 * u)) with (2 * mu) by (unfold mu; ring). lra.
Qed.

Lemma back_long : forall lo lo1 la la1, - (PI / 2) <= la <= PI / 2 -> / 10 ^ 6 <= cos la -> Rabs (la1 - la) <= 1.08 / 10 ^ 14 ->
  cos la * cos la1 * (2 * (1 - cos (lo1 - lo))) <= 7.95 / 10 ^ 29 ->
  99 / 100 * cos la <= cos la1 /\ exists k : Z, Rabs (lo1 - (lo + IZR k * (2 * PI))) <= 1.08 / 10 ^ 14 / cos la.
Proof.
  intros lo lo1 la la1 Hla C L H. set (c := cos la) in *. pose proof (L_Apx.cos_lip la1 la) as CL. fold c in CL.
  assert (C1 : 99 / 100 * c <= cos la1) by (apply Rabs_le_inv in CL; lra). split; [exact C1|].
  destruct (reduce_turn (lo1 - lo)) as [k HK]. exists (- k)%Z. rewrite opp_IZR.
  destruct (L_ApxMod.trig_turns (lo1 - lo) k) as [T _]. set (t := lo1 - lo + IZR k * (2 * PI)) in *.
  replace (lo1 - (lo + - IZR k * (2 * PI))) with t by (unfold t; ring). rewrite <- T in H.
  assert (CP : 0 < c) by lra. assert (I : 0 < / c <= 10 ^ 6).
  { split; [apply Rinv_0_lt_compat; exact CP|]. rewrite <- (Rinv_inv (10 ^ 6)). apply Rinv_le; [lra|exact C]. }
  replace (1.08 / 10 ^ 14 / c) with (6 / 5 * (9 / 10 ^ 15 * / c)) by (unfold Rdiv; lra).
  apply small_angle; [exact HK|lra|].
  pose proof (COS_bound t) as CT. set (u := 2 * (1 - cos t)) in *. assert (U : 0 <= u) by (unfold u; lra). clearbody u.
  assert (M : 99 / 100 * (c * c) * u <= 7.95 / 10 ^ 29).
  { eapply Rle_trans; [|exact H]. apply Rmult_le_compat_r; [exact U|]. replace (99 / 100 * (c * c)) with (c * (99 / 100 * c)) by ring. apply Rmult_le_compat_l; [lra|exact C1]. }
  replace (9 / 10 ^ 15 * / c * (9 / 10 ^ 15 * / c)) with (8.1 / 10 ^ 29 * (/ c * / c)) by lra.
  replace u with (c * c * u * (/ c * / c)) by (field; lra).
  apply Rmult_le_compat_r; [apply Rmult_le_pos; lra|]. lra.
Qed.

(** C75, binary64, WGS84: from geodetic to geocentric and back, any place from 400
    km below to 10000 km above the ellipsoid: the latitude comes back within
    1.1e-10 rad, the height within 0.1 micrometres, and, a few metres from the
    axis or more, the longitude within 1.2e-14 rad over the cosine of the latitude. *)
Lemma C75_round_trip_pf : forall lm, good_libm lm -> forall c lo la h,
  conv_new (A := b64A lm) (WGS84 (A := b64A lm)) = Ok c -> fin lo = true -> fin la = true -> fin h = true ->
  - (PI / 2) <= B2R la <= PI / 2 -> -400000 <= B2R h <= 10000000 ->
  exists v, geodetic_to_geocentric (A := b64A lm) c (MkGeod (A := b64A lm) lo la h) = Ok v /\
  let g := geocentric_to_geodetic (A := b64A lm) c v in
  near (phi (A := b64A lm) g) (B2R la) (1.1 / 10 ^ 10) /\ near (height (A := b64A lm) g) (B2R h) (/ 10 ^ 7) /\
  (/ 10 ^ 6 <= cos (B2R la) -> near_angle (elong (A := b64A lm) g) (B2R lo) (1.2 / 10 ^ 14 / cos (B2R la))).
Proof.
  intros lm G c lo la h Hc Flo Fla Fh Hla Hh.
  destruct (back lm G c lo la h Hc Flo Fla Fh Hla Hh) as (v & lo1 & la1 & h1 & V & F0 & F1 & F2 & Hlo1 & Hla1 & Hh1 & E & Bla & Bh & Blo).
  exists v. split; [exact V|]. intros g.
  destruct (L_PAccGd.C73_everywhere_pf lm G c _ _ _ lo1 la1 h1 Hc F0 F1 F2 Hlo1 Hla1 ltac:(lra) E) as [P1 P2].
  destruct (L_PAccGd.C73_geodetic_pf lm G c _ _ _ lo1 la1 h1 Hc F0 F1 F2 Hlo1 Hla1 ltac:(lra) E) as (_ & _ & P3).
  replace (V3 (A := b64A lm) (v0 (A := b64A lm) v) (v1 (A := b64A lm) v) (v2 (A := b64A lm) v)) with v in P1, P2, P3 by (destruct v; reflexivity).
  fold g in P1, P2, P3. destruct P1 as [FP P1]. destruct P2 as [FH P2].
  assert (HA : Rabs h1 <= 10000001) by (apply Rabs_le; apply Rabs_le_inv in Bh; lra).
  split; [|split].
  - split; [exact FP|]. apply Rabs_le_inv in P1. apply Rabs_le_inv in Bla. apply Rabs_le. lra.
  - split; [exact FH|]. apply Rabs_le_inv in P2. apply Rabs_le_inv in Bh. apply Rabs_le. lra.
  - intros C. destruct (back_long _ _ _ _ Hla C Bla Blo) as [C1 [k HK]].
    assert (NN : / 10 ^ 300 <= B2R (v0 (A := b64A lm) v) ^ 2 + B2R (v1 (A := b64A lm) v) ^ 2).
    { rewrite wgs84_gg in E. assert (EX := f_equal (fun v => v0 (A := realA) v) E). assert (EY := f_equal (fun v => v1 (A := realA) v) E). cbn [v0 v1] in EX, EY. rewrite <- EX, <- EY.
      replace (((6378137 / gg la1 + h1) * (cos la1 * cos lo1)) ^ 2 + ((6378137 / gg la1 + h1) * (cos la1 * sin lo1)) ^ 2) with (((6378137 / gg la1 + h1) * cos la1) * ((6378137 / gg la1 + h1) * cos la1) * (sin lo1 * sin lo1 + cos lo1 * cos lo1)) by ring. rewrite sc1, Rmult_1_r.
      pose proof (g_range la1) as GR. fold (gg la1) in GR. assert (6378137 <= 6378137 / gg la1).
      { apply (Rmult_le_reg_r (gg la1)); [lra|]. unfold Rdiv. rewrite Rmult_assoc, Rinv_l by lra. lra. }
      assert (N1 : 1 <= (6378137 / gg la1 + h1) * cos la1).
      { apply Rle_trans with (5000000 * (99 / 100 * / 10 ^ 6)); [lra|]. apply Rmult_le_compat; lra. }
      apply Rle_trans with (1 * 1); [|apply Rmult_le_compat; lra]. rewrite Rmult_1_l, <- Rinv_1. apply Rinv_le; [lra|]. rewrite <- (pow1 300). apply pow_incr. lra. }
    destruct (P3 NN) as (FE & j & HJ). split; [exact FE|]. exists (j + k)%Z. rewrite plus_IZR.
    assert (B51 : bpow radix2 (-51) <= 4.5 / 10 ^ 16) by (cbn -[IZR]; lra).
    assert (I : 1 <= / cos (B2R la)) by (rewrite <- Rinv_1 at 1; apply Rinv_le; [lra|pose proof (COS_bound (B2R la)); lra]).
    unfold Rdiv in HK |- *. set (ic := / cos (B2R la)) in *. clearbody ic. set (e := B2R (elong (A := b64A lm) g)) in *.
    apply Rabs_le_inv in HK. apply Rabs_le_inv in HJ. apply Rabs_le. lra.
Qed.

(** C75 near the ground: latitude within 3.1e-14 rad (0.2 micrometres on the ground),
    height within 70 nanometres. *)
Lemma C75_ground_pf : forall lm, good_libm lm -> forall c lo la h,
  conv_new (A := b64A lm) (WGS84 (A := b64A lm)) = Ok c -> fin lo = true -> fin la = true -> fin h = true ->
  - (PI / 2) <= B2R la <= PI / 2 -> -9999 <= B2R h <= 9999 ->
  exists v, geodetic_to_geocentric (A := b64A lm) c (MkGeod (A := b64A lm) lo la h) = Ok v /\
  let g := geocentric_to_geodetic (A := b64A lm) c v in
  near (phi (A := b64A lm) g) (B2R la) (3.1 / 10 ^ 14) /\ near (height (A := b64A lm) g) (B2R h) (7 / 10 ^ 8).
Proof.
  intros lm G c lo la h Hc Flo Fla Fh Hla Hh.
  destruct (back lm G c lo la h Hc Flo Fla Fh Hla ltac:(lra)) as (v & lo1 & la1 & h1 & V & F0 & F1 & F2 & Hlo1 & Hla1 & Hh1 & E & Bla & Bh & Blo).
  exists v. split; [exact V|]. intros g.
  destruct (L_PAccGd.C73_ground_pf lm G c _ _ _ lo1 la1 h1 Hc F0 F1 F2 Hlo1 Hla1 ltac:(apply Rabs_le_inv in Bh; lra) E) as [P1 P2].
  replace (V3 (A := b64A lm) (v0 (A := b64A lm) v) (v1 (A := b64A lm) v) (v2 (A := b64A lm) v)) with v in P1, P2 by (destruct v; reflexivity).
  fold g in P1, P2. destruct P1 as [FP P1]. destruct P2 as [FH P2].
  split.
  - split; [exact FP|]. apply Rabs_le_inv in P1. apply Rabs_le_inv in Bla. apply Rabs_le. lra.
  - split; [exact FH|]. apply Rabs_le_inv in P2. apply Rabs_le_inv in Bh. apply Rabs_le. lra.
Qed.

(** C75 at latitude and longitude one radian, 100 m up. *)
Example C75_example_pf : forall lm, good_libm lm -> exists c v,
  conv_new (A := b64A lm) (WGS84 (A := b64A lm)) = Ok c /\
  geodetic_to_geocentric (A := b64A lm) c (MkGeod (A := b64A lm) (Flit 1 0) (Flit 1 0) (Flit 100 0)) = Ok v /\
  let g := geocentric_to_geodetic (A := b64A lm) c v in
  near (phi (A := b64A lm) g) 1 (3.1 / 10 ^ 14) /\ near (height (A := b64A lm) g) 100 (7 / 10 ^ 8).
Proof.
  intros lm G. destruct (L_PSunAngle.wgs84_F lm) as (c & Hc & _).
  destruct (Flit_int 1 ltac:(lia)) as [E0 F0]. destruct (Flit_int 100 ltac:(lia)) as [E1 F1].
  pose proof L_Pi.PI_bounds_24 as PB.
  destruct (C75_ground_pf lm G c (Flit 1 0) (Flit 1 0) (Flit 100 0) Hc F0 F0 F1 ltac:(rewrite E0; lra) ltac:(rewrite E1; lra)) as (v & V & T).
  rewrite E0, E1 in T. exists c, v. split; [exact Hc|]. split; [exact V|exact T].
Qed.
