(** * The WGS84 round trip near the ground, and test_ellipsoid: C75, C101 *)

From Coq Require Import ZArith Reals Lra Lia Bool List Ascii String.
From Flocq Require Import Core BinarySingleNaN.
From Verif Require Import Outcome Arith ArithR ArithF Spec_Float M_Common M_Calendar M_DeltaAt M_Time M_Earth M_Frames M_Ellipsoid M_Display M_Tests Spec_Calendar Spec_Api Spec_Matrix Spec_Accuracy Spec_Sharp Spec_Tests.
From Verif Require Import L_ArithR L_ArithF L_Flit.
From Verif Require L_Pi L_Libm L_PTests L_PGeoTrip L_PSunAngle L_Tight L_TightLon.
Import ListNotations.
Open Scope R_scope.

(** C75, binary64, WGS84, up to 10 km above or below the ellipsoid: from geodetic to
    geocentric and back, the height comes back within 14.2 nanometres, the latitude within
    1.1e-10 rad, at every place including the poles. *)
Lemma C75_ground_height_pf : forall lm, good_libm lm -> forall c lo la h,
  conv_new (A := b64A lm) (WGS84 (A := b64A lm)) = Ok c -> fin lo = true -> fin la = true -> fin h = true ->
  - (PI / 2) <= B2R la <= PI / 2 -> -10000 <= B2R h <= 10000 ->
  exists v, geodetic_to_geocentric (A := b64A lm) c (MkGeod (A := b64A lm) lo la h) = Ok v /\
  let g := geocentric_to_geodetic (A := b64A lm) c v in
  near (phi (A := b64A lm) g) (B2R la) (1.1 / 10 ^ 10) /\ near (height (A := b64A lm) g) (B2R h) (1.42 / 10 ^ 8).
Proof.
  intros lm G c lo la h HC Flo Fla Fh Hla Hh.
  destruct (L_PGeoTrip.C75_round_trip_pf lm G c lo la h HC Flo Fla Fh Hla ltac:(lra)) as (v & V & NP & _).
  exists v. split; [exact V|]. split; [exact NP|]. exact (L_Tight.ground_tight lm G c lo la h v HC Flo Fla Fh Hla Hh V NP).
Qed.

(** C75, binary64, WGS84, the longitude: with a libm whose sine and cosine have a small relative error,
    and whose atan2 returns the principal argument, a longitude from -pi to pi comes back within 1.1e-15 rad
    at every place up to 10 km above or below the ellipsoid: also at the poles, and with no turn added. *)
Lemma C75_longitude_pf : forall lm, good_libm lm -> sharp_libm lm -> forall c lo la h v,
  conv_new (A := b64A lm) (WGS84 (A := b64A lm)) = Ok c -> fin lo = true -> fin la = true -> fin h = true ->
  - PI <= B2R lo <= PI -> - (PI / 2) <= B2R la <= PI / 2 -> -10000 <= B2R h <= 10000 ->
  geodetic_to_geocentric (A := b64A lm) c (MkGeod (A := b64A lm) lo la h) = Ok v ->
  near (elong (A := b64A lm) (geocentric_to_geodetic (A := b64A lm) c v)) (B2R lo) (1.1 / 10 ^ 15).
Proof. exact L_TightLon.lon_tight. Qed.

(** ** A libm that is rounded to nearest *)

Definition nearest (t : R) : b64 := Fof (ZnearestE (scaled_mantissa radix2 fx t)) (cexp radix2 fx t).

Lemma nearest_ok : forall t, Rabs t <= 10 -> fin (nearest t) = true /\ B2R (nearest t) = rnd t.
Proof.
  intros t H. pose proof (binary_normalize_correct 53 1024 _ _ mode_NE (ZnearestE (scaled_mantissa radix2 fx t)) (cexp radix2 fx t) false) as C.
  change (round_mode mode_NE) with ZnearestE in C. change (SpecFloat.fexp 53 1024) with fx in C.
  assert (EQ : F2R (Float radix2 (ZnearestE (scaled_mantissa radix2 fx t)) (cexp radix2 fx t)) = rnd t) by reflexivity. rewrite EQ in C. cbv zeta in C.
  assert (FR : format (rnd t)) by (apply generic_format_round; [apply fx_valid|apply valid_rnd_N]).
  pose proof (rnd_id _ FR) as RR. rewrite RR in C. rewrite Rlt_bool_true in C.
  - destruct C as (C1 & C2 & _). split; [exact C2|exact C1].
  - apply Rle_lt_trans with (bpow radix2 4); [|apply bpow_lt; lia]. apply rnd_abs_le; [apply generic_format_bpow; vm_compute; discriminate|].
    change (bpow radix2 4) with 16. lra.
Qed.

Lemma nearest_rel : forall t, Rabs t <= 10 -> Rabs (B2R (nearest t) - t) <= bpow radix2 (-52) * Rabs t + bpow radix2 (-1074).
Proof.
  intros t H. destruct (nearest_ok t H) as [_ E]. rewrite E. pose proof (rnd_rel t) as K. pose proof (bpow_gt_0 radix2 (-1074)).
  pose proof (bpow_gt_0 radix2 (-52)). assert (0 <= bpow radix2 (-52) * Rabs t) by (apply Rmult_le_pos; [lra|apply Rabs_pos]). lra.
Qed.
Lemma nearest_abs : forall t k, (1 <= k <= 2)%Z -> Rabs t <= bpow radix2 k -> fin (nearest t) = true /\ Rabs (B2R (nearest t) - t) <= bpow radix2 (k - 53).
Proof.
  intros t k HK H. assert (T10 : Rabs t <= 10) by (eapply Rle_trans; [exact H|]; apply Rle_trans with (bpow radix2 2); [apply bpow_le; lia|change (bpow radix2 2) with 4; lra]).
  destruct (nearest_ok t T10) as [F E]. split; [exact F|]. rewrite E. pose proof (rnd_error t k ltac:(lia) H) as K. pose proof (bpow_gt_0 radix2 (k - 53)). lra.
Qed.

Definition round_libm : libm := {|
  lm_sin := fun x => nearest (sin (B2R x));
  lm_cos := fun x => nearest (cos (B2R x));
  lm_acos := fun x => nearest (acos (B2R x));
  lm_atan := fun x => nearest (atan (B2R x));
  lm_atan2 := fun y x => nearest (Ratan2 (B2R y) (B2R x)) |}.

Lemma round_good : good_libm round_libm.
Proof.
  pose proof PI_4. pose proof PI_RGT_0.
  split; cbn [round_libm lm_sin lm_cos lm_acos lm_atan lm_atan2].
  - intros x _. apply (nearest_abs _ 1); [lia|]. change (bpow radix2 1) with 2. pose proof (SIN_bound (B2R x)). apply Rabs_le. lra.
  - intros x _. apply (nearest_abs _ 1); [lia|]. change (bpow radix2 1) with 2. pose proof (COS_bound (B2R x)). apply Rabs_le. lra.
  - intros x _ _. apply (nearest_abs _ 2); [lia|]. change (bpow radix2 2) with 4. pose proof (acos_bound (B2R x)). apply Rabs_le. lra.
  - intros x _. apply (nearest_abs _ 1); [lia|]. change (bpow radix2 1) with 2. pose proof (atan_bound (B2R x)). apply Rabs_le. lra.
  - intros y x _ _ _. destruct (nearest_abs (Ratan2 (B2R y) (B2R x)) 2) as [F E]; [lia|eapply Rle_trans; [apply L_Libm.atan2_abs|]; change (bpow radix2 2) with 4; lra|].
    split; [exact F|]. exists 0%Z. split; [lia|]. rewrite Rmult_0_l, Rplus_0_r. exact E.
Qed.
Lemma round_sharp : sharp_libm round_libm.
Proof.
  pose proof PI_4. pose proof PI_RGT_0.
  split; cbn [round_libm lm_sin lm_cos lm_atan2].
  - intros x _. apply nearest_rel. pose proof (SIN_bound (B2R x)). apply Rabs_le. lra.
  - intros x _. apply nearest_rel. pose proof (COS_bound (B2R x)). apply Rabs_le. lra.
  - intros y x _ _ _. apply (nearest_abs _ 2); [lia|]. eapply Rle_trans; [apply L_Libm.atan2_abs|]. change (bpow radix2 2) with 4. lra.
Qed.

(** A libm that rounds to nearest satisfies both assumptions. *)
Example C75_longitude_example_pf : exists lm, good_libm lm /\ sharp_libm lm.
Proof. exists round_libm. split; [exact round_good|exact round_sharp]. Qed.

(** ** test_ellipsoid *)

Lemma affine : forall m k u, (0 < m <= 1000)%Z -> (0 < k <= 1000)%Z -> (k <= m)%Z -> drawn u ->
  let t := Fadd (Bopp (Flit k 0)) (Fmul (Flit m 0) u) in fin t = true /\ - IZR k <= B2R t <= IZR (m - k).
Proof.
  intros m k u Hm Hk HKM [Fu Hu] t. destruct (Flit_int m ltac:(lia)) as [Em Fm]. destruct (Flit_int k ltac:(lia)) as [Ek Fk].
  assert (M1 : 1 <= IZR m <= 1000) by (split; apply IZR_le; lia). assert (K1 : 1 <= IZR k <= 1000) by (split; apply IZR_le; lia). assert (KM : IZR k <= IZR m) by (apply IZR_le; lia).
  assert (MU : 0 <= IZR m * B2R u <= IZR m) by (split; [apply Rmult_le_pos; lra|rewrite <- (Rmult_1_r (IZR m)) at 2; apply Rmult_le_compat_l; lra]).
  destruct (Fmul_ok (Flit m 0) u Fm Fu) as [V F]; [rewrite Em; apply (small_le _ 10); [lia|]; change (bpow radix2 10) with 1024; rewrite Rabs_pos_eq; lra|]. rewrite Em in V.
  assert (RB : 0 <= rnd (IZR m * B2R u) <= IZR m).
  { split; [apply rnd_ge; [apply generic_format_0|lra]|]. apply rnd_le; [rewrite <- Em; apply format_B2R|lra]. }
  destruct (Fadd_ok (Bopp (Flit k 0)) (Fmul (Flit m 0) u)) as [V2 F2]; [rewrite is_finite_Bopp; exact Fk|exact F|rewrite B2R_Bopp, Ek, V; apply (small_le _ 10); [lia|]; change (bpow radix2 10) with 1024; apply Rabs_le; lra|].
  split; [exact F2|]. unfold t. rewrite V2, B2R_Bopp, Ek, V. split.
  - apply rnd_ge; [|lra]. rewrite <- Ek, <- B2R_Bopp. apply format_B2R.
  - rewrite minus_IZR. apply rnd_le; [|lra]. rewrite <- minus_IZR. destruct (Flit_int (m - k) ltac:(lia)) as [E _]. rewrite <- E. apply format_B2R.
Qed.

Lemma degrees : forall lm t k b, fin t = true -> - IZR k <= B2R t <= IZR k -> (0 < k <= 1000)%Z ->
  B2R (Fmul (Flit k 0) (DEGREE (A := b64A lm))) <= b -> fin (DEGREE (A := b64A lm)) = true -> 0 < B2R (DEGREE (A := b64A lm)) <= 1 ->
  fin (Fmul t (DEGREE (A := b64A lm))) = true /\ - b <= B2R (Fmul t (DEGREE (A := b64A lm))) <= b.
Proof.
  intros lm t k b Ft Ht Hk HB Fd Hd. set (d := DEGREE (A := b64A lm)) in *. clearbody d. destruct (Flit_int k ltac:(lia)) as [Ek Fk].
  assert (K1 : 1 <= IZR k <= 1000) by (split; apply IZR_le; lia).
  assert (KD : 0 <= IZR k * B2R d <= 1000 * 1) by (split; [apply Rmult_le_pos; lra|apply Rmult_le_compat; lra]).
  assert (TD : Rabs (B2R t * B2R d) <= IZR k * B2R d) by (rewrite Rabs_mult, (Rabs_pos_eq (B2R d)) by lra; apply Rmult_le_compat_r; [lra|apply Rabs_le; lra]).
  destruct (Fmul_ok (Flit k 0) d Fk Fd) as [V _]; [rewrite Ek; apply (small_le _ 10); [lia|]; change (bpow radix2 10) with 1024; rewrite Rabs_pos_eq; lra|]. rewrite Ek in V. rewrite V in HB.
  destruct (Fmul_ok t d Ft Fd) as [V2 F2]; [apply (small_le _ 10); [lia|]; change (bpow radix2 10) with 1024; lra|]. split; [exact F2|]. rewrite V2.
  apply Rabs_le_inv in TD. split.
  - apply Rle_trans with (rnd (- (IZR k * B2R d))); [|apply rnd_mono; lra]. rewrite round_NE_opp. lra.
  - apply Rle_trans with (rnd (IZR k * B2R d)); [apply rnd_mono; lra|exact HB].
Qed.

Lemma deg_F : forall lm, fin (DEGREE (A := b64A lm)) = true /\ 0 < B2R (DEGREE (A := b64A lm)) <= 1 /\
  B2R (Fmul (Flit 180 0) (DEGREE (A := b64A lm))) <= PI /\ B2R (Fmul (Flit 90 0) (DEGREE (A := b64A lm))) <= PI / 2.
Proof.
  intros lm. pose proof L_Pi.PI_bounds_24 as PB. unfold DEGREE. b64A_ops. split; [vm_compute; reflexivity|]. split; [L_TightLon.flit_value; lra|].
  split; L_TightLon.flit_value; lra.
Qed.

Lemma three : forall a b c t : b64, fin a = true -> fin b = true -> fin c = true -> 0 <= B2R a <= bpow radix2 (-32) -> 0 <= B2R b <= bpow radix2 (-32) -> 0 <= B2R c <= 61 * bpow radix2 (-32) ->
  fin t = true -> B2R t = bpow radix2 (-26) -> Bltb t (Fadd (Fadd a b) c) = false.
Proof.
  intros a b c t Fa Fb Fc Ha Hb Hc Ft Et. pose proof (bpow_gt_0 radix2 (-32)) as P. assert (P1 : bpow radix2 (-32) <= / 1000) by (change (bpow radix2 (-32)) with (/ 4294967296); lra).
  assert (FM : forall m, (0 <= m <= 100)%Z -> format (IZR m * bpow radix2 (-32))) by (intros m Hm; apply format_dyadic; lia).
  destruct (Fadd_ok a b Fa Fb) as [V F]; [apply (small_le _ 1); [lia|]; change (bpow radix2 1) with 2; rewrite Rabs_pos_eq; lra|].
  assert (R1 : 0 <= rnd (B2R a + B2R b) <= 2 * bpow radix2 (-32)) by (split; [apply rnd_ge; [apply generic_format_0|lra]|apply rnd_le; [apply (FM 2%Z); lia|lra]]).
  rewrite <- V in R1. destruct (Fadd_ok _ c F Fc) as [V2 F2]; [apply (small_le _ 1); [lia|]; change (bpow radix2 1) with 2; rewrite Rabs_pos_eq; lra|].
  rewrite Bltb_correct by assumption. rewrite Et, V2. apply Rlt_bool_false. apply Rle_trans with (63 * bpow radix2 (-32)).
  - apply rnd_le; [apply (FM 63%Z); lia|lra].
  - change (-26)%Z with (6 + -32)%Z. rewrite bpow_plus. change (bpow radix2 6) with 64. lra.
Qed.

Lemma diff : forall (a : b64) b r t, fin a = true -> near b r t -> B2R a = r -> t <= 1 -> forall m, (1 <= m <= 100)%Z -> t <= IZR m * bpow radix2 (-32) ->
  fin (Babs (Fsub a b)) = true /\ 0 <= B2R (Babs (Fsub a b)) <= IZR m * bpow radix2 (-32).
Proof.
  intros a b r t Fa [Fb Eb] Ea T1 m Hm Ht. assert (M1 : IZR m <= 100) by (apply IZR_le; lia). assert (P1 : bpow radix2 (-32) <= / 1000) by (change (bpow radix2 (-32)) with (/ 4294967296); lra).
  pose proof (bpow_gt_0 radix2 (-32)) as P.
  destruct (L_PTests.diff_F a b (IZR m * bpow radix2 (-32)) Fa Fb) as [F V].
  - apply format_dyadic; lia.
  - apply Rle_trans with (100 * / 1000); [apply Rmult_le_compat; try lra; apply IZR_le; lia|lra].
  - rewrite Rabs_minus_sym, Ea. lra.
  - split; [exact F|]. split; [rewrite B2R_Babs; apply Rabs_pos|exact V].
Qed.

Lemma ellipsoid_pass_ok : forall lm, good_libm lm -> sharp_libm lm -> forall c, conv_new (A := b64A lm) (WGS84 (A := b64A lm)) = Ok c ->
  forall u, drawn3 u -> ellipsoid_pass (A := b64A lm) c u = Val tt.
Proof.
  intros lm G SH c HC [[u0 u1] u2] [[D0 D1] D2]. cbn [fst snd] in *. unfold ellipsoid_pass. cbv zeta.
  destruct (deg_F lm) as (Fd & Hd & D180 & D90). b64A_ops.
  destruct (affine 360 180 u0 ltac:(lia) ltac:(lia) ltac:(lia) D0) as [F0 B0]. destruct (affine 90 90 u1 ltac:(lia) ltac:(lia) ltac:(lia) D1) as [F1 B1].
  change (360 - 180)%Z with 180%Z in B0. change (90 - 90)%Z with 0%Z in B1. cbv zeta in *.
  destruct (degrees lm _ 180 PI F0 B0 ltac:(lia) D180 Fd Hd) as [F0' B0']. destruct (degrees lm _ 90 (PI / 2) F1 ltac:(lra) ltac:(lia) D90 Fd Hd) as [F1' B1'].
  set (lo := Fmul (Fadd (Bopp (Flit 180 0)) (Fmul (Flit 360 0) u0)) (DEGREE (A := b64A lm))) in *.
  set (la := Fmul (Fadd (Bopp (Flit 90 0)) (Fmul (Flit 90 0) u1)) (DEGREE (A := b64A lm))) in *.
  assert (H2 : fin (Fmul (Flit 10000 0) u2) = true /\ 0 <= B2R (Fmul (Flit 10000 0) u2) <= 10000).
  { destruct D2 as [Fu Hu]. destruct (Flit_int 10000 ltac:(lia)) as [E F]. destruct (Fmul_ok (Flit 10000 0) u2 F Fu) as [V Q]; [rewrite E; apply (small_le _ 20); [lia|]; change (bpow radix2 20) with 1048576; rewrite Rabs_pos_eq; lra|].
    split; [exact Q|]. rewrite V, E. split; [apply rnd_ge; [apply generic_format_0|lra]|apply rnd_le; [rewrite <- E; apply format_B2R|lra]]. }
  destruct H2 as [Fh Hh]. set (h := Fmul (Flit 10000 0) u2) in *. clearbody lo la h.
  destruct (C75_ground_height_pf lm G c lo la h HC F0' F1' Fh B1' ltac:(lra)) as (v & V & NP & NH).
  pose proof (C75_longitude_pf lm G SH c lo la h v HC F0' F1' Fh B0' B1' ltac:(lra) V) as NL.
  rewrite V. cbn [unwrap bind]. cbn [elong phi height]. set (g := geocentric_to_geodetic (A := b64A lm) c v) in *. clearbody g.
  assert (P32 : bpow radix2 (-32) = / 4294967296) by reflexivity.
  destruct (diff lo _ _ _ F0' NL eq_refl ltac:(lra) 1%Z ltac:(lia) ltac:(lra)) as [FA EA].
  destruct (diff la _ _ _ F1' NP eq_refl ltac:(lra) 1%Z ltac:(lia) ltac:(lra)) as [FB EB].
  destruct (diff h _ _ _ Fh NH eq_refl ltac:(lra) 61%Z ltac:(lia) ltac:(lra)) as [FC EC].
  destruct (L_PTests.sqeps_F lm) as [E26 F26]. 
  change (nsqrt (b64A lm) (EPSILON (A := b64A lm))) with (Fsqrt (EPSILON (A := b64A lm))) in E26, F26.
  rewrite (three _ _ _ (Fsqrt (EPSILON (A := b64A lm))) FA FB FC ltac:(lra) ltac:(lra) ltac:(lra) F26 E26). reflexivity.
Qed.

(** C101, the ellipsoid test.  Whatever numbers in [0, 1) fastrand draws, and however many, the
    WGS84 round trip test passes with any libm of the stated accuracy. *)
Lemma C101_ellipsoid_pf : forall lm, good_libm lm -> sharp_libm lm ->
  forall draws, Forall drawn3 draws -> test_ellipsoid (A := b64A lm) draws = Val tt.
Proof.
  intros lm G SH draws H. unfold test_ellipsoid. destruct (L_PSunAngle.wgs84_F lm) as (c & Hc & _). rewrite Hc.
  cbn [unwrap bind]. apply (L_PTests.each_ok _ drawn3); [|exact H]. apply ellipsoid_pass_ok; assumption.
Qed.

(** One draw: 90 degrees east, 45 degrees south, 2.5 km up.  A libm that returns 0 for every angle fails there. *)
Example C101_ellipsoid_example_pf :
  (forall lm, good_libm lm -> sharp_libm lm -> test_ellipsoid (A := b64A lm) [(Flit 75 (-2), Flit 5 (-1), Flit 25 (-2))] = Val tt) /\
  let zero := {| lm_sin := fun _ => Flit 0 0; lm_cos := fun _ => Flit 1 0; lm_acos := fun _ => Flit 0 0;
                 lm_atan := fun _ => Flit 0 0; lm_atan2 := fun _ _ => Flit 0 0 |} in
  test_ellipsoid (A := b64A zero) [(Flit 75 (-2), Flit 5 (-1), Flit 25 (-2))] = Panic.
Proof.
  split; [|vm_compute; reflexivity]. intros lm G SH. apply C101_ellipsoid_pf; [exact G|exact SH|]. constructor; [|constructor].
  split; [split|]; cbn [fst snd]; split; try (vm_compute; reflexivity); L_TightLon.flit_value; lra.
Qed.
