(** * Proofs of C95 and C109 in binary64 at low latitudes *)

From Coq Require Import ZArith Reals Lra Lia Bool List Psatz.
From Flocq Require Import Core BinarySingleNaN.
From Verif Require Import Outcome Arith ArithR ArithF M_Common M_Calendar M_Time M_Ellipsoid M_SunAngle Spec_Calendar Spec_Api Spec_Accuracy Spec_Matrix Spec_Sun Spec_SunAcc Spec_Almanac.
From Verif Require L_PAccSun L_ApxDat L_Calendar L_PCalendar L_ArithF.
From Verif Require Import L_ArithR L_Matrix L_PMatrix L_Near L_Pi L_Almanac L_PAlmanac L_PTropics L_PSmooth L_PNoon L_PDaylight L_Sunrise L_PSunrise L_Climb L_PClimb.
Open Scope R_scope.

(** A direction with an eastward or westward part is neither overhead nor underfoot. *)
Lemma off_zenith : forall D n la lo g x (j : Z), -2 <= D <= 40 -> Rabs n <= 36524 -> -65 <= la <= 65 -> (g = 1 \/ g = -1) -> 7.5 <= g * x <= 172.5 -> 360 * n + lo = IZR j * 360 - x ->
  0.0172 <= zang (zen la lo) D n <= PI - 0.0172.
Proof.
  intros D n la lo g x j HD Hn Hl Hg Hx Ex. pose proof (east_far D n la lo g x j HD Hn Hl Hg Hx Ex) as E.
  destruct (zang_sign la lo D n HD Hn) as (Z & C & W). pose proof (zen_unit la lo) as U. assert (U1 : sprod (zen la lo) (zen la lo) = 1) by (rewrite <- nrm_sq, U; ring).
  pose proof (nrm_sq (sun D n)) as S2. clear U. set (z := zang _ _ _) in *. clearbody z. set (w := nrm (sun D n)) in *. clearbody w.
  destruct (zen la lo) as [a b c]. destruct (sun D n) as [d e f]. revert E C U1 S2. vec_calc. unfold sprod, coord. cbn [vget v0 v1 v2]. change (num realA) with R in *. intros E C U1 S2.
  set (y := a * e - b * d) in *.
  assert (Y : 0.0179 * 0.0179 <= y * y) by (destruct Hg as [-> | ->]; nra).
  assert (L : y * y <= (sin z * w) * (sin z * w)).
  { pose proof (sin2_cos2 z) as T. unfold Rsqr in T.
    assert (I : w * w - (cos z * w) * (cos z * w) = y * y + (b * f - c * e) * (b * f - c * e) + (c * d - a * f) * (c * d - a * f)).
    { rewrite C, S2. replace (d * d + e * e + f * f) with ((a * a + b * b + c * c) * (d * d + e * e + f * f)) by (rewrite U1; ring). unfold y. ring. }
    replace ((sin z * w) * (sin z * w)) with (w * w - (cos z * w) * (cos z * w)) by (replace (w * w) with (w * w * (sin z * sin z + cos z * cos z)) by (rewrite T; ring); ring).
    rewrite I. pose proof (Rle_0_sqr (b * f - c * e)) as Q1. pose proof (Rle_0_sqr (c * d - a * f)) as Q2. unfold Rsqr in Q1, Q2. lra. }
  pose proof (sin_ge_0 z (proj1 Z) (proj2 Z)) as SP. clear - Y L SP Z W. set (s := sin z) in *.
  assert (S : 0.0172 <= s).
  { apply Rnot_lt_le. intros N. assert (0 <= s * w) by nra. assert (s * w <= 0.0172 * 1.04) by nra. nra. }
  assert (s <= z) by (unfold s; destruct (Rle_lt_or_eq_dec 0 z (proj1 Z)) as [P|P]; [apply Rlt_le, sin_lt_x, P|rewrite <- P, sin_0; lra]).
  assert (s <= PI - z) by (unfold s; rewrite <- sin_PI_x; destruct (Rle_lt_or_eq_dec 0 (PI - z) ltac:(lra)) as [P|P]; [apply Rlt_le, sin_lt_x, P|rewrite <- P, sin_0; lra]).
  lra.
Qed.

(** C109.  Under the same conditions, from half an hour after local mean midnight to half
    an hour before local mean noon, and from half an hour after noon to half an hour
    before midnight, the Sun is at least 0.98 degrees from the zenith and from the
    nadir. *)
Lemma C109_clear_pf : forall p par c k j noon, sun_new (A := realA) p par = Val c ->
  accepted (sp_date (A := realA) par) -> (year (sp_date (A := realA) par) <= 1465072)%Z -> day_count mjd_epoch (of_date (sp_date (A := realA) par)) k ->
  -65 <= lat (A := realA) (sp_position (A := realA) par) <= 65 ->
  clock (sp_time (A := realA) par) + noon + 240 * lon (A := realA) (sp_position (A := realA) par) = 43200 + 86400 * IZR j ->
  Rabs (ut_days k (clock (sp_time (A := realA) par) + noon)) <= 36523 ->
  forall ds, noon - 41400 <= ds <= noon - 1800 \/ noon + 1800 <= ds <= noon + 41400 ->
  exists r, sun_compute (A := realA) c ds = Val r /\ degrees 0.98 <= sr_sza (A := realA) r <= degrees 179.02.
Proof.
  intros p par c k j noon H Hg Hy Hk Hl Hj Hn ds Hd. destruct (sza_formula p par c k H Hg Hy Hk) as (Hz & D & HD & F). pose proof PI_bounds as PB.
  set (m := ut_days k (clock (sp_time (A := realA) par) + noon)) in *.
  assert (UD : ut_days k (clock (sp_time (A := realA) par) + ds) = m + (ds - noon) / 86400) by (unfold m, ut_days; field).
  assert (B : Rabs (m + (ds - noon) / 86400) <= 36524) by (apply Rabs_le_inv in Hn; apply Rabs_le; lra).
  destruct (F ds) as (r & Er & Z); [rewrite UD; exact B|]. rewrite UD in Z.
  exists r. split; [exact Er|]. rewrite Z, zenith_zen. clear F Z Er H UD.
  set (la := lat (A := realA) (sp_position (A := realA) par)) in *. set (lo := lon (A := realA) (sp_position (A := realA) par)) in *. change (num realA) with R in la, lo.
  assert (EJ : 360 * m + lo = IZR (k - 51544 + j) * 360).
  { rewrite plus_IZR, minus_IZR. unfold m, ut_days. set (q := clock _) in *. clearbody q lo. change (num realA) with R in *. lra. }
  assert (O : 0.0172 <= zang (zen la lo) D (m + (ds - noon) / 86400) <= PI - 0.0172).
  { destruct Hd as [Hd|Hd]; [apply (off_zenith D _ la lo 1 (360 * ((noon - ds) / 86400)) (k - 51544 + j))|apply (off_zenith D _ la lo (-1) (360 * ((noon - ds) / 86400)) (k - 51544 + j))];
      try assumption; try (left; reflexivity); try (right; reflexivity); lra. }
  unfold degrees. lra.
Qed.

(** The binary64 angle and the exact one. *)
Lemma angle_pair : forall lm, good_libm lm -> forall p g h m s lo la ht ds, usual_inputs g h m s lo la ht ds ->
  exists c r e q, sun_new (A := b64A lm) p (parF lm g h m s lo la ht) = Val c /\ sun_compute (A := b64A lm) c ds = Val r /\
  sun_new (A := realA) p (parR g h m s lo la ht) = Val e /\ sun_compute (A := realA) e (B2R ds) = Val q /\
  (0.01 <= sr_sza (A := realA) q <= PI - 0.01 -> Spec_Accuracy.near (sr_sza (A := b64A lm) r) (sr_sza (A := realA) q) (9.1 / 10 ^ 8)) /\
  exists x, sr_sza (A := b64A lm) r = lm_acos lm x /\ is_finite x = true /\ (-1 <= B2R x <= 1 -> Spec_Accuracy.near (sr_sza (A := b64A lm) r) (sr_sza (A := realA) q) (4.3 / 10 ^ 5)).
Proof.
  intros lm G p g h m s lo la ht ds U. destruct (L_PAccSun.C72_sun_accuracy_pf lm G p g h m s lo la ht ds U) as (c & r & e & q & E1 & E2 & E3 & E4 & _).
  exists c, r, e, q. split; [exact E1|]. split; [exact E2|]. split; [exact E3|]. split; [exact E4|].
  destruct (L_PAccSun.C72_zenith_angle_pf lm G p g h m s lo la ht ds U c r e q E1 E2 E3 E4) as [Z (x & X1 & X2 & _ & X4)].
  split; [intros A; exact (proj1 (Z A))|]. exists x. split; [exact X1|]. split; [exact X2|exact X4].
Qed.

Lemma usual_k : forall g h m s lo la ht ds noon, usual_inputs g h m s lo la ht ds -> Rabs noon <= 31150000 ->
  exists k, day_count mjd_epoch (of_date g) k /\ Rabs (ut_days k (3600 * IZR h + 60 * IZR m + B2R s + noon)) <= 36523.
Proof.
  intros g h m s lo la ht ds noon U Hn. pose proof U as (Hg & Hy & Hh & Hm & _ & Bs & _).
  pose proof (proj1 (L_PCalendar.accepted_spec _) Hg) as [V _]. exists (L_Calendar.mjd (of_date g)). split; [apply L_Calendar.mjd_epoch_count; exact V|].
  pose proof (L_ApxDat.mjd_between g 1901 2098 Hg ltac:(lia) ltac:(lia)) as MB.
  change (L_Calendar.mjd (1901, 1, 1)%Z) with 15385%Z in MB. change (L_Calendar.mjd (2098, 12, 31)%Z) with 87703%Z in MB.
  set (k := L_Calendar.mjd (of_date g)) in *. clearbody k. destruct MB as [M1 M2]. apply IZR_le in M1. apply IZR_le in M2.
  assert (0 <= IZR h <= 23) by (split; apply IZR_le; lia). assert (0 <= IZR m <= 59) by (split; apply IZR_le; lia). apply Rabs_le_inv in Hn. unfold ut_days. apply Rabs_le. lra.
Qed.

(** C95 in binary64 at all latitudes from 65 south to 65 north: at local mean noon and
    midnight the angle is the library acos of a finite number, and unless rounding
    has pushed that number outside [-1, 1] the angle is finite and bounded as
    before. *)
Lemma C95_noon_low_b64_pf : forall lm, good_libm lm -> forall p g h m s lo la ht ds j,
  usual_inputs g h m s lo la ht ds -> -65 <= B2R la <= 65 ->
  let local := 3600 * IZR h + 60 * IZR m + B2R s + B2R ds + 240 * B2R lo in
  exists c r x, sun_new (A := b64A lm) p (parF lm g h m s lo la ht) = Val c /\ sun_compute (A := b64A lm) c ds = Val r /\
  sr_sza (A := b64A lm) r = lm_acos lm x /\ is_finite x = true /\ (-1 <= B2R x <= 1 -> is_finite (sr_sza (A := b64A lm) r) = true /\
  (local = 43200 + 86400 * IZR j -> B2R (sr_sza (A := b64A lm) r) <= degrees 88.81) /\ (local = 86400 * IZR j -> degrees 91.19 <= B2R (sr_sza (A := b64A lm) r))).
Proof.
  intros lm G p g h m s lo la ht ds j U Hl local. pose proof PI_bounds as PB. assert (OI : forall X (a b : X), Val a = Val b -> a = b) by congruence.
  pose proof U as (Hg & Hy & _ & _ & _ & _ & _ & _ & _ & _ & _ & _ & _ & Bd). assert (Y : (year g <= 1465072)%Z) by lia.
  destruct (usual_k g h m s lo la ht ds 0 U) as (k & K & _); [rewrite Rabs_R0; lra|]. pose proof (usual_days _ _ _ _ _ _ _ _ k U K) as N.
  destruct (angle_pair lm G p g h m s lo la ht ds U) as (c & r & e & q & E1 & E2 & E3 & E4 & _ & x & X1 & X2 & X3).
  exists c, r, x. split; [exact E1|]. split; [exact E2|]. split; [exact X1|]. split; [exact X2|]. intros B. destruct (X3 B) as [F A]. split; [exact F|].
  destruct (C95_noon_pf p (parR g h m s lo la ht) e (B2R ds) k j E3 Hg Y K N Hl) as (q' & Q & T1 & T2). rewrite E4 in Q. apply OI in Q. subst q'.
  change (clock (sp_time (A := realA) (parR g h m s lo la ht)) + B2R ds + 240 * lon (A := realA) (sp_position (A := realA) (parR g h m s lo la ht))) with local in T1, T2.
  set (a := sr_sza (A := realA) q) in *. set (b := B2R (sr_sza (A := b64A lm) r)) in *. clearbody a b. change (num realA) with R in a. clear - T1 T2 A PB. apply Rabs_le_inv in A.
  split; intros L; [specialize (T1 L)|specialize (T2 L)]; unfold degrees in *; lra.
Qed.

(** C109 in binary64 at all latitudes from 65 south to 65 north: the angle is the
    library acos of a finite number.  When that number is in [-1, 1], and in any case
    in the hours at least half an hour from local mean noon and midnight, the angle is
    finite, below 90 degrees from 0.02 seconds after sunrise to 0.02 seconds before
    sunset, and above it from midnight to 0.02 seconds before sunrise and from 0.02
    seconds after sunset to midnight. *)
Lemma C109_sunrise_low_b64_pf : forall lm, good_libm lm -> forall p g h m s lo la ht j noon, usual_inputs g h m s lo la ht (Flit 0 0) -> -65 <= B2R la <= 65 ->
  3600 * IZR h + 60 * IZR m + B2R s + noon + 240 * B2R lo = 43200 + 86400 * IZR j -> Rabs noon <= 31104000 ->
  exists rise set, noon - 43200 < rise < noon /\ noon < set < noon + 43200 /\
  forall ds, usual_inputs g h m s lo la ht ds -> noon - 43200 <= B2R ds <= noon + 43200 ->
  exists c r x, sun_new (A := b64A lm) p (parF lm g h m s lo la ht) = Val c /\ sun_compute (A := b64A lm) c ds = Val r /\
    sr_sza (A := b64A lm) r = lm_acos lm x /\ is_finite x = true /\
    (-1 <= B2R x <= 1 \/ noon - 41400 <= B2R ds <= noon - 1800 \/ noon + 1800 <= B2R ds <= noon + 41400 -> is_finite (sr_sza (A := b64A lm) r) = true /\
    (rise + 0.02 <= B2R ds <= set - 0.02 -> B2R (sr_sza (A := b64A lm) r) < degrees 90) /\
    (B2R ds <= rise - 0.02 \/ set + 0.02 <= B2R ds -> degrees 90 < B2R (sr_sza (A := b64A lm) r))).
Proof.
  intros lm G p g h m s lo la ht j noon U0 Hl Hj Hn. pose proof PI_bounds as PB.
  assert (OI : forall X (a b : X), Val a = Val b -> a = b) by congruence.
  pose proof U0 as (Hg & Hy & _). assert (Y : (year g <= 1465072)%Z) by lia. destruct (usual_k g h m s lo la ht _ noon U0 ltac:(lra)) as (k & K & ND).
  destruct (angle_pair lm G p g h m s lo la ht _ U0) as (c & r0 & e & q0 & E1 & _ & E3 & _).
  destruct (whole_day p (parR g h m s lo la ht) e k j noon E3 Hg Y K Hl Hj ND) as (rise & set & Br & Bt & W).
  exists rise, set. split; [exact Br|]. split; [exact Bt|]. intros ds U Hd. clear r0 q0.
  destruct (angle_pair lm G p g h m s lo la ht ds U) as (c' & r & e' & q & E1' & E2 & E3' & E4 & A1 & x & X1 & X2 & X3).
  rewrite E1 in E1'. apply OI in E1'. subst c'. rewrite E3 in E3'. apply OI in E3'. subst e'.
  exists c, r, x. split; [exact E1|]. split; [exact E2|]. split; [exact X1|]. split; [exact X2|]. intros HX.
  destruct (W (B2R ds) Hd) as (q' & f & w & Eq & Zr & Zc & Zw & _ & W1 & W2). rewrite E4 in Eq. apply OI in Eq. subst q'.
  assert (CL : noon - 41400 <= B2R ds <= noon - 1800 \/ noon + 1800 <= B2R ds <= noon + 41400 -> 0.01 <= sr_sza (A := realA) q <= PI - 0.01).
  { intros Q. destruct (C109_clear_pf p (parR g h m s lo la ht) e k j noon E3 Hg Y K Hl Hj ND (B2R ds) Q) as (q' & Eq & C). rewrite E4 in Eq. apply OI in Eq. subst q'. unfold degrees in C. lra. }
  set (a := sr_sza (A := realA) q) in *. clearbody a. change (num realA) with R in a.
  assert (Z : Spec_Accuracy.near (sr_sza (A := b64A lm) r) a (9.1 / 10 ^ 8) \/ (Spec_Accuracy.near (sr_sza (A := b64A lm) r) a (4.3 / 10 ^ 5) /\ (a < 0.01 \/ PI - 0.01 < a))).
  { destruct (Rlt_le_dec a 0.01) as [L|L]; [|destruct (Rlt_le_dec (PI - 0.01) a) as [L'|L']].
    - right. split; [|left; exact L]. apply X3. destruct HX as [HX|HX]; [exact HX|]. specialize (CL HX). lra.
    - right. split; [|right; exact L']. apply X3. destruct HX as [HX|HX]; [exact HX|]. specialize (CL HX). lra.
    - left. apply A1. lra. }
  split; [destruct Z as [[F _]|[[F _] _]]; exact F|].
  assert (E90 : degrees 90 = PI / 2) by (unfold degrees; lra). rewrite E90.
  assert (Z' : Rabs (B2R (sr_sza (A := b64A lm) r) - a) <= 9.1 / 10 ^ 8 \/ (Rabs (B2R (sr_sza (A := b64A lm) r) - a) <= 4.3 / 10 ^ 5 /\ (a < 0.01 \/ PI - 0.01 < a))) by (destruct Z as [[_ Z]|[[_ Z] Z2]]; [left|right; split]; assumption).
  set (b := B2R (sr_sza (A := b64A lm) r)) in *. clearbody b. clear - Z' Zr Zc Zw W1 W2 PB.
  assert (MN : Rmin (0.6 * (0.02 / 86400)) 0.001 = 0.6 * (0.02 / 86400)) by (apply Rmin_left; lra).
  assert (LW : forall x, 0 <= x <= PI -> 1.3 / 10 ^ 7 <= cos x -> x <= PI / 2 - 1.3 / 10 ^ 7).
  { intros x Hx C. rewrite <- (acos_cos x Hx). apply acos_low; [lra|exact C]. }
  split; intros O.
  - specialize (W1 0.02 ltac:(lra) O). rewrite MN in W1. specialize (LW a Zr). assert (1.3 / 10 ^ 7 <= cos a) by nra. specialize (LW ltac:(assumption)). clear - LW Z' PB. destruct Z' as [Z|[Z [L|L]]]; apply Rabs_le_inv in Z; lra.
  - specialize (W2 0.02 ltac:(lra) O). rewrite MN in W2. specialize (LW (PI - a) ltac:(lra)). replace (cos (PI - a)) with (- cos a) in LW by (rewrite cos_minus, cos_PI, sin_PI; ring).
    assert (1.3 / 10 ^ 7 <= - cos a) by nra. specialize (LW ltac:(assumption)). clear - LW Z' PB. destruct Z' as [Z|[Z [L|L]]]; apply Rabs_le_inv in Z; lra.
Qed.

(** C109 in binary64 at all latitudes from 65 south to 65 north: in the hours at least
    half an hour from local mean noon and midnight the angles are finite, and of two
    offsets at least a quarter of a second apart the later has the smaller angle in
    the morning and the larger one in the afternoon. *)
Lemma C109_climb_low_b64_pf : forall lm, good_libm lm -> forall p g h m s lo la ht j noon ds ds', usual_inputs g h m s lo la ht ds -> usual_inputs g h m s lo la ht ds' -> -65 <= B2R la <= 65 ->
  3600 * IZR h + 60 * IZR m + B2R s + noon + 240 * B2R lo = 43200 + 86400 * IZR j -> B2R ds + 0.25 <= B2R ds' ->
  exists c r r', sun_new (A := b64A lm) p (parF lm g h m s lo la ht) = Val c /\ sun_compute (A := b64A lm) c ds = Val r /\ sun_compute (A := b64A lm) c ds' = Val r' /\
    (noon - 41400 <= B2R ds -> B2R ds' <= noon - 1800 -> is_finite (sr_sza (A := b64A lm) r) = true /\ is_finite (sr_sza (A := b64A lm) r') = true /\ B2R (sr_sza (A := b64A lm) r') < B2R (sr_sza (A := b64A lm) r)) /\
    (noon + 1800 <= B2R ds -> B2R ds' <= noon + 41400 -> is_finite (sr_sza (A := b64A lm) r) = true /\ is_finite (sr_sza (A := b64A lm) r') = true /\ B2R (sr_sza (A := b64A lm) r) < B2R (sr_sza (A := b64A lm) r')).
Proof.
  intros lm G p g h m s lo la ht j noon ds ds' U U' Hl Hj Hs. pose proof PI_bounds as PB.
  assert (OI : forall X (a b : X), Val a = Val b -> a = b) by congruence.
  pose proof U as (Hg & Hy & _ & _ & _ & _ & _ & _ & _ & _ & _ & _ & _ & Bd). pose proof U' as (_ & _ & _ & _ & _ & _ & _ & _ & _ & _ & _ & _ & _ & Bd').
  assert (Y : (year g <= 1465072)%Z) by lia.
  destruct (angle_pair lm G p g h m s lo la ht ds U) as (c & r & e & q & E1 & E2 & E3 & E4 & A1 & _).
  destruct (angle_pair lm G p g h m s lo la ht ds' U') as (c' & r' & e' & q' & E1' & E2' & E3' & E4' & A1' & _).
  rewrite E1 in E1'. apply OI in E1'. subst c'. rewrite E3 in E3'. apply OI in E3'. subst e'.
  exists c, r, r'. split; [exact E1|]. split; [exact E2|]. split; [exact E2'|].
  apply Rabs_le_inv in Bd. apply Rabs_le_inv in Bd'.
  assert (M : noon - 41400 <= B2R ds /\ B2R ds' <= noon - 1800 \/ noon + 1800 <= B2R ds /\ B2R ds' <= noon + 41400 ->
    Spec_Accuracy.near (sr_sza (A := b64A lm) r) (sr_sza (A := realA) q) (9.1 / 10 ^ 8) /\ Spec_Accuracy.near (sr_sza (A := b64A lm) r') (sr_sza (A := realA) q') (9.1 / 10 ^ 8) /\
    (noon - 41400 <= B2R ds -> B2R ds' <= noon - 1800 -> sr_sza (A := realA) q' <= sr_sza (A := realA) q - degrees 0.000046 * (B2R ds' - B2R ds)) /\
    (noon + 1800 <= B2R ds -> B2R ds' <= noon + 41400 -> sr_sza (A := realA) q + degrees 0.000046 * (B2R ds' - B2R ds) <= sr_sza (A := realA) q')).
  { intros HH. destruct (usual_k g h m s lo la ht ds noon U ltac:(apply Rabs_le; lra)) as (k & K & ND).
    destruct (C109_climb_pf p (parR g h m s lo la ht) e k j noon E3 Hg Y K Hl Hj ND (B2R ds) (B2R ds') ltac:(lra) ltac:(lra) ltac:(lra)) as (x & x' & X & X' & CC).
    rewrite E4 in X; apply OI in X; subst x; rewrite E4' in X'; apply OI in X'; subst x'.
    destruct (C109_clear_pf p (parR g h m s lo la ht) e k j noon E3 Hg Y K Hl Hj ND (B2R ds) ltac:(lra)) as (x & X & T); rewrite E4 in X; apply OI in X; subst x.
    destruct (C109_clear_pf p (parR g h m s lo la ht) e k j noon E3 Hg Y K Hl Hj ND (B2R ds') ltac:(lra)) as (x & X & T'); rewrite E4' in X; apply OI in X; subst x.
    split; [apply A1; unfold degrees in T; lra|]. split; [apply A1'; unfold degrees in T'; lra|exact CC]. }
  assert (RT : 1.9 / 10 ^ 7 <= degrees 0.000046 * (B2R ds' - B2R ds)) by (unfold degrees; clear - Hs PB; nra).
  split; intros H0 H1; (destruct M as ([F Z] & [F' Z'] & C1 & C2); [lra|]).
  - split; [exact F|]. split; [exact F'|]. specialize (C1 H0 H1). clear - Z Z' C1 RT. apply Rabs_le_inv in Z. apply Rabs_le_inv in Z'. change (num realA) with R in *. lra.
  - split; [exact F|]. split; [exact F'|]. specialize (C2 H0 H1). clear - Z Z' C2 RT. apply Rabs_le_inv in Z. apply Rabs_le_inv in Z'. change (num realA) with R in *. lra.
Qed.

(** C109 on the equator and the meridian of Greenwich on 2000 February 29, from 12h UT:
    the binary64 program sees the Sun sinking from 13h to 17h UT. *)
Example C109_low_example_pf : forall lm, good_libm lm -> forall p, exists c r r',
  sun_new (A := b64A lm) p (parF lm (MkDate 2000 2 29) 12 0 (Flit 0 0) (Flit 0 0) (Flit 0 0) (Flit 0 0)) = Val c /\
  sun_compute (A := b64A lm) c (Flit 3600 0) = Val r /\ sun_compute (A := b64A lm) c (Flit 18000 0) = Val r' /\
  B2R (sr_sza (A := b64A lm) r) < B2R (sr_sza (A := b64A lm) r').
Proof.
  intros lm G p. destruct L_ArithF.lit_0 as [E0 F0].
  assert (EH : B2R (Flit 3600 0) = 3600 /\ is_finite (Flit 3600 0) = true) by L_ArithF.flit_prove. destruct EH as [EH FH].
  assert (EI : B2R (Flit 18000 0) = 18000 /\ is_finite (Flit 18000 0) = true) by L_ArithF.flit_prove. destruct EI as [EI FI].
  assert (U : forall ds, is_finite ds = true -> Rabs (B2R ds) <= 31104000 -> usual_inputs (MkDate 2000 2 29) 12 0 (Flit 0 0) (Flit 0 0) (Flit 0 0) (Flit 0 0) ds).
  { intros ds Fd Bd. unfold usual_inputs. cbn [year]. rewrite !E0. repeat match goal with |- _ /\ _ => split end; try assumption; try lia; try lra; try (apply Rabs_le; lra). reflexivity. }
  destruct (C109_climb_low_b64_pf lm G p (MkDate 2000 2 29) 12 0 (Flit 0 0) (Flit 0 0) (Flit 0 0) (Flit 0 0) 0 0 (Flit 3600 0) (Flit 18000 0)) as (c & r & r' & T1 & T2 & T3 & _ & T4).
  - apply U; [exact FH|rewrite EH, Rabs_pos_eq; lra].
  - apply U; [exact FI|rewrite EI, Rabs_pos_eq; lra].
  - rewrite E0. lra.
  - rewrite E0. lra.
  - rewrite EH, EI. lra.
  - exists c, r, r'. split; [exact T1|]. split; [exact T2|]. split; [exact T3|]. rewrite EH, EI in T4. destruct T4 as (_ & _ & T4); [lra|lra|exact T4].
Qed.
