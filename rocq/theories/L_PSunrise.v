(** * Proofs of C109 *)

From Coq Require Import ZArith Reals Lra Lia Bool List Psatz.
From Flocq Require Import Core BinarySingleNaN.
From Verif Require Import Outcome Arith ArithR ArithF M_Common M_Calendar M_Time M_Ellipsoid M_SunAngle Spec_Calendar Spec_Api Spec_Accuracy Spec_Matrix Spec_Sun Spec_SunAcc Spec_Almanac.
From Verif Require L_PAccSun L_ApxDat L_Calendar L_PCalendar L_ArithF.
From Verif Require Import L_ArithR L_Matrix L_PMatrix L_Near L_Pi L_Almanac L_PAlmanac L_PTropics L_PSmooth L_PNoon L_PDaylight L_Sunrise.
Open Scope R_scope.

Lemma zenith_zen : forall pos, zenith_of pos = zen (lat (A := realA) pos) (lon (A := realA) pos).
Proof. intros [? ? ?]. reflexivity. Qed.

(** The zenith angle through one day, with the distance from the horizon. *)
Lemma whole_day : forall p par c k j noon, sun_new (A := realA) p par = Val c ->
  accepted (sp_date (A := realA) par) -> (year (sp_date (A := realA) par) <= 1465072)%Z -> day_count mjd_epoch (of_date (sp_date (A := realA) par)) k ->
  -65 <= lat (A := realA) (sp_position (A := realA) par) <= 65 ->
  clock (sp_time (A := realA) par) + noon + 240 * lon (A := realA) (sp_position (A := realA) par) = 43200 + 86400 * IZR j ->
  Rabs (ut_days k (clock (sp_time (A := realA) par) + noon)) <= 36523 ->
  exists rise set, noon - 43200 < rise < noon /\ noon < set < noon + 43200 /\
  forall ds, noon - 43200 <= ds <= noon + 43200 -> exists r h w, sun_compute (A := realA) c ds = Val r /\
    0 <= sr_sza (A := realA) r <= PI /\ cos (sr_sza (A := realA) r) * w = h /\ 0.96 <= w <= 1.04 /\
    (ds = rise \/ ds = set -> h = 0) /\
    (forall e, 0 <= e -> rise + e <= ds <= set - e -> Rmin (0.6 * (e / 86400)) 0.001 <= h) /\
    (forall e, 0 <= e -> ds <= rise - e \/ set + e <= ds -> h <= - Rmin (0.6 * (e / 86400)) 0.001).
Proof.
  intros p par c k j noon H Hg Hy Hk Hl Hj Hn. destruct (sza_formula p par c k H Hg Hy Hk) as (Hz & D & HD & F). pose proof PI_RGT_0 as PP.
  set (m := ut_days k (clock (sp_time (A := realA) par) + noon)) in *.
  assert (UD : forall ds, ut_days k (clock (sp_time (A := realA) par) + ds) = m + (ds - noon) / 86400) by (intros; unfold m, ut_days; field).
  assert (B : forall ds, noon - 43200 <= ds <= noon + 43200 -> Rabs (m + (ds - noon) / 86400) <= 36524) by (intros ds Hd; apply Rabs_le_inv in Hn; apply Rabs_le; lra).
  assert (N : forall ds i, noon - 43200 <= ds <= noon + 43200 -> exists r, sun_compute (A := realA) c ds = Val r /\ sr_sza (A := realA) r = zang (zenith_of (sp_position (A := realA) par)) D (m + (ds - noon) / 86400) /\
    (clock (sp_time (A := realA) par) + ds + 240 * lon (A := realA) (sp_position (A := realA) par) = 43200 + 86400 * IZR i -> sr_sza (A := realA) r <= degrees 88.8) /\
    (clock (sp_time (A := realA) par) + ds + 240 * lon (A := realA) (sp_position (A := realA) par) = 86400 * IZR i -> degrees 91.2 <= sr_sza (A := realA) r)).
  { intros ds i Hd. specialize (F ds). cbv zeta in F. rewrite UD in F. destruct (F (B ds Hd)) as (r & Er & Z). exists r. split; [exact Er|]. split; [exact Z|].
    pose proof (C95_noon_pf p par c ds k i H Hg Hy Hk) as Q. rewrite UD in Q. destruct (Q (B ds Hd) Hl) as (r' & Er' & Q'). rewrite Er in Er'. assert (r' = r) by congruence. subst r'. exact Q'. }
  clear H. rewrite zenith_zen in *. set (la := lat (A := realA) (sp_position (A := realA) par)) in *. set (lo := lon (A := realA) (sp_position (A := realA) par)) in *. change (num realA) with R in la, lo.
  assert (EJ : 360 * m + lo = IZR (k - 51544 + j) * 360).
  { rewrite plus_IZR, minus_IZR. unfold m, ut_days. set (q := clock _) in *. clearbody q lo. change (num realA) with R in *. lra. }
  destruct (N noon j ltac:(lra)) as (r0 & _ & Z0 & T0 & _). specialize (T0 Hj). rewrite Z0 in T0. replace (m + (noon - noon) / 86400) with m in T0 by field.
  destruct (N (noon - 43200) j ltac:(lra)) as (r1 & _ & Z1 & _ & T1). specialize (T1 ltac:(lra)). rewrite Z1 in T1. replace (m + (noon - 43200 - noon) / 86400) with (m - 1 * 0.5) in T1 by lra.
  destruct (N (noon + 43200) (j + 1)%Z ltac:(lra)) as (r2 & _ & Z2 & _ & T2). specialize (T2 ltac:(rewrite plus_IZR; lra)). rewrite Z2 in T2. replace (m + (noon + 43200 - noon) / 86400) with (m - -1 * 0.5) in T2 by lra.
  destruct (half D m la lo 1 (k - 51544 + j) HD Hn Hl (or_introl eq_refl) EJ) as (a & Ba & Za & Ua & Da); [unfold degrees in T0; lra|unfold degrees in T1; lra|].
  destruct (half D m la lo (-1) (k - 51544 + j) HD Hn Hl (or_intror eq_refl) EJ) as (b & Bb & Zb & Ub & Db); [unfold degrees in T0; lra|unfold degrees in T2; lra|].
  exists (noon - 86400 * a), (noon + 86400 * b). split; [lra|]. split; [lra|]. intros ds Hd. destruct (N ds 0%Z Hd) as (r & Er & Z & _).
  destruct (zang_sign la lo D _ HD (B ds Hd)) as (Zr & Zc & Zw).
  exists r, (sprod (zen la lo) (sun D (m + (ds - noon) / 86400))), (nrm (sun D (m + (ds - noon) / 86400))). rewrite Z. split; [exact Er|]. split; [exact Zr|]. split; [exact Zc|]. split; [exact Zw|].
  clear Zr Zc Zw Z Er r N F Z0 Z1 Z2 T0 T1 T2 r0 r1 r2.
  clearbody m.
  assert (MN : forall x y, x <= y -> Rmin (0.6 * x) 0.001 <= Rmin (0.6 * y) 0.001) by (intros x y L; apply Rle_min_compat_r; lra).
  assert (EA : m + (ds - noon) / 86400 = m - 1 * ((noon - ds) / 86400)) by lra. assert (EB : m + (ds - noon) / 86400 = m - -1 * ((ds - noon) / 86400)) by lra.
  split; [intros [E|E]; [rewrite EA; replace ((noon - ds) / 86400) with a by (rewrite E; field); exact Za|rewrite EB; replace ((ds - noon) / 86400) with b by (rewrite E; field); exact Zb]|].
  split.
  - intros e He Hb. destruct (Rle_lt_dec ds noon) as [C|C].
    + rewrite EA. eapply Rle_trans; [|apply Ua; lra]. apply MN. lra.
    + rewrite EB. eapply Rle_trans; [|apply Ub; lra]. apply MN. lra.
  - intros e He [Hb|Hb].
    + rewrite EA. eapply Rle_trans; [apply Da; lra|]. apply Ropp_le_contravar, MN. lra.
    + rewrite EB. eapply Rle_trans; [apply Db; lra|]. apply Ropp_le_contravar, MN. lra.
Qed.

(** C109.  Between 65 degrees south and 65 degrees north, from 1900 to 2100, each day
    has one sunrise and one sunset: let noon be the offset at which local mean time
    (Universal Time plus four minutes per degree of east longitude) is 12h.  There is
    a moment of sunrise in the twelve hours before noon and a moment of sunset in the
    twelve hours after noon, and through the 24 hours compute returns a zenith angle
    below 90 degrees exactly between the two, and of 90 degrees exactly at the two. *)
Lemma C109_sunrise_pf : forall p par c k j noon, sun_new (A := realA) p par = Val c ->
  accepted (sp_date (A := realA) par) -> (year (sp_date (A := realA) par) <= 1465072)%Z -> day_count mjd_epoch (of_date (sp_date (A := realA) par)) k ->
  -65 <= lat (A := realA) (sp_position (A := realA) par) <= 65 ->
  clock (sp_time (A := realA) par) + noon + 240 * lon (A := realA) (sp_position (A := realA) par) = 43200 + 86400 * IZR j ->
  Rabs (ut_days k (clock (sp_time (A := realA) par) + noon)) <= 36523 ->
  exists rise set, noon - 43200 < rise < noon /\ noon < set < noon + 43200 /\
  forall ds, noon - 43200 <= ds <= noon + 43200 -> exists r, sun_compute (A := realA) c ds = Val r /\
    (sr_sza (A := realA) r < degrees 90 <-> rise < ds < set) /\ (sr_sza (A := realA) r = degrees 90 <-> ds = rise \/ ds = set).
Proof.
  intros p par c k j noon H Hg Hy Hk Hl Hj Hn. destruct (whole_day p par c k j noon H Hg Hy Hk Hl Hj Hn) as (rise & set & Br & Bs & W). exists rise, set. split; [exact Br|]. split; [exact Bs|].
  intros ds Hd. destruct (W ds Hd) as (r & h & w & Er & Zr & Zc & Zw & W0 & W1 & W2). exists r. split; [exact Er|].
  assert (E90 : degrees 90 = PI / 2) by (unfold degrees; lra). rewrite E90. destruct (cos_half _ Zr) as (C1 & C2 & C3). set (z := sr_sza (A := realA) r) in *. clearbody z. change (num realA) with R in *.
  assert (UP : rise < ds < set -> 0 < h).
  { intros U. set (e := Rmin (ds - rise) (set - ds)). assert (E0 : 0 < e) by (unfold e; apply Rmin_glb_lt; lra). assert (E1 : e <= ds - rise) by apply Rmin_l. assert (E2 : e <= set - ds) by apply Rmin_r.
    specialize (W1 e ltac:(lra) ltac:(lra)). eapply Rlt_le_trans; [|exact W1]. apply Rmin_glb_lt; lra. }
  assert (DN : ds < rise \/ set < ds -> h < 0).
  { intros [U|U]; [set (e := rise - ds)|set (e := ds - set)]; specialize (W2 e ltac:(unfold e; lra) ltac:(unfold e; lra)); eapply Rle_lt_trans; [exact W2| |exact W2|];
      (assert (0 < Rmin (0.6 * (e / 86400)) 0.001) by (apply Rmin_glb_lt; unfold e; lra)); lra. }
  assert (S1 : 0 < h -> z < PI / 2) by (intros S; apply C1; nra). assert (S2 : h = 0 -> z = PI / 2) by (intros S; apply C2; nra). assert (S3 : h < 0 -> PI / 2 < z) by (intros S; apply C3; nra).
  clear C1 C2 C3 W1 W2 Zc.
  destruct (Rtotal_order ds rise) as [L|[L|L]].
  - specialize (S3 (DN (or_introl L))). split; split; intros; lra.
  - specialize (S2 (W0 (or_introl L))). split; split; intros; lra.
  - destruct (Rtotal_order ds set) as [M|[M|M]].
    + specialize (S1 (UP (conj L M))). split; split; intros; lra.
    + specialize (S2 (W0 (or_intror M))). split; split; intros; lra.
    + specialize (S3 (DN (or_intror M))). split; split; intros; lra.
Qed.

(** C109 in binary64: for the usual inputs, a latitude of 25 to 65 degrees north or
    south and the day around a local mean noon within 360 days of the request, the
    binary64 program sees the Sun up from 0.02 seconds after this sunrise to 0.02
    seconds before this sunset, and down from midnight to 0.02 seconds before sunrise
    and from 0.02 seconds after sunset to midnight. *)
Lemma C109_sunrise_b64_pf : forall lm, good_libm lm -> forall p g h m s lo la ht j noon, usual_inputs g h m s lo la ht (Flit 0 0) -> 25 <= Rabs (B2R la) <= 65 ->
  3600 * IZR h + 60 * IZR m + B2R s + noon + 240 * B2R lo = 43200 + 86400 * IZR j -> Rabs noon <= 31104000 ->
  exists rise set, noon - 43200 < rise < noon /\ noon < set < noon + 43200 /\
  forall ds, usual_inputs g h m s lo la ht ds -> noon - 43200 <= B2R ds <= noon + 43200 ->
  exists c r, sun_new (A := b64A lm) p (parF lm g h m s lo la ht) = Val c /\ sun_compute (A := b64A lm) c ds = Val r /\ is_finite (sr_sza (A := b64A lm) r) = true /\
    (rise + 0.02 <= B2R ds <= set - 0.02 -> B2R (sr_sza (A := b64A lm) r) < degrees 90) /\
    (B2R ds <= rise - 0.02 \/ set + 0.02 <= B2R ds -> degrees 90 < B2R (sr_sza (A := b64A lm) r)).
Proof.
  intros lm G p g h m s lo la ht j noon U0 Hl Hj Hn. pose proof PI_bounds as PB.
  assert (OI : forall X (a b : X), Val a = Val b -> a = b) by congruence.
  pose proof U0 as (Hg & Hy & Hh & Hm & _ & Bs & _).
  pose proof (proj1 (L_PCalendar.accepted_spec _) Hg) as [V _].
  assert (K : day_count mjd_epoch (of_date g) (L_Calendar.mjd (of_date g))) by (apply L_Calendar.mjd_epoch_count; exact V).
  pose proof (L_ApxDat.mjd_between g 1901 2098 Hg ltac:(lia) ltac:(lia)) as MB.
  change (L_Calendar.mjd (1901, 1, 1)%Z) with 15385%Z in MB. change (L_Calendar.mjd (2098, 12, 31)%Z) with 87703%Z in MB.
  set (k := L_Calendar.mjd (of_date g)) in *. clearbody k. destruct MB as [M1 M2]. apply IZR_le in M1. apply IZR_le in M2.
  assert (ND : Rabs (ut_days k (3600 * IZR h + 60 * IZR m + B2R s + noon)) <= 36523).
  { assert (0 <= IZR h <= 23) by (split; apply IZR_le; lia). assert (0 <= IZR m <= 59) by (split; apply IZR_le; lia). apply Rabs_le_inv in Hn. unfold ut_days. apply Rabs_le. lra. }
  assert (Y : (year g <= 1465072)%Z) by lia. assert (L65 : -65 <= B2R la <= 65) by (apply Rabs_le_inv; lra).
  destruct (L_PAccSun.C72_sun_accuracy_pf lm G p g h m s lo la ht _ U0) as (c & r0 & e & q0 & E1 & _ & E3 & _).
  destruct (whole_day p (parR g h m s lo la ht) e k j noon E3 Hg Y K L65 Hj ND) as (rise & set & Br & Bt & W).
  exists rise, set. split; [exact Br|]. split; [exact Bt|]. intros ds U Hd. clear r0 q0.
  destruct (L_PAccSun.C72_sun_accuracy_pf lm G p g h m s lo la ht ds U) as (c' & r & e' & q & E1' & E2 & E3' & E4 & _).
  rewrite E1 in E1'. apply OI in E1'. subst c'. rewrite E3 in E3'. apply OI in E3'. subst e'.
  exists c, r. split; [exact E1|]. split; [exact E2|].
  destruct (W (B2R ds) Hd) as (q' & f & w & Eq & Zr & Zc & Zw & _ & W1 & W2). rewrite E4 in Eq. apply OI in Eq. subst q'.
  destruct (L_PAccSun.C72_zenith_angle_pf lm G p g h m s lo la ht ds U c r e q E1 E2 E3 E4) as [Z _].
  pose proof (usual_days _ _ _ _ _ _ _ _ k U K) as N.
  destruct (C88_tropics_pf p (parR g h m s lo la ht) e (B2R ds) k E3 Hg Y K N ltac:(apply Rabs_le_inv; change (lat (A := realA) (sp_position (A := realA) (parR g h m s lo la ht))) with (B2R la); lra)) as (x & X & T). rewrite E4 in X. apply OI in X. subst x.
  change (lat (A := realA) (sp_position (A := realA) (parR g h m s lo la ht))) with (B2R la) in T.
  set (a := sr_sza (A := realA) q) in *. clearbody a. change (num realA) with R in a.
  destruct Z as [[F Z] _]; [unfold degrees in T; clear - T Hl PB; set (v := Rabs (B2R la)) in *; clearbody v; nra|].
  split; [exact F|]. set (b := B2R (sr_sza (A := b64A lm) r)) in *. clearbody b. clear - Z Zr Zc Zw W1 W2 PB. apply Rabs_le_inv in Z. assert (E90 : degrees 90 = PI / 2) by (unfold degrees; lra). rewrite E90.
  assert (MN : Rmin (0.6 * (0.02 / 86400)) 0.001 = 0.6 * (0.02 / 86400)) by (apply Rmin_left; lra).
  assert (LW : forall x, 0 <= x <= PI -> 1.3 / 10 ^ 7 <= cos x -> x <= PI / 2 - 1.3 / 10 ^ 7).
  { intros x Hx C. rewrite <- (acos_cos x Hx). apply acos_low; [lra|exact C]. }
  split; intros O.
  - specialize (W1 0.02 ltac:(lra) O). rewrite MN in W1. specialize (LW a Zr). assert (1.3 / 10 ^ 7 <= cos a) by nra. specialize (LW ltac:(assumption)). lra.
  - specialize (W2 0.02 ltac:(lra) O). rewrite MN in W2. specialize (LW (PI - a) ltac:(lra)). replace (cos (PI - a)) with (- cos a) in LW by (rewrite cos_minus, cos_PI, sin_PI; ring).
    assert (1.3 / 10 ^ 7 <= - cos a) by nra. specialize (LW ltac:(assumption)). lra.
Qed.

(** C109 at 45 degrees north and 0 degrees east on 2000 February 29, from 12h UT: the
    binary64 program sees one sunrise and one sunset. *)
Example C109_example_pf : forall lm, good_libm lm -> forall p, exists rise set, -43200 < rise < 0 /\ 0 < set < 43200 /\
  forall z, (-43200 <= z <= 43200)%Z -> exists c r,
  sun_new (A := b64A lm) p (parF lm (MkDate 2000 2 29) 12 0 (Flit 0 0) (Flit 0 0) (Flit 45 0) (Flit 0 0)) = Val c /\
  sun_compute (A := b64A lm) c (FofZ z) = Val r /\
  (rise + 0.02 <= IZR z <= set - 0.02 -> B2R (sr_sza (A := b64A lm) r) < degrees 90) /\
  (IZR z <= rise - 0.02 \/ set + 0.02 <= IZR z -> degrees 90 < B2R (sr_sza (A := b64A lm) r)).
Proof.
  intros lm G p. destruct L_ArithF.lit_0 as [E0 F0].
  assert (E45 : B2R (Flit 45 0) = 45 /\ is_finite (Flit 45 0) = true) by L_ArithF.flit_prove. destruct E45 as [E45 F45].
  assert (U : forall ds, is_finite ds = true -> Rabs (B2R ds) <= 31104000 -> usual_inputs (MkDate 2000 2 29) 12 0 (Flit 0 0) (Flit 0 0) (Flit 45 0) (Flit 0 0) ds).
  { intros ds Fd Bd. unfold usual_inputs. cbn [year]. rewrite !E0, ?E45. repeat match goal with |- _ /\ _ => split end; try assumption; try lia; try lra; try (apply Rabs_le; lra). reflexivity. }
  destruct (C109_sunrise_b64_pf lm G p (MkDate 2000 2 29) 12 0 (Flit 0 0) (Flit 0 0) (Flit 45 0) (Flit 0 0) 0 0) as (rise & set & Br & Bs & W).
  - apply U; [exact F0|rewrite E0, Rabs_R0; lra].
  - rewrite E45, Rabs_pos_eq; lra.
  - rewrite E0. lra.
  - rewrite Rabs_R0. lra.
  - exists rise, set. split; [lra|]. split; [lra|]. intros z Hz.
    destruct (L_ArithF.FofZ_ok z) as (Ez & Fz & _); [lia|].
    assert (BZ : -43200 <= IZR z <= 43200) by (split; apply IZR_le; lia).
    destruct (W (FofZ z)) as (c & r & T1 & T2 & _ & T3 & T4); [apply U; [exact Fz|rewrite Ez; apply Rabs_le; lra]|rewrite Ez; lra|]. rewrite Ez in T3, T4.
    exists c, r. split; [exact T1|]. split; [exact T2|]. split; assumption.
Qed.
