(** * Proofs of C109: the hours between midnight and noon *)

From Coq Require Import ZArith Reals Lra Lia Bool List Psatz.
From Flocq Require Import Core BinarySingleNaN.
From Verif Require Import Outcome Arith ArithR ArithF M_Common M_Calendar M_Time M_Ellipsoid M_SunAngle Spec_Calendar Spec_Api Spec_Accuracy Spec_Matrix Spec_Sun Spec_SunAcc Spec_Almanac.
From Verif Require L_PAccSun L_ApxDat L_Calendar L_PCalendar L_ArithF.
From Verif Require Import L_ArithR L_Matrix L_PMatrix L_Near L_Pi L_Almanac L_PAlmanac L_PTropics L_PSmooth L_PNoon L_PDaylight L_Sunrise L_PSunrise L_Climb.
Open Scope R_scope.

(** C109.  Under the same conditions the Sun climbs all morning and sinks all
    afternoon: from half an hour after local mean midnight to half an hour before
    local mean noon the zenith angle that compute returns decreases, and from half an
    hour after noon to half an hour before midnight it increases, in both cases by at
    least 46 millionths of a degree a second. *)
Lemma C109_climb_pf : forall p par c k j noon, sun_new (A := realA) p par = Val c ->
  accepted (sp_date (A := realA) par) -> (year (sp_date (A := realA) par) <= 1465072)%Z -> day_count mjd_epoch (of_date (sp_date (A := realA) par)) k ->
  -65 <= lat (A := realA) (sp_position (A := realA) par) <= 65 ->
  clock (sp_time (A := realA) par) + noon + 240 * lon (A := realA) (sp_position (A := realA) par) = 43200 + 86400 * IZR j ->
  Rabs (ut_days k (clock (sp_time (A := realA) par) + noon)) <= 36523 ->
  forall ds ds', ds <= ds' -> noon - 43200 <= ds -> ds' <= noon + 43200 ->
  exists r r', sun_compute (A := realA) c ds = Val r /\ sun_compute (A := realA) c ds' = Val r' /\
    (noon - 41400 <= ds -> ds' <= noon - 1800 -> sr_sza (A := realA) r' <= sr_sza (A := realA) r - degrees 0.000046 * (ds' - ds)) /\
    (noon + 1800 <= ds -> ds' <= noon + 41400 -> sr_sza (A := realA) r + degrees 0.000046 * (ds' - ds) <= sr_sza (A := realA) r').
Proof.
  intros p par c k j noon H Hg Hy Hk Hl Hj Hn ds ds' O B0 B1. destruct (sza_formula p par c k H Hg Hy Hk) as (Hz & D & HD & F). pose proof PI_bounds as PB.
  set (m := ut_days k (clock (sp_time (A := realA) par) + noon)) in *.
  assert (UD : forall ds, ut_days k (clock (sp_time (A := realA) par) + ds) = m + (ds - noon) / 86400) by (intros; unfold m, ut_days; field).
  assert (B : forall ds, noon - 43200 <= ds <= noon + 43200 -> Rabs (m + (ds - noon) / 86400) <= 36524) by (intros x Hd; apply Rabs_le_inv in Hn; apply Rabs_le; lra).
  destruct (F ds) as (r & Er & Z); [rewrite UD; apply B; lra|]. destruct (F ds') as (r' & Er' & Z'); [rewrite UD; apply B; lra|]. rewrite UD in Z, Z'.
  exists r, r'. split; [exact Er|]. split; [exact Er'|]. rewrite Z, Z', zenith_zen. clear F Z Z' Er Er' H.
  set (la := lat (A := realA) (sp_position (A := realA) par)) in *. set (lo := lon (A := realA) (sp_position (A := realA) par)) in *. change (num realA) with R in la, lo.
  assert (EJ : 360 * m + lo = IZR (k - 51544 + j) * 360).
  { rewrite plus_IZR, minus_IZR. unfold m, ut_days. set (q := clock _) in *. clearbody q lo. change (num realA) with R in *. lra. }
  assert (RT : degrees 0.000046 * (ds' - ds) <= 0.07 * ((ds' - ds) / 86400)).
  { replace (0.07 * ((ds' - ds) / 86400)) with (0.07 / 86400 * (ds' - ds)) by field. apply Rmult_le_compat_r; [lra|]. unfold degrees. lra. }
  split; intros H0 H1.
  - pose proof (climb D m la lo 1 _ HD Hn Hl (or_introl eq_refl) EJ ((noon - ds) / 86400) ((noon - ds') / 86400) ltac:(lra) ltac:(lra)) as C.
    replace (m - 1 * ((noon - ds) / 86400)) with (m + (ds - noon) / 86400) in C by field. replace (m - 1 * ((noon - ds') / 86400)) with (m + (ds' - noon) / 86400) in C by field.
    replace ((noon - ds) / 86400 - (noon - ds') / 86400) with ((ds' - ds) / 86400) in C by field. lra.
  - pose proof (climb D m la lo (-1) _ HD Hn Hl (or_intror eq_refl) EJ ((ds' - noon) / 86400) ((ds - noon) / 86400) ltac:(lra) ltac:(lra)) as C.
    replace (m - -1 * ((ds - noon) / 86400)) with (m + (ds - noon) / 86400) in C by field. replace (m - -1 * ((ds' - noon) / 86400)) with (m + (ds' - noon) / 86400) in C by field.
    replace ((ds' - noon) / 86400 - (ds - noon) / 86400) with ((ds' - ds) / 86400) in C by field. lra.
Qed.

(** C109 in binary64: for the usual inputs and a latitude of 25 to 65 degrees north or
    south, the later of two offsets at least a quarter of a second apart has the
    smaller binary64 zenith angle in these hours of the morning and the larger one in
    these hours of the afternoon. *)
Lemma C109_climb_b64_pf : forall lm, good_libm lm -> forall p g h m s lo la ht j noon ds ds', usual_inputs g h m s lo la ht ds -> usual_inputs g h m s lo la ht ds' -> 25 <= Rabs (B2R la) <= 65 ->
  3600 * IZR h + 60 * IZR m + B2R s + noon + 240 * B2R lo = 43200 + 86400 * IZR j -> B2R ds + 0.25 <= B2R ds' ->
  exists c r r', sun_new (A := b64A lm) p (parF lm g h m s lo la ht) = Val c /\ sun_compute (A := b64A lm) c ds = Val r /\ sun_compute (A := b64A lm) c ds' = Val r' /\
    is_finite (sr_sza (A := b64A lm) r) = true /\ is_finite (sr_sza (A := b64A lm) r') = true /\
    (noon - 41400 <= B2R ds -> B2R ds' <= noon - 1800 -> B2R (sr_sza (A := b64A lm) r') < B2R (sr_sza (A := b64A lm) r)) /\
    (noon + 1800 <= B2R ds -> B2R ds' <= noon + 41400 -> B2R (sr_sza (A := b64A lm) r) < B2R (sr_sza (A := b64A lm) r')).
Proof.
  intros lm G p g h m s lo la ht j noon ds ds' U U' Hl Hj Hs. pose proof PI_bounds as PB.
  assert (OI : forall X (a b : X), Val a = Val b -> a = b) by congruence.
  pose proof U as (Hg & Hy & Hh & Hm & _ & Bs & _ & _ & _ & _ & _ & _ & _ & Bd). pose proof U' as (_ & _ & _ & _ & _ & _ & _ & _ & _ & _ & _ & _ & _ & Bd').
  pose proof (proj1 (L_PCalendar.accepted_spec _) Hg) as [V _].
  assert (K : day_count mjd_epoch (of_date g) (L_Calendar.mjd (of_date g))) by (apply L_Calendar.mjd_epoch_count; exact V).
  pose proof (L_ApxDat.mjd_between g 1901 2098 Hg ltac:(lia) ltac:(lia)) as MB.
  change (L_Calendar.mjd (1901, 1, 1)%Z) with 15385%Z in MB. change (L_Calendar.mjd (2098, 12, 31)%Z) with 87703%Z in MB.
  set (k := L_Calendar.mjd (of_date g)) in *. clearbody k. destruct MB as [M1 M2]. apply IZR_le in M1. apply IZR_le in M2.
  assert (Y : (year g <= 1465072)%Z) by lia. assert (L65 : -65 <= B2R la <= 65) by (apply Rabs_le_inv; lra).
  destruct (L_PAccSun.C72_sun_accuracy_pf lm G p g h m s lo la ht ds U) as (c & r & e & q & E1 & E2 & E3 & E4 & _).
  destruct (L_PAccSun.C72_sun_accuracy_pf lm G p g h m s lo la ht ds' U') as (c' & r' & e' & q' & E1' & E2' & E3' & E4' & _).
  rewrite E1 in E1'. apply OI in E1'. subst c'. rewrite E3 in E3'. apply OI in E3'. subst e'.
  exists c, r, r'. split; [exact E1|]. split; [exact E2|]. split; [exact E2'|].
  destruct (L_PAccSun.C72_zenith_angle_pf lm G p g h m s lo la ht ds U c r e q E1 E2 E3 E4) as [Z _].
  destruct (L_PAccSun.C72_zenith_angle_pf lm G p g h m s lo la ht ds' U' c r' e q' E1 E2' E3 E4') as [Z' _].
  pose proof (usual_days _ _ _ _ _ _ _ _ k U K) as N. pose proof (usual_days _ _ _ _ _ _ _ _ k U' K) as N'.
  assert (LB : -90 <= B2R la <= 90) by lra.
  destruct (C88_tropics_pf p (parR g h m s lo la ht) e (B2R ds) k E3 Hg Y K N LB) as (x & X & T). rewrite E4 in X. apply OI in X. subst x.
  destruct (C88_tropics_pf p (parR g h m s lo la ht) e (B2R ds') k E3 Hg Y K N' LB) as (x & X & T'). rewrite E4' in X. apply OI in X. subst x.
  change (lat (A := realA) (sp_position (A := realA) (parR g h m s lo la ht))) with (B2R la) in T, T'.
  assert (CL : (noon - 41400 <= B2R ds -> B2R ds' <= noon - 1800 -> sr_sza (A := realA) q' <= sr_sza (A := realA) q - degrees 0.000046 * (B2R ds' - B2R ds)) /\
    (noon + 1800 <= B2R ds -> B2R ds' <= noon + 41400 -> sr_sza (A := realA) q + degrees 0.000046 * (B2R ds' - B2R ds) <= sr_sza (A := realA) q')).
  { assert (ND : noon - 43200 <= B2R ds -> B2R ds' <= noon + 43200 -> Rabs (ut_days k (3600 * IZR h + 60 * IZR m + B2R s + noon)) <= 36523).
    { intros. assert (0 <= IZR h <= 23) by (split; apply IZR_le; lia). assert (0 <= IZR m <= 59) by (split; apply IZR_le; lia). apply Rabs_le_inv in Bd. apply Rabs_le_inv in Bd'. unfold ut_days. apply Rabs_le. lra. }
    split; intros H0 H1; (destruct (C109_climb_pf p (parR g h m s lo la ht) e k j noon E3 Hg Y K L65 Hj (ND ltac:(lra) ltac:(lra)) (B2R ds) (B2R ds') ltac:(lra) ltac:(lra) ltac:(lra)) as (x & x' & X & X' & C1 & C2);
      rewrite E4 in X; apply OI in X; subst x; rewrite E4' in X'; apply OI in X'; subst x'); [apply C1|apply C2]; assumption. }
  set (a := sr_sza (A := realA) q) in *. set (a' := sr_sza (A := realA) q') in *. clearbody a a'. change (num realA) with R in a, a'.
  destruct Z as [[F Z] _]; [unfold degrees in T; clear - T Hl PB; set (v := Rabs (B2R la)) in *; clearbody v; nra|].
  destruct Z' as [[F' Z'] _]; [unfold degrees in T'; clear - T' Hl PB; set (v := Rabs (B2R la)) in *; clearbody v; nra|].
  split; [exact F|]. split; [exact F'|]. set (b := B2R (sr_sza (A := b64A lm) r)) in *. set (b' := B2R (sr_sza (A := b64A lm) r')) in *. clearbody b b'.
  apply Rabs_le_inv in Z. apply Rabs_le_inv in Z'. destruct CL as [C1 C2]. clear - Z Z' C1 C2 Hs PB.
  assert (RT : 1.9 / 10 ^ 7 <= degrees 0.000046 * (B2R ds' - B2R ds)) by (unfold degrees; nra).
  split; intros H0 H1; [specialize (C1 H0 H1)|specialize (C2 H0 H1)]; lra.
Qed.

(** C109 at 45 degrees north and 0 degrees east on 2000 February 29: the binary64
    zenith angle of the program decreases from 2h to 3h UT. *)
Example C109_climb_example_pf : forall lm, good_libm lm -> forall p, exists c r r',
  sun_new (A := b64A lm) p (parF lm (MkDate 2000 2 29) 2 0 (Flit 0 0) (Flit 0 0) (Flit 45 0) (Flit 0 0)) = Val c /\
  sun_compute (A := b64A lm) c (Flit 0 0) = Val r /\ sun_compute (A := b64A lm) c (Flit 3600 0) = Val r' /\
  B2R (sr_sza (A := b64A lm) r') < B2R (sr_sza (A := b64A lm) r).
Proof.
  intros lm G p. destruct L_ArithF.lit_0 as [E0 F0].
  assert (E45 : B2R (Flit 45 0) = 45 /\ is_finite (Flit 45 0) = true) by L_ArithF.flit_prove. destruct E45 as [E45 F45].
  assert (EH : B2R (Flit 3600 0) = 3600 /\ is_finite (Flit 3600 0) = true) by L_ArithF.flit_prove. destruct EH as [EH FH].
  assert (U : forall ds, is_finite ds = true -> Rabs (B2R ds) <= 31104000 -> usual_inputs (MkDate 2000 2 29) 2 0 (Flit 0 0) (Flit 0 0) (Flit 45 0) (Flit 0 0) ds).
  { intros ds Fd Bd. unfold usual_inputs. cbn [year]. rewrite !E0, ?E45. repeat match goal with |- _ /\ _ => split end; try assumption; try lia; try lra; try (apply Rabs_le; lra). reflexivity. }
  destruct (C109_climb_b64_pf lm G p (MkDate 2000 2 29) 2 0 (Flit 0 0) (Flit 0 0) (Flit 45 0) (Flit 0 0) 0 36000 (Flit 0 0) (Flit 3600 0)) as (c & r & r' & T1 & T2 & T3 & _ & _ & T4 & _).
  - apply U; [exact F0|rewrite E0, Rabs_R0; lra].
  - apply U; [exact FH|rewrite EH, Rabs_pos_eq; lra].
  - rewrite E45, Rabs_pos_eq; lra.
  - rewrite E0. lra.
  - rewrite E0, EH. lra.
  - exists c, r, r'. split; [exact T1|]. split; [exact T2|]. split; [exact T3|]. rewrite E0, EH in T4. apply T4; lra.
Qed.
