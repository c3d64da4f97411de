(** * Proofs of C95 *)

From Coq Require Import ZArith Reals Lra Lia Bool List Psatz.
From Flocq Require Import Core BinarySingleNaN.
From Verif Require Import Outcome Arith ArithR ArithF M_Common M_Calendar M_Time M_Ellipsoid M_Locator M_Frames M_Earth M_SunAngle Spec_Calendar Spec_Api Spec_Accuracy Spec_Matrix Spec_Frames Spec_Sun Spec_SunAcc Spec_Almanac.
From Verif Require Import L_ArithR L_Matrix L_PMatrix L_Near L_Pi L_Kepler L_Orbit L_POrbit L_PPole L_Angle L_Almanac L_AlmanacSky L_PAlmanac L_PTropics L_PDaylight L_PSeasons.
From Verif Require L_ApxGd L_ApxMod L_Ellipsoid L_SeriesR L_Apx.
Open Scope R_scope.

(** The Sun's right ascension is its longitude less a small angle. *)
Definition red_s (l e : R) : R := sin l * cos l * (1 - cos e).
Definition red_c (l e : R) : R := cos l * cos l + cos e * (sin l * sin l).
Definition red (l e : R) : R := atan (red_s l e / red_c l e).

Lemma red_pos : forall l e, 0.9 <= cos e <= 1 -> 0.9 <= red_c l e.
Proof.
  intros l e H. unfold red_c. pose proof (sin2_cos2 l) as A. unfold Rsqr in A. set (s := sin l) in *. set (c := cos l) in *. clearbody s c.
  assert (0 <= s * s) by nra. assert (0 <= c * c) by nra. nra.
Qed.

Lemma red_small : forall l e, 0.9172 <= cos e <= 1 -> Rabs (red l e) <= 0.04325.
Proof.
  intros l e H. unfold red. pose proof (red_pos l e ltac:(lra)) as C. eapply Rle_trans; [apply L_Ellipsoid.atan_abs_le|].
  assert (S : Rabs (red_s l e) <= 0.04325 * red_c l e).
  { unfold red_s, red_c. set (s := sin l). set (c := cos l). set (q := cos e) in *. clearbody s c q.
    assert (A : 0 <= c * c + 0.9172 * (s * s) - 1.9154 * (s * c)).
    { replace (c * c + 0.9172 * (s * s) - 1.9154 * (s * c)) with ((c - 0.9577 * s) * (c - 0.9577 * s) + (0.9172 - 0.9577 * 0.9577) * (s * s)) by lra. apply Rplus_le_le_0_compat; [apply Rle_0_sqr|apply Rmult_le_pos; [lra|apply Rle_0_sqr]]. }
    assert (B : 0 <= c * c + 0.9172 * (s * s) + 1.9154 * (s * c)).
    { replace (c * c + 0.9172 * (s * s) + 1.9154 * (s * c)) with ((c + 0.9577 * s) * (c + 0.9577 * s) + (0.9172 - 0.9577 * 0.9577) * (s * s)) by lra. apply Rplus_le_le_0_compat; [apply Rle_0_sqr|apply Rmult_le_pos; [lra|apply Rle_0_sqr]]. }
    assert (D : c * c + 0.9172 * (s * s) <= c * c + q * (s * s)) by nra.
    set (t := s * c) in *. set (u := c * c + q * (s * s)) in *. assert (T : - u <= 1.9154 * t <= u) by lra. clearbody t u. assert (0 <= 1 - q <= 0.0828) by lra. apply Rabs_le. split; nra. }
  unfold Rdiv. rewrite Rabs_mult, (Rabs_pos_eq (/ red_c l e)) by (left; apply Rinv_0_lt_compat; lra).
  apply Rmult_le_reg_r with (red_c l e); [lra|]. rewrite Rmult_assoc, Rinv_l by lra. lra.
Qed.

Lemma red_ascension : forall l e, 0.9 <= cos e <= 1 -> let d := asin (sin e * sin l) in
  cos l = cos d * cos (l - red l e) /\ cos e * sin l = cos d * sin (l - red l e) /\ sin e * sin l = sin d.
Proof.
  intros l e H d. pose proof (red_pos l e H) as C. pose proof (sin2_cos2 l) as A. pose proof (sin2_cos2 e) as B. unfold Rsqr in A, B.
  destruct (L_ApxGd.polar_atan (red_s l e) (red_c l e) ltac:(lra)) as [PS PC]. fold (red l e) in PS, PC.
  pose proof (SIN_bound l) as SL. pose proof (SIN_bound e) as SE.
  assert (Z : -1 <= sin e * sin l <= 1) by (split; nra).
  assert (Q : red_s l e * red_s l e + red_c l e * red_c l e = 1 - sin e * sin l * (sin e * sin l)).
  { unfold red_s, red_c. replace (sin e * sin l * (sin e * sin l)) with (sin e * sin e * (sin l * sin l)) by ring.
    replace (sin e * sin e) with (1 - cos e * cos e) by lra. set (s := sin l) in *. set (c := cos l) in *. set (q := cos e) in *. clearbody s c q.
    replace (c * c) with (1 - s * s) by lra. replace (s * c * (1 - q) * (s * c * (1 - q))) with (s * s * (c * c) * ((1 - q) * (1 - q))) by ring. replace (c * c) with (1 - s * s) by lra. ring. }
  assert (CD : cos d = R_sqrt.sqrt (1 - sin e * sin l * (sin e * sin l))) by (unfold d; rewrite cos_asin by exact Z; reflexivity).
  rewrite Q in PS, PC. rewrite <- CD in PS, PC. assert (SD : sin d = sin e * sin l) by (unfold d; apply sin_asin; exact Z).
  split; [|split; [|symmetry; exact SD]].
  - rewrite cos_minus. transitivity (cos l * (cos d * cos (red l e)) + sin l * (cos d * sin (red l e))); [|ring]. rewrite <- PS, <- PC. unfold red_s, red_c.
    transitivity (cos l * (sin l * sin l + cos l * cos l)); [rewrite A; ring|ring].
  - rewrite sin_minus. transitivity (sin l * (cos d * cos (red l e)) - cos l * (cos d * sin (red l e))); [|ring]. rewrite <- PS, <- PC. unfold red_s, red_c.
    transitivity (cos e * sin l * (sin l * sin l + cos l * cos l)); [rewrite A; ring|ring].
Qed.

(** Declination and equation of time, in degrees. *)
Definition decl (n : R) : R := asin (sin (alm_obliquity n) * sin (alm_long n)) / (PI / 180).
Definition eqt (n : R) : R := (alm_gmst n - alm_long n + red (alm_long n) (alm_obliquity n)) / (PI / 180) - 360 * n.

Lemma obl_cos : forall n, Rabs n <= 36524 -> 0.9172 <= cos (alm_obliquity n) <= 1.
Proof.
  intros n Hn. destruct eps0_trig as [_ SE]. pose proof PI_bounds as PB. apply Rabs_le_inv in Hn. split; [|apply COS_bound].
  assert (D : Rabs (alm_obliquity n - eps_0) <= 0.00027) by (unfold alm_obliquity, degrees, eps_0, arcsec; apply Rabs_le; split; nra).
  pose proof (L_Apx.cos_lip (alm_obliquity n) eps_0) as L. assert (L' : Rabs (cos (alm_obliquity n) - cos eps_0) <= 0.00027) by (eapply Rle_trans; [exact L|exact D]).
  apply Rabs_le_inv in L'. lra.
Qed.

Lemma decl_small : forall n, Rabs n <= 36524 -> Rabs (decl n) <= 23.454.
Proof.
  intros n Hn. pose proof PI_bounds as PB. pose proof (obl_bounds n ltac:(lra)) as OB.
  assert (SE : 0 <= sin (alm_obliquity n) <= sin (degrees 23.454)) by (unfold degrees in *; split; [apply sin_ge_0; lra|apply sin_incr_1; lra]).
  pose proof (SIN_bound (alm_long n)) as SL. pose proof (SIN_bound (degrees 23.454)) as SB.
  set (z := sin (alm_obliquity n) * sin (alm_long n)). assert (Z : - sin (degrees 23.454) <= z <= sin (degrees 23.454)) by (unfold z; split; nra).
  assert (A : Rabs (asin z) <= degrees 23.454).
  { pose proof (asin_bound z) as B1. apply Rabs_le. unfold degrees in *. split.
    - apply Rnot_lt_le. intros N. pose proof (sin_increasing_1 (asin z) (- (23.454 * (PI / 180))) ltac:(lra) ltac:(lra) ltac:(lra) ltac:(lra) N) as S. rewrite sin_neg, sin_asin in S by lra. lra.
    - apply Rnot_lt_le. intros N. pose proof (sin_increasing_1 (23.454 * (PI / 180)) (asin z) ltac:(lra) ltac:(lra) ltac:(lra) ltac:(lra) N) as S. rewrite sin_asin in S by lra. lra. }
  unfold decl. fold z. unfold Rdiv at 1. rewrite Rabs_mult, (Rabs_pos_eq (/ (PI / 180))) by (left; apply Rinv_0_lt_compat; lra).
  apply Rmult_le_reg_r with (PI / 180); [lra|]. rewrite Rmult_assoc, Rinv_l by lra. unfold degrees in A. lra.
Qed.

Lemma eqt_small : forall n, Rabs n <= 36524 -> Rabs (eqt n) <= 4.43.
Proof.
  intros n Hn. pose proof PI_bounds as PB. pose proof (red_small (alm_long n) (alm_obliquity n) (obl_cos n Hn)) as RS. pose proof (centre n) as CE.
  assert (E : eqt n = (0.00061837 - 0.00000003371 * n + 0.000387933 * (n / 36525) ^ 2 - (n / 36525) ^ 3 / 38710000) - (1.915 * sin (alm_anomaly n) + 0.020 * sin (2 * alm_anomaly n)) + red (alm_long n) (alm_obliquity n) / (PI / 180)).
  { unfold eqt. set (y := red _ _). unfold alm_gmst, alm_long, alm_mean_long, degrees. clearbody y. set (s := sin (alm_anomaly n)). set (s' := sin (2 * alm_anomaly n)). clearbody s s'.
    assert (G : forall A B C k, k <> 0 -> (A * k - (B * k + C * k) + y) / k = A - B - C + y / k) by (intros; field; assumption). rewrite G by lra.
    set (z := y / (PI / 180)). set (w := (n / 36525) ^ 2). set (w' := (n / 36525) ^ 3). clearbody z w w'. lra. }
  rewrite E. set (c := 1.915 * _ + _) in *. clearbody c.
  assert (R : Rabs (red (alm_long n) (alm_obliquity n) / (PI / 180)) <= 2.4785).
  { unfold Rdiv at 1. rewrite Rabs_mult, (Rabs_pos_eq (/ (PI / 180))) by (left; apply Rinv_0_lt_compat; lra). apply Rmult_le_reg_r with (PI / 180); [lra|]. rewrite Rmult_assoc, Rinv_l by lra. lra. }
  set (y := red _ _ / _) in *. clearbody y. apply Rabs_le_inv in Hn. set (x := n / 36525). assert (X : -1 <= x <= 1) by (unfold x; lra). clearbody x.
  assert (X2 : 0 <= x ^ 2 <= 1) by (cbn [pow]; nra). assert (X3 : -1 <= x ^ 3 <= 1) by (replace (x ^ 3) with (x * x ^ 2) by ring; set (w := x ^ 2) in *; clearbody w; nra).
  apply Rabs_le_inv in R. apply Rabs_le. set (w := x ^ 2) in *. set (w' := x ^ 3) in *. clearbody w w'. lra.
Qed.

Lemma hour_angle : forall n la lo, Rabs n <= 36524 ->
  alm_cos_zenith n la lo = sin (degrees la) * sin (degrees (decl n)) + cos (degrees la) * cos (degrees (decl n)) * cos (degrees (360 * n + lo + eqt n)).
Proof.
  intros n la lo Hn. pose proof PI_RGT_0 as P. pose proof (obl_cos n Hn) as OC.
  destruct (red_ascension (alm_long n) (alm_obliquity n) ltac:(lra)) as (A1 & A2 & A3).
  assert (ED : degrees (decl n) = asin (sin (alm_obliquity n) * sin (alm_long n))) by (unfold decl, degrees; field; lra). rewrite ED.
  unfold alm_cos_zenith. cbv zeta. set (d := asin _) in *. rewrite A3, A2, A1.
  assert (EH : degrees (360 * n + lo + eqt n) = alm_gmst n + degrees lo - (alm_long n - red (alm_long n) (alm_obliquity n))) by (unfold eqt, degrees; field; lra).
  rewrite EH, (cos_minus (alm_gmst n + degrees lo)). ring.
Qed.

(** C95.  There are a declination and an equation of time, functions of the moment
    alone and at most 23.46 and 4.43 degrees in absolute value from 1900 to 2100, such
    that for every accepted request the zenith angle that compute returns is that of
    the spherical triangle with this declination and the hour angle of local mean
    time plus the equation of time, within 0.143 degrees. *)
Lemma C95_solar_time_pf : exists decl eqt : R -> R, (forall n, Rabs n <= 36524 -> Rabs (decl n) <= 23.46 /\ Rabs (eqt n) <= 4.43) /\
  forall p par c ds k, sun_new (A := realA) p par = Val c ->
  accepted (sp_date (A := realA) par) -> (year (sp_date (A := realA) par) <= 1465072)%Z -> day_count mjd_epoch (of_date (sp_date (A := realA) par)) k ->
  let n := ut_days k (clock (sp_time (A := realA) par) + ds) in let la := degrees (lat (A := realA) (sp_position (A := realA) par)) in
  let de := degrees (decl n) in
  let ha := degrees ((clock (sp_time (A := realA) par) + ds - 43200) / 240 + lon (A := realA) (sp_position (A := realA) par) + eqt n) in
  Rabs n <= 36524 -> exists r, sun_compute (A := realA) c ds = Val r /\
  Rabs (sr_sza (A := realA) r - acos (sin la * sin de + cos la * cos de * cos ha)) <= degrees 0.143.
Proof.
  exists decl, eqt. split; [intros n Hn; split; [eapply Rle_trans; [apply decl_small, Hn|lra]|apply eqt_small, Hn]|].
  intros p par c ds k E Hg Hy Hk n la de ha Hn. destruct (C87_almanac_pf p par c ds k E Hg Hy Hk Hn) as (r & Er & B). exists r. split; [exact Er|].
  fold n in B. rewrite (hour_angle n _ _ Hn) in B. fold la in B. fold de in B.
  assert (EH : cos (degrees (360 * n + lon (A := realA) (sp_position (A := realA) par) + eqt n)) = cos ha).
  { unfold ha, n at 1, ut_days, degrees. set (q := eqt n). set (o := lon (A := realA) _). set (s := clock _ + ds). change (num realA) with R in o. clearbody q o s.
    replace ((360 * (IZR k - 51544.5 + s / 86400) + o + q) * (PI / 180)) with (((s - 43200) / 240 + o + q) * (PI / 180) + IZR (k - 51544) * (2 * PI)) by (rewrite minus_IZR; lra).
    apply L_ApxMod.trig_turns. }
  rewrite EH in B. exact B.
Qed.

Lemma cos_443 : forall x, Rabs x <= 4.43 -> 0.997 <= cos (degrees x).
Proof.
  intros x Hx. pose proof PI_bounds as PB. apply Rabs_le_inv in Hx. assert (B : -0.07732 <= degrees x <= 0.07732) by (unfold degrees; split; nra).
  set (y := degrees x) in *. clearbody y. destruct (cos_taylor4 y ltac:(apply Rabs_le; lra)) as [T _]. nra.
Qed.

Lemma noon_or_midnight : forall k sec la lo (j : Z), let n := ut_days k sec in Rabs n <= 36524 -> -65 <= la <= 65 ->
  (sec + 240 * lo = 43200 + 86400 * IZR j -> acos (alm_cos_zenith n la lo) <= degrees 88.64) /\
  (sec + 240 * lo = 86400 * IZR j -> degrees 91.36 <= acos (alm_cos_zenith n la lo)).
Proof.
  intros k sec la lo j n Hn Hl. pose proof PI_bounds as PB. rewrite (hour_angle n la lo Hn). pose proof (decl_small n Hn) as DS. pose proof (eqt_small n Hn) as ES.
  set (d := decl n) in *. set (q := eqt n) in *. clearbody d q.
  assert (CQ : forall x, x = q + 360 * IZR (k - 51544 + j) -> 0.997 <= cos (degrees x)).
  { intros x ->. replace (degrees (q + 360 * IZR (k - 51544 + j))) with (degrees q + IZR (k - 51544 + j) * (2 * PI)) by (unfold degrees; lra). destruct (L_ApxMod.trig_turns (degrees q) (k - 51544 + j)) as [-> _]. apply cos_443, ES. }
  apply Rabs_le_inv in DS.
  assert (CM : 0.02696 <= cos (degrees la - degrees d)) by (apply cos_88; apply Rabs_le; unfold degrees; split; nra).
  assert (CP : 0.02696 <= cos (degrees la + degrees d)) by (apply cos_88; apply Rabs_le; unfold degrees; split; nra).
  rewrite cos_minus in CM. rewrite cos_plus in CP.
  assert (CL : 0 <= cos (degrees la) * cos (degrees d) <= 1).
  { assert (0 <= cos (degrees la)) by (apply cos_ge_0; unfold degrees; nra). assert (0 <= cos (degrees d)) by (apply cos_ge_0; unfold degrees; nra). pose proof (COS_bound (degrees la)). pose proof (COS_bound (degrees d)). split; nra. }
  set (u := cos (degrees la) * cos (degrees d)) in *. set (v := sin (degrees la) * sin (degrees d)) in *. clearbody u v.
  split; intros T.
  - assert (C : 0.997 <= cos (degrees (360 * n + lo + q))).
    { apply CQ. unfold n, ut_days. rewrite plus_IZR, minus_IZR. lra. }
    assert (A : acos (v + u * cos (degrees (360 * n + lo + q))) <= PI / 2 - 0.0239) by (apply acos_low; [lra|nra]).
    eapply Rle_trans; [exact A|]. unfold degrees. lra.
  - assert (C : cos (degrees (360 * n + lo + q)) <= -0.997).
    { specialize (CQ (360 * n + lo + q + 180)). replace (degrees (360 * n + lo + q + 180)) with (degrees (360 * n + lo + q) + PI) in CQ by (unfold degrees; lra). rewrite neg_cos in CQ.
      assert (0.997 <= - cos (degrees (360 * n + lo + q))); [|lra]. apply CQ. unfold n, ut_days. rewrite plus_IZR, minus_IZR. lra. }
    assert (A : acos (- (v + u * cos (degrees (360 * n + lo + q)))) <= PI / 2 - 0.0239) by (apply acos_low; [lra|nra]).
    rewrite acos_opp in A. unfold degrees at 1. lra.
Qed.

(** C95.  Between 65 south and 65 north the Sun is up at local mean noon (Universal
    Time plus four minutes per degree of east longitude) with a zenith angle of at
    most 88.8 degrees, and down at local mean midnight with at least 91.2 degrees, on
    every day from 1900 to 2100. *)
Lemma C95_noon_pf : forall p par c ds k j, sun_new (A := realA) p par = Val c ->
  accepted (sp_date (A := realA) par) -> (year (sp_date (A := realA) par) <= 1465072)%Z -> day_count mjd_epoch (of_date (sp_date (A := realA) par)) k ->
  Rabs (ut_days k (clock (sp_time (A := realA) par) + ds)) <= 36524 -> -65 <= lat (A := realA) (sp_position (A := realA) par) <= 65 ->
  let local := clock (sp_time (A := realA) par) + ds + 240 * lon (A := realA) (sp_position (A := realA) par) in
  exists r, sun_compute (A := realA) c ds = Val r /\
  (local = 43200 + 86400 * IZR j -> sr_sza (A := realA) r <= degrees 88.8) /\ (local = 86400 * IZR j -> degrees 91.2 <= sr_sza (A := realA) r).
Proof.
  intros p par c ds k j E Hg Hy Hk Hn Hl local. destruct (C87_almanac_pf p par c ds k E Hg Hy Hk Hn) as (r & Er & B). exists r. split; [exact Er|].
  destruct (noon_or_midnight k (clock (sp_time (A := realA) par) + ds) _ (lon (A := realA) (sp_position (A := realA) par)) j Hn Hl) as [T1 T2].
  set (z := acos _) in *. set (q := sr_sza (A := realA) r) in *. clearbody z q. apply Rabs_le_inv in B. pose proof PI_RGT_0 as P.
  split; intros L; [specialize (T1 L)|specialize (T2 L)]; unfold degrees in *; lra.
Qed.

(** C95 in binary64, for the usual inputs and latitudes of 25 to 65 degrees north or
    south. *)
Lemma C95_noon_b64_pf : forall lm, good_libm lm -> forall p g h m s lo la ht ds j,
  usual_inputs g h m s lo la ht ds -> 25 <= Rabs (B2R la) <= 65 ->
  let local := 3600 * IZR h + 60 * IZR m + B2R s + B2R ds + 240 * B2R lo in
  exists c r, sun_new (A := b64A lm) p (parF lm g h m s lo la ht) = Val c /\ sun_compute (A := b64A lm) c ds = Val r /\
  is_finite (sr_sza (A := b64A lm) r) = true /\
  (local = 43200 + 86400 * IZR j -> B2R (sr_sza (A := b64A lm) r) <= degrees 88.8) /\ (local = 86400 * IZR j -> degrees 91.2 <= B2R (sr_sza (A := b64A lm) r)).
Proof.
  intros lm G p g h m s lo la ht ds j U Hl local. pose proof PI_bounds as PB. pose proof U as (Hg & _). pose proof (proj1 (L_PCalendar.accepted_spec _) Hg) as [V _].
  assert (Hk : day_count mjd_epoch (of_date g) (L_Calendar.mjd (of_date g))) by (apply L_Calendar.mjd_epoch_count; exact V). set (k := L_Calendar.mjd (of_date g)) in *. clearbody k.
  assert (N : Rabs (ut_days k (3600 * IZR h + 60 * IZR m + B2R s + B2R ds)) <= 36524) by (eapply usual_days; eassumption).
  assert (L65 : -65 <= B2R la <= 65) by (apply Rabs_le_inv; lra). pose proof (alm_tropics _ (B2R la) (B2R lo) N ltac:(lra)) as T.
  destruct (noon_or_midnight k (3600 * IZR h + 60 * IZR m + B2R s + B2R ds) _ (B2R lo) j N L65) as [T1 T2].
  pose proof (C87_almanac_b64_pf lm G p g h m s lo la ht ds k U Hk) as A. cbv zeta in A. set (z := acos _) in *.
  destruct A as (c & r & E1 & E2 & F & B); [clearbody z; unfold degrees in T; nra|].
  exists c, r. split; [exact E1|]. split; [exact E2|]. split; [exact F|].
  set (q := B2R (sr_sza (A := b64A lm) r)) in *. clearbody z q. clear - B T1 T2 PB. apply Rabs_le_inv in B. subst local.
  split; intros L; [specialize (T1 L)|specialize (T2 L)]; unfold degrees in *; lra.
Qed.

(** C95 at 45 degrees north and 60 degrees east on 2000 February 29: at 8h UT, local
    noon, the binary64 zenith angle is below 90 degrees, and at 20h UT, local
    midnight, above. *)
Example C95_example_pf : forall lm, good_libm lm -> forall p, exists c r c' r',
  sun_new (A := b64A lm) p (parF lm (MkDate 2000 2 29) 8 0 (Flit 0 0) (Flit 60 0) (Flit 45 0) (Flit 0 0)) = Val c /\ sun_compute (A := b64A lm) c (Flit 0 0) = Val r /\
  sun_new (A := b64A lm) p (parF lm (MkDate 2000 2 29) 20 0 (Flit 0 0) (Flit 60 0) (Flit 45 0) (Flit 0 0)) = Val c' /\ sun_compute (A := b64A lm) c' (Flit 0 0) = Val r' /\
  B2R (sr_sza (A := b64A lm) r) < degrees 90 < B2R (sr_sza (A := b64A lm) r').
Proof.
  intros lm G p. destruct L_ArithF.lit_0 as [E0 F0]. pose proof PI_RGT_0 as P.
  assert (E45 : B2R (Flit 45 0) = 45 /\ is_finite (Flit 45 0) = true) by L_ArithF.flit_prove. destruct E45 as [E45 F45].
  assert (E60 : B2R (Flit 60 0) = 60 /\ is_finite (Flit 60 0) = true) by L_ArithF.flit_prove. destruct E60 as [E60 F60].
  assert (U : forall h, (0 <= h < 24)%Z -> usual_inputs (MkDate 2000 2 29) h 0 (Flit 0 0) (Flit 60 0) (Flit 45 0) (Flit 0 0) (Flit 0 0)).
  { intros h Hh. unfold usual_inputs. cbn [year]. rewrite !E0, ?E45, ?E60. repeat match goal with |- _ /\ _ => split end; try assumption; try lia; try lra; try (apply Rabs_le; lra). reflexivity. }
  destruct (C95_noon_b64_pf lm G p _ _ _ _ _ _ _ _ 0 (U 8%Z ltac:(lia))) as (c & r & T1 & T2 & _ & T3 & _); [rewrite E45, Rabs_pos_eq; lra|].
  destruct (C95_noon_b64_pf lm G p _ _ _ _ _ _ _ _ 1 (U 20%Z ltac:(lia))) as (c' & r' & T1' & T2' & _ & _ & T3'); [rewrite E45, Rabs_pos_eq; lra|].
  exists c, r, c', r'. rewrite !E0, !E60 in T3, T3'. specialize (T3 ltac:(lra)). specialize (T3' ltac:(lra)).
  split; [exact T1|]. split; [exact T2|]. split; [exact T1'|]. split; [exact T2'|]. unfold degrees in *. lra.
Qed.
