(** * Proofs of C92 and C93 *)

From Coq Require Import ZArith Reals Lra Lia Bool List Psatz.
From Flocq Require Import Core BinarySingleNaN.
From Verif Require Import Outcome Arith ArithR ArithF M_Common M_Calendar M_Time M_Ellipsoid M_Locator M_Frames M_Earth M_SunAngle Spec_Calendar Spec_Api Spec_Accuracy Spec_Matrix Spec_Frames Spec_Series Spec_Orbit Spec_Sun Spec_SunAcc Spec_Almanac.
From Verif Require Import L_ArithR L_Matrix L_PMatrix L_Near L_Pi L_Kepler L_Orbit L_POrbit L_PPole L_Angle L_Almanac L_AlmanacSky L_PAlmanac L_PTropics.
From Verif Require L_Calendar L_PCalendar L_ApxMod L_Apx L_PSunAngle L_PAccSun.
Open Scope R_scope.

(** ** The day of the year *)

(** Four times the days since 2000 January 1.0, less 1461 per year. *)
Lemma quarter_days : forall y m d, (1901 <= y <= 2098)%Z -> (1 <= d)%Z ->
  let q := (4 * (L_Calendar.mjd (y, m, d) - 51544) - 1461 * (y - 2000))%Z in
  (m = 1 -> d <= 31 -> 0 <= q <= 123)%Z /\ (m = 6 -> d <= 30 -> 605 <= q <= 724)%Z /\
  (m = 7 -> d <= 31 -> 725 <= q <= 848)%Z /\ (m = 12 -> d <= 31 -> 1337 <= q <= 1460)%Z.
Proof.
  intros y m d Hy Hd q. unfold q, L_Calendar.mjd, L_Calendar.my. clear q.
  assert (P : forall m', (367 * (m' - 2 - 12 * 0) / 12 = 367 * (m' - 2) / 12)%Z) by (intros; f_equal; lia).
  assert (C : forall u, (1900 <= u <= 2098 -> 3 * ((u + 4900) / 100) / 4 = 51)%Z).
  { intros u Hu. Z.to_euclidean_division_equations. lia. }
  refine (conj _ (conj _ (conj _ _))); intros -> D; cbn [Z.leb Z.compare Pos.compare Pos.compare_cont].
  all: try change (367 * (1 - 2 - 12 * -1) / 12)%Z with 336%Z.
  all: try change (367 * (6 - 2 - 12 * 0) / 12)%Z with 122%Z.
  all: try change (367 * (7 - 2 - 12 * 0) / 12)%Z with 152%Z.
  all: try change (367 * (12 - 2 - 12 * 0) / 12)%Z with 305%Z.
  all: rewrite C by lia; clear C P; Z.to_euclidean_division_equations; lia.
Qed.

(** The moment [sec] seconds after 0h of a date, in days from the start of a mean
    year of 365.25 days. *)
Lemma season : forall g k sec, accepted g -> (1901 <= year g <= 2098)%Z -> day_count mjd_epoch (of_date g) k -> 0 <= sec <= 86400 ->
  exists w, ut_days k sec = 365.25 * IZR (year g - 2000) + w /\ -99 <= IZR (year g - 2000) <= 98 /\
  (month g = 1%Z -> -0.5 <= w <= 31.25) /\ (month g = 6%Z -> 150.75 <= w <= 181.5) /\
  (month g = 7%Z -> 180.75 <= w <= 212.5) /\ (month g = 12%Z -> 333.75 <= w <= 365.5).
Proof.
  intros g k sec Hg Hy Hk Hs. pose proof (proj1 (L_PCalendar.accepted_spec _) Hg) as [V _].
  assert (EK : k = L_Calendar.mjd (of_date g)) by (apply (L_PCalendar.C02_day_count_unique_pf (of_date g)); [exact V|exact Hk|apply L_Calendar.mjd_epoch_count; exact V]).
  destruct g as [y m d]. change (of_date (MkDate y m d)) with (y, m, d) in *. cbn [year month] in *. change (1 <= m <= 12 /\ 1 <= d <= month_length y m)%Z in V. destruct V as [Vm Vd].
  pose proof (quarter_days y m d Hy ltac:(lia)) as (Q1 & Q6 & Q7 & Q12). rewrite <- EK in Q1, Q6, Q7, Q12. clear EK Hk.
  exists (ut_days k sec - 365.25 * IZR (y - 2000)). split; [ring|]. split; [split; apply IZR_le; lia|].
  assert (W : ut_days k sec - 365.25 * IZR (y - 2000) = IZR (4 * (k - 51544) - 1461 * (y - 2000)) / 4 - 0.5 + sec / 86400).
  { unfold ut_days. rewrite (minus_IZR (4 * (k - 51544))), !mult_IZR, !minus_IZR. lra. }
  rewrite W. set (q := (4 * (k - 51544) - 1461 * (y - 2000))%Z) in *. clearbody q. clear W.
  refine (conj _ (conj _ (conj _ _))); intros ->; cbn [month_length] in Vd.
  all: try (specialize (Q1 eq_refl ltac:(lia)); destruct Q1 as [A B]; apply IZR_le in A; apply IZR_le in B; lra).
  all: try (specialize (Q6 eq_refl ltac:(lia)); destruct Q6 as [A B]; apply IZR_le in A; apply IZR_le in B; lra).
  all: try (specialize (Q7 eq_refl ltac:(lia)); destruct Q7 as [A B]; apply IZR_le in A; apply IZR_le in B; lra).
  all: try (specialize (Q12 eq_refl ltac:(lia)); destruct Q12 as [A B]; apply IZR_le in A; apply IZR_le in B; lra).
Qed.

(** ** Declination of the Sun *)

Lemma centre : forall n, -1.935 <= 1.915 * sin (alm_anomaly n) + 0.020 * sin (2 * alm_anomaly n) <= 1.935.
Proof. intros n. pose proof (SIN_bound (alm_anomaly n)). pose proof (SIN_bound (2 * alm_anomaly n)). lra. Qed.

Lemma long_form : forall y w c j, -99 <= IZR y <= 98 ->
  alm_long (365.25 * IZR y + w) = degrees c + degrees (280.46 - 360 * IZR j - c + 0.00771285 * IZR y + 0.9856474 * w + (alm_long (365.25 * IZR y + w) - alm_mean_long (365.25 * IZR y + w)) / (PI / 180)) + IZR (y + j) * (2 * PI).
Proof.
  intros y w c j Hy. pose proof PI_RGT_0 as P. set (L := alm_long _). unfold alm_mean_long, degrees. rewrite plus_IZR.
  replace ((280.460 + 0.9856474 * (365.25 * IZR y + w)) * (PI / 180)) with ((280.46 + 0.00771285 * IZR y + 0.9856474 * w) * (PI / 180) + IZR y * (2 * PI)) by lra.
  field. lra.
Qed.

Lemma cos_237 : forall x, Rabs x <= 23.7 -> 0.9144 <= cos (degrees x).
Proof.
  intros x Hx. pose proof PI_bounds as PB. apply Rabs_le_inv in Hx. assert (B : -0.41365 <= degrees x <= 0.41365) by (unfold degrees; split; nra).
  set (y := degrees x) in *. clearbody y. destruct (cos_taylor4 y ltac:(apply Rabs_le; lra)) as [T _]. nra.
Qed.

(** Sine of the ecliptic longitude in June and December. *)
Lemma june_long : forall y w, -99 <= IZR y <= 98 -> 150.75 <= w <= 181.5 -> 0.9144 <= sin (alm_long (365.25 * IZR y + w)).
Proof.
  intros y w Hy Hw. rewrite (long_form y w 90 1 Hy). destruct (L_ApxMod.trig_turns (degrees 90 + degrees (280.46 - 360 * 1 - 90 + 0.00771285 * IZR y + 0.9856474 * w + (alm_long (365.25 * IZR y + w) - alm_mean_long (365.25 * IZR y + w)) / (PI / 180))) (y + 1)) as [_ ->].
  pose proof PI_RGT_0 as P. replace (degrees 90) with (PI / 2) by (unfold degrees; field). rewrite sin_plus, sin_PI2, cos_PI2, Rmult_1_l, Rmult_0_l, Rplus_0_r.
  apply cos_237. pose proof (centre (365.25 * IZR y + w)) as C.
  replace ((alm_long (365.25 * IZR y + w) - alm_mean_long (365.25 * IZR y + w)) / (PI / 180)) with (1.915 * sin (alm_anomaly (365.25 * IZR y + w)) + 0.020 * sin (2 * alm_anomaly (365.25 * IZR y + w))) by (unfold alm_long, degrees; field; lra).
  set (q := 1.915 * _ + _) in *. clearbody q. apply Rabs_le. lra.
Qed.
Lemma december_long : forall y w, -99 <= IZR y <= 98 -> 333.75 <= w <= 365.5 -> sin (alm_long (365.25 * IZR y + w)) <= -0.9144.
Proof.
  intros y w Hy Hw. rewrite (long_form y w 270 1 Hy). destruct (L_ApxMod.trig_turns (degrees 270 + degrees (280.46 - 360 * 1 - 270 + 0.00771285 * IZR y + 0.9856474 * w + (alm_long (365.25 * IZR y + w) - alm_mean_long (365.25 * IZR y + w)) / (PI / 180))) (y + 1)) as [_ ->].
  pose proof PI_RGT_0 as P. replace (degrees 270) with (3 * (PI / 2)) by (unfold degrees; field). rewrite sin_plus, sin_3PI2, cos_3PI2, Rmult_0_l, Rplus_0_r.
  set (x := 280.46 - _ - _ + _ + _ + _). assert (X : 0.9144 <= cos (degrees x)); [|lra]. unfold x.
  apply cos_237. pose proof (centre (365.25 * IZR y + w)) as C.
  replace ((alm_long (365.25 * IZR y + w) - alm_mean_long (365.25 * IZR y + w)) / (PI / 180)) with (1.915 * sin (alm_anomaly (365.25 * IZR y + w)) + 0.020 * sin (2 * alm_anomaly (365.25 * IZR y + w))) by (unfold alm_long, degrees; field; lra).
  set (q := 1.915 * _ + _) in *. clearbody q. apply Rabs_le. lra.
Qed.

Lemma sin_obl : forall n, Rabs n <= 36525 -> 0.3974 <= sin (alm_obliquity n).
Proof.
  intros n Hn. destruct eps0_trig as [SE _]. pose proof PI_bounds as PB. apply Rabs_le_inv in Hn.
  assert (D : Rabs (alm_obliquity n - eps_0) <= 0.00027) by (unfold alm_obliquity, degrees, eps_0, arcsec; apply Rabs_le; split; nra).
  pose proof (L_Apx.sin_lip (alm_obliquity n) eps_0) as L. apply Rabs_le_inv in D. assert (L' : Rabs (sin (alm_obliquity n) - sin eps_0) <= 0.00027) by (eapply Rle_trans; [exact L|apply Rabs_le; lra]).
  apply Rabs_le_inv in L'. lra.
Qed.
Lemma sin_21 : sin (degrees 21.243) <= 0.3624.
Proof.
  pose proof PI_bounds as PB. assert (B : 0.37075 <= degrees 21.243 <= 0.37077) by (unfold degrees; lra). destruct (sin_taylor5 (degrees 21.243) ltac:(lra)) as [_ T].
  set (x := degrees 21.243) in *. clearbody x. assert (0.37075 ^ 3 <= x ^ 3) by (apply pow_incr; lra). assert (x ^ 5 <= 0.37077 ^ 5) by (apply pow_incr; lra). lra.
Qed.

(** ** The zenith distance from the latitude and a bound on the declination *)

Lemma above : forall z s la e, nrm z = 1 -> nrm s = 1 -> coord z I2 = sin la -> - (PI / 2) <= la <= PI / 2 -> 0 <= e <= PI / 2 -> sin e <= coord s I2 ->
  e - la <= acos (unit_dot z s) <= PI - la - e.
Proof.
  intros z s la e Hz Hs Hl Bl Be Bs.
  pose proof (angle_triangle z e3 s ltac:(lra) ltac:(rewrite e3_unit; lra) ltac:(lra)) as T1.
  pose proof (angle_triangle z s e3 ltac:(lra) ltac:(lra) ltac:(rewrite e3_unit; lra)) as T2.
  replace (unit_dot e3 s) with (unit_dot s e3) in T1 by (unfold unit_dot; rewrite (Rmult_comm (nrm s)); f_equal; unfold sprod; ring).
  rewrite !dot_e3 in T1, T2 by assumption. rewrite Hl, acos_sin in T1, T2 by exact Bl.
  assert (A : acos (coord s I2) <= PI / 2 - e).
  { rewrite <- acos_sin by lra. pose proof (SIN_bound e) as SB. assert (U : coord s I2 <= 1).
    { pose proof (nrm_sq s) as N. rewrite Hs in N. unfold sprod in N. set (a := coord s I0) in *. set (b := coord s I1) in *. set (d := coord s I2) in *. clearbody a b d. nra. }
    apply Rnot_lt_le. intros N. pose proof (acos_bound (sin e)). pose proof (acos_bound (coord s I2)).
    pose proof (cos_decreasing_1 (acos (sin e)) (acos (coord s I2)) ltac:(lra) ltac:(lra) ltac:(lra) ltac:(lra) N) as D. rewrite !cos_acos in D by lra. lra. }
  lra.
Qed.

Lemma alm_above : forall n la lo e, -90 <= la <= 90 -> 0 <= e <= 90 ->
  (sin (degrees e) <= sin (alm_obliquity n) * sin (alm_long n) -> degrees (e - la) <= acos (alm_cos_zenith n la lo) <= degrees (180 - la - e)) /\
  (sin (alm_obliquity n) * sin (alm_long n) <= - sin (degrees e) -> degrees (e + la) <= acos (alm_cos_zenith n la lo) <= degrees (180 + la - e)).
Proof.
  intros n la lo e Hl He. pose proof PI_RGT_0 as P.
  set (pos := MkG360 (A := realA) lo la 0).
  pose proof (alm_dir_zenith n pos) as AD. cbn [lat lon pos] in AD. rewrite <- AD. clear AD.
  assert (Z : nrm (zenith_of pos) = 1).
  { unfold zenith_of. apply nrm_unit. cbn [lat lon pos]. pose proof (sin2_cos2 (degrees la)) as A. pose proof (sin2_cos2 (degrees lo)) as B. unfold Rsqr in A, B.
    set (a := cos (degrees la)) in *. set (b := sin (degrees la)) in *. set (c := cos (degrees lo)) in *. set (d := sin (degrees lo)) in *. clearbody a b c d.
    transitivity (a * a * (d * d + c * c) + b * b); [ring|]. rewrite B. lra. }
  pose proof (alm_dir_unit n) as D.
  assert (E : sprod (zenith_of pos) (alm_dir n) = unit_dot (zenith_of pos) (alm_dir n)) by (unfold unit_dot; rewrite Z, D; field). rewrite E.
  assert (Bl : - (PI / 2) <= degrees la <= PI / 2) by (unfold degrees; nra).
  assert (Be : 0 <= degrees e <= PI / 2) by (unfold degrees; nra).
  split; intros S.
  - pose proof (above (zenith_of pos) (alm_dir n) (degrees la) _ Z D eq_refl Bl Be S) as T. unfold degrees in *. lra.
  - assert (N : nrm (scl (-1) (alm_dir n)) = 1) by (rewrite L_AlmanacSun.nrm_neg; exact D).
    pose proof (above (zenith_of pos) (scl (-1) (alm_dir n)) (degrees la) _ Z N eq_refl Bl Be) as T.
    assert (O : unit_dot (zenith_of pos) (scl (-1) (alm_dir n)) = - unit_dot (zenith_of pos) (alm_dir n)).
    { unfold unit_dot. rewrite Z, D, N. unfold scl. vec_calc. field. }
    rewrite O, acos_opp in T.
    assert (H : sin (degrees e) <= coord (scl (-1) (alm_dir n)) I2) by (change (coord (scl (-1) (alm_dir n)) I2) with (-1 * (sin (alm_obliquity n) * sin (alm_long n))); lra).
    specialize (T H). clear - T. set (w := acos _) in *. clearbody w. unfold degrees in *. lra.
Qed.

Lemma seasons : forall g k sec la lo, accepted g -> (1901 <= year g <= 2098)%Z -> day_count mjd_epoch (of_date g) k -> 0 <= sec <= 86400 -> -90 <= la <= 90 ->
  Rabs (ut_days k sec) <= 36524 /\
  (month g = 6%Z -> degrees (21.243 - la) <= acos (alm_cos_zenith (ut_days k sec) la lo) <= degrees (158.757 - la)) /\
  (month g = 12%Z -> degrees (21.243 + la) <= acos (alm_cos_zenith (ut_days k sec) la lo) <= degrees (158.757 + la)).
Proof.
  intros g k sec la lo Hg Hy Hk Hs Hl.
  assert (N : Rabs (ut_days k sec) <= 36524).
  { assert (EK : k = L_Calendar.mjd (of_date g)).
    { pose proof (proj1 (L_PCalendar.accepted_spec _) Hg) as [V _]. apply (L_PCalendar.C02_day_count_unique_pf (of_date g)); [exact V|exact Hk|apply L_Calendar.mjd_epoch_count; exact V]. }
    pose proof (L_ApxDat.mjd_between g 1901 2098 Hg ltac:(lia) ltac:(lia)) as MB.
    change (L_Calendar.mjd (1901, 1, 1)%Z) with 15385%Z in MB. change (L_Calendar.mjd (2098, 12, 31)%Z) with 87703%Z in MB. rewrite <- EK in MB.
    destruct MB as [M1 M2]. apply IZR_le in M1. apply IZR_le in M2. unfold ut_days. apply Rabs_le. lra. }
  split; [exact N|]. destruct (season g k sec Hg Hy Hk Hs) as (w & EW & BY & _ & W6 & _ & W12).
  pose proof (sin_obl (ut_days k sec) ltac:(lra)) as O. pose proof sin_21 as S.
  destruct (alm_above (ut_days k sec) la lo 21.243 Hl ltac:(lra)) as [A6 A12].
  split; intros M.
  - pose proof (june_long _ _ BY (W6 M)) as J. rewrite <- EW in J. replace (158.757 - la) with (180 - la - 21.243) by lra. apply A6. nra.
  - pose proof (december_long _ _ BY (W12 M)) as J. rewrite <- EW in J. replace (158.757 + la) with (180 + la - 21.243) by lra. apply A12. nra.
Qed.

(** C92.  Let the request be accepted, its year lie from 1901 to 2098 and the moment
    (clock time plus offset) within its date.  In June the zenith angle that compute
    returns at latitude phi degrees is between 21.1 - phi and 158.9 - phi degrees; in
    December between 21.1 + phi and 158.9 + phi degrees.  So beyond latitude 70 the
    Sun does not set in summer and does not rise in winter. *)
Lemma C92_seasons_pf : forall p par c ds, sun_new (A := realA) p par = Val c ->
  let g := sp_date (A := realA) par in let la := lat (A := realA) (sp_position (A := realA) par) in
  accepted g -> (1901 <= year g <= 2098)%Z -> 0 <= clock (sp_time (A := realA) par) + ds <= 86400 -> -90 <= la <= 90 ->
  exists r, sun_compute (A := realA) c ds = Val r /\
  (month g = 6%Z -> degrees (21.1 - la) <= sr_sza (A := realA) r <= degrees (158.9 - la)) /\
  (month g = 12%Z -> degrees (21.1 + la) <= sr_sza (A := realA) r <= degrees (158.9 + la)).
Proof.
  intros p par c ds E g la Hg Hy Hs Hl. pose proof (proj1 (L_PCalendar.accepted_spec _) Hg) as [V _].
  assert (Hk : day_count mjd_epoch (of_date g) (L_Calendar.mjd (of_date g))) by (apply L_Calendar.mjd_epoch_count; exact V). set (k := L_Calendar.mjd (of_date g)) in *. clearbody k.
  destruct (seasons g k _ la (lon (A := realA) (sp_position (A := realA) par)) Hg Hy Hk Hs Hl) as (N & S6 & S12).
  destruct (C87_almanac_pf p par c ds k E Hg ltac:(fold g; lia) Hk N) as (r & Er & B). exists r. split; [exact Er|]. fold la in B.
  set (w := acos _) in *. set (q := sr_sza (A := realA) r) in *. clearbody w q. clear - B S6 S12. pose proof PI_RGT_0 as P. apply Rabs_le_inv in B.
  split; intros M; [specialize (S6 M)|specialize (S12 M)]; unfold degrees in *; lra.
Qed.

(** C92 in binary64: for the usual inputs, a moment within the date and a latitude
    of 25 to 90 degrees north or south, compute succeeds and the zenith angle it
    returns is finite and obeys the same bounds. *)
Lemma C92_seasons_b64_pf : forall lm, good_libm lm -> forall p g h m s lo la ht ds,
  usual_inputs g h m s lo la ht ds -> 0 <= 3600 * IZR h + 60 * IZR m + B2R s + B2R ds <= 86400 -> 25 <= Rabs (B2R la) <= 90 ->
  exists c r, sun_new (A := b64A lm) p (parF lm g h m s lo la ht) = Val c /\ sun_compute (A := b64A lm) c ds = Val r /\
  is_finite (sr_sza (A := b64A lm) r) = true /\
  (month g = 6%Z -> degrees (21.1 - B2R la) <= B2R (sr_sza (A := b64A lm) r) <= degrees (158.9 - B2R la)) /\
  (month g = 12%Z -> degrees (21.1 + B2R la) <= B2R (sr_sza (A := b64A lm) r) <= degrees (158.9 + B2R la)).
Proof.
  intros lm G p g h m s lo la ht ds U Hs Hl. pose proof PI_bounds as PB. destruct U as (Hg & Hy & U'). pose proof (conj Hg (conj Hy U')) as U. change (usual_inputs g h m s lo la ht ds) in U.
  assert (L90 : -90 <= B2R la <= 90) by (apply Rabs_le_inv; lra). pose proof (proj1 (L_PCalendar.accepted_spec _) Hg) as [V _].
  assert (Hk : day_count mjd_epoch (of_date g) (L_Calendar.mjd (of_date g))) by (apply L_Calendar.mjd_epoch_count; exact V). set (k := L_Calendar.mjd (of_date g)) in *. clearbody k.
  destruct (seasons g k _ (B2R la) (B2R lo) Hg Hy Hk Hs L90) as (N & S6 & S12).
  pose proof (alm_tropics _ (B2R la) (B2R lo) N L90) as T.
  pose proof (C87_almanac_b64_pf lm G p g h m s lo la ht ds k U Hk) as A. cbv zeta in A. set (z := acos _) in *.
  destruct A as (c & r & E1 & E2 & F & B); [clearbody z; unfold degrees in T; nra|].
  exists c, r. split; [exact E1|]. split; [exact E2|]. split; [exact F|].
  set (q := B2R (sr_sza (A := b64A lm) r)) in *. clearbody z q. clear - B S6 S12 PB. apply Rabs_le_inv in B.
  split; intros M; [specialize (S6 M)|specialize (S12 M)]; unfold degrees in *; lra.
Qed.

(** C92 at 80 degrees north: at any time of day on 2000 June 10 the binary64 zenith
    angle is below 79 degrees (the Sun is up), and on 2000 December 10 it is above
    101 degrees (the Sun is down). *)
Example C92_example_pf : forall lm, good_libm lm -> forall p h m, (0 <= h < 24)%Z -> (0 <= m < 60)%Z -> exists c r c' r',
  sun_new (A := b64A lm) p (parF lm (MkDate 2000 6 10) h m (Flit 0 0) (Flit 0 0) (Flit 80 0) (Flit 0 0)) = Val c /\ sun_compute (A := b64A lm) c (Flit 0 0) = Val r /\
  B2R (sr_sza (A := b64A lm) r) <= degrees 79 /\
  sun_new (A := b64A lm) p (parF lm (MkDate 2000 12 10) h m (Flit 0 0) (Flit 0 0) (Flit 80 0) (Flit 0 0)) = Val c' /\ sun_compute (A := b64A lm) c' (Flit 0 0) = Val r' /\
  degrees 101 <= B2R (sr_sza (A := b64A lm) r').
Proof.
  intros lm G p h m Hh Hm. destruct L_ArithF.lit_0 as [E0 F0]. pose proof PI_RGT_0 as P.
  assert (E80 : B2R (Flit 80 0) = 80 /\ is_finite (Flit 80 0) = true) by L_ArithF.flit_prove. destruct E80 as [E80 F80].
  assert (BH : 0 <= IZR h <= 23) by (split; apply IZR_le; lia). assert (BM : 0 <= IZR m <= 59) by (split; apply IZR_le; lia).
  assert (U : forall mo, (mo = 6 \/ mo = 12)%Z -> usual_inputs (MkDate 2000 mo 10) h m (Flit 0 0) (Flit 0 0) (Flit 80 0) (Flit 0 0) (Flit 0 0)).
  { intros mo Hmo. unfold usual_inputs. cbn [year]. rewrite !E0, ?E80. repeat match goal with |- _ /\ _ => split end; try assumption; try lia; try lra; try (apply Rabs_le; lra). destruct Hmo; subst mo; reflexivity. }
  destruct (C92_seasons_b64_pf lm G p _ _ _ _ _ _ _ _ (U 6%Z ltac:(lia))) as (c & r & T1 & T2 & _ & T3 & _); [rewrite !E0; lra|rewrite E80, Rabs_pos_eq; lra|].
  destruct (C92_seasons_b64_pf lm G p _ _ _ _ _ _ _ _ (U 12%Z ltac:(lia))) as (c' & r' & T1' & T2' & _ & _ & T3'); [rewrite !E0; lra|rewrite E80, Rabs_pos_eq; lra|].
  exists c, r, c', r'. specialize (T3 eq_refl). specialize (T3' eq_refl). rewrite E80 in T3, T3'.
  split; [exact T1|]. split; [exact T2|]. split; [unfold degrees in *; lra|]. split; [exact T1'|]. split; [exact T2'|]. unfold degrees in *; lra.
Qed.

(** ** The equinoxes *)

(** Four times the days since 2000 January 1.0, less 1461 per year, on either side
    of the equinoxes. *)
Lemma quarter_halves : forall y m d, (1901 <= y <= 2098)%Z -> valid_civil (y, m, d) ->
  let q := (4 * (L_Calendar.mjd (y, m, d) - 51544) - 1461 * (y - 2000))%Z in
  (100 * m + d <= 318 -> 0 <= q <= 308)%Z /\ (323 <= 100 * m + d <= 920 -> 325 <= q <= 1052)%Z /\
  (925 <= 100 * m + d -> 1069 <= q <= 1460)%Z.
Proof.
  intros y m d Hy V q. change (1 <= m <= 12 /\ 1 <= d <= month_length y m)%Z in V. destruct V as [Hm Hd].
  assert (D31 : (month_length y m <= 31)%Z) by (unfold month_length; destruct m as [|[[[|[]|]|[|[]|]|]|[[[]|[]|]|[|[]|]|]|]|]; try lia; destruct (leap y); lia).
  assert (D30 : (m = 9 \/ m = 4 \/ m = 6 \/ m = 11 -> month_length y m <= 30)%Z) by (intros [ -> | [ -> | [ -> | -> ]]]; cbn [month_length]; lia).
  assert (C : forall u, (1900 <= u <= 2098 -> 3 * ((u + 4900) / 100) / 4 = 51)%Z) by (intros u Hu; Z.to_euclidean_division_equations; lia).
  unfold q, L_Calendar.mjd, L_Calendar.my. clear q.
  assert (M : (m = 1 \/ m = 2 \/ m = 3 \/ m = 4 \/ m = 5 \/ m = 6 \/ m = 7 \/ m = 8 \/ m = 9 \/ m = 10 \/ m = 11 \/ m = 12)%Z) by lia.
  refine (conj _ (conj _ _)); intros H;
  repeat (destruct M as [-> | M]); try subst m; try (exfalso; lia); cbn [Z.leb Z.compare Pos.compare Pos.compare_cont];
  match goal with |- context [(367 * ?e / 12)%Z] => let v := eval vm_compute in (367 * e / 12)%Z in change (367 * e / 12)%Z with v end;
  rewrite C by lia; clear C; (Z.to_euclidean_division_equations; lia).
Qed.

(** The moment in days from the start of a mean year, on either side of the
    equinoxes. *)
Lemma halves : forall g k sec, accepted g -> (1901 <= year g <= 2098)%Z -> day_count mjd_epoch (of_date g) k -> 0 <= sec <= 86400 ->
  exists w, ut_days k sec = 365.25 * IZR (year g - 2000) + w /\ -99 <= IZR (year g - 2000) <= 98 /\
  ((100 * month g + day g <= 318)%Z -> -0.5 <= w <= 77.5) /\ ((323 <= 100 * month g + day g <= 920)%Z -> 80.75 <= w <= 263.5) /\
  ((925 <= 100 * month g + day g)%Z -> 266.75 <= w <= 365.5).
Proof.
  intros g k sec Hg Hy Hk Hs. pose proof (proj1 (L_PCalendar.accepted_spec _) Hg) as [V _].
  assert (EK : k = L_Calendar.mjd (of_date g)) by (apply (L_PCalendar.C02_day_count_unique_pf (of_date g)); [exact V|exact Hk|apply L_Calendar.mjd_epoch_count; exact V]).
  destruct g as [y m d]. change (of_date (MkDate y m d)) with (y, m, d) in *. cbn [year month day] in *.
  pose proof (quarter_halves y m d Hy V) as (Q1 & Q2 & Q3). rewrite <- EK in Q1, Q2, Q3. clear EK Hk.
  exists (ut_days k sec - 365.25 * IZR (y - 2000)). split; [ring|]. split; [split; apply IZR_le; lia|].
  assert (W : ut_days k sec - 365.25 * IZR (y - 2000) = IZR (4 * (k - 51544) - 1461 * (y - 2000)) / 4 - 0.5 + sec / 86400).
  { unfold ut_days. rewrite (minus_IZR (4 * (k - 51544))), !mult_IZR, !minus_IZR. lra. }
  rewrite W. set (q := (4 * (k - 51544) - 1461 * (y - 2000))%Z) in *. clearbody q. clear W.
  refine (conj _ (conj _ _)); intros H; [specialize (Q1 H)|specialize (Q2 H)|specialize (Q3 H)].
  - destruct Q1 as [A B]; apply IZR_le in A; apply IZR_le in B; lra.
  - destruct Q2 as [A B]; apply IZR_le in A; apply IZR_le in B; lra.
  - destruct Q3 as [A B]; apply IZR_le in A; apply IZR_le in B; lra.
Qed.

Definition eq_centre (n : R) : R := 1.915 * sin (alm_anomaly n) + 0.020 * sin (2 * alm_anomaly n).

Lemma centre_move : forall n n', Rabs (eq_centre n - eq_centre n') <= 0.034 * Rabs (n - n').
Proof.
  intros n n'. unfold eq_centre. pose proof (L_Apx.sin_lip (alm_anomaly n) (alm_anomaly n')) as A. pose proof (L_Apx.sin_lip (2 * alm_anomaly n) (2 * alm_anomaly n')) as B.
  assert (D : Rabs (alm_anomaly n - alm_anomaly n') <= 0.01721 * Rabs (n - n')).
  { unfold alm_anomaly, degrees. replace ((357.528 + 0.9856003 * n) * (PI / 180) - (357.528 + 0.9856003 * n') * (PI / 180)) with (0.9856003 * (PI / 180) * (n - n')) by ring.
    rewrite Rabs_mult. apply Rmult_le_compat_r; [apply Rabs_pos|]. pose proof PI_bounds. rewrite Rabs_pos_eq; lra. }
  replace (2 * alm_anomaly n - 2 * alm_anomaly n') with (2 * (alm_anomaly n - alm_anomaly n')) in B by ring. rewrite (Rabs_mult 2), (Rabs_pos_eq 2) in B by lra.
  set (u := alm_anomaly n - alm_anomaly n') in *. set (a := sin (alm_anomaly n) - sin (alm_anomaly n')) in *. set (b := sin (2 * alm_anomaly n) - sin (2 * alm_anomaly n')) in *.
  replace (1.915 * sin (alm_anomaly n) + 0.020 * sin (2 * alm_anomaly n) - (1.915 * sin (alm_anomaly n') + 0.020 * sin (2 * alm_anomaly n'))) with (1.915 * a + 0.020 * b) by (unfold a, b; ring).
  eapply Rle_trans; [apply Rabs_triang|]. rewrite !Rabs_mult, (Rabs_pos_eq 1.915), (Rabs_pos_eq 0.020) by lra. set (x := Rabs (n - n')) in *. pose proof (Rabs_pos (n - n')) as P. fold x in P. lra.
Qed.

(** The anomaly after whole mean years. *)
Lemma anomaly_form : forall y w c j, alm_anomaly (365.25 * IZR y + w) = degrees c + degrees (357.528 - 360 * IZR j - c - 0.009490425 * IZR y + 0.9856003 * w) + IZR (y + j) * (2 * PI).
Proof. intros y w c j. unfold alm_anomaly, degrees. rewrite plus_IZR.
  replace (357.528 + 0.9856003 * (365.25 * IZR y + w)) with (c + (357.528 - 360 * IZR j - c - 0.009490425 * IZR y + 0.9856003 * w) + 360 * (IZR y + IZR j)) by lra.
  set (u := 357.528 - _ - _ - _ + _). field. Qed.

Lemma centre_march : forall y, -99 <= IZR y <= 98 -> 1.72 <= eq_centre (365.25 * IZR y + 80.75).
Proof.
  intros y Hy. unfold eq_centre. pose proof (SIN_bound (2 * alm_anomaly (365.25 * IZR y + 80.75))) as S2.
  assert (S1 : 0.9144 <= sin (alm_anomaly (365.25 * IZR y + 80.75))); [|lra].
  rewrite (anomaly_form y 80.75 90 1). set (x := 357.528 - _ - _ - _ + _). destruct (L_ApxMod.trig_turns (degrees 90 + degrees x) (y + 1)) as [_ T]. rewrite T. pose proof PI_RGT_0 as P.
  replace (degrees 90) with (PI / 2) by (unfold degrees; field). rewrite sin_plus, sin_PI2, cos_PI2, Rmult_1_l, Rmult_0_l, Rplus_0_r.
  apply cos_237. unfold x. apply Rabs_le. lra.
Qed.
Lemma centre_september : forall y, -99 <= IZR y <= 98 -> eq_centre (365.25 * IZR y + 263.5) <= -1.72.
Proof.
  intros y Hy. unfold eq_centre. pose proof (SIN_bound (2 * alm_anomaly (365.25 * IZR y + 263.5))) as S2.
  assert (S1 : sin (alm_anomaly (365.25 * IZR y + 263.5)) <= -0.9144); [|lra].
  rewrite (anomaly_form y 263.5 270 1). set (x := 357.528 - _ - _ - _ + _). destruct (L_ApxMod.trig_turns (degrees 270 + degrees x) (y + 1)) as [_ T]. rewrite T. pose proof PI_RGT_0 as P.
  replace (degrees 270) with (3 * (PI / 2)) by (unfold degrees; field). rewrite sin_plus, sin_3PI2, cos_3PI2, Rmult_0_l, Rplus_0_r.
  assert (X : 0.9144 <= cos (degrees x)); [|lra]. apply cos_237. unfold x. apply Rabs_le. lra.
Qed.

Lemma sin_up : forall x, 0.45 <= x <= 179.55 -> 0.0078 <= sin (degrees x).
Proof.
  intros x Hx. pose proof PI_bounds as PB.
  assert (G : forall y, 0.45 <= y <= 90 -> 0.0078 <= sin (degrees y)).
  { intros y Hy. assert (B : 0.00785 <= degrees 0.45 <= 0.00786) by (unfold degrees; lra).
    apply Rle_trans with (sin (degrees 0.45)).
    - pose proof (sin_taylor3 (degrees 0.45) ltac:(rewrite Rabs_pos_eq; lra)) as T. rewrite (Rabs_pos_eq (degrees 0.45)) in T by lra. set (z := degrees 0.45) in *. clearbody z. apply Rabs_le_inv in T.
      assert (0 <= z ^ 3 <= 0.000001) by (cbn [pow]; split; nra). assert (0 <= z ^ 5 <= 0.000001) by (replace (z ^ 5) with (z * z * z ^ 3) by ring; assert (0 <= z * z <= 1) by nra; split; nra). lra.
    - apply sin_incr_1; unfold degrees; nra. }
  destruct (Rle_lt_dec x 90) as [L|L]; [apply G; lra|].
  replace (degrees x) with (PI - degrees (180 - x)) by (unfold degrees; field). rewrite sin_PI_x. apply G. lra.
Qed.

Lemma long_sin : forall y w, -99 <= IZR y <= 98 ->
  let lam := -79.54 + 0.00771285 * IZR y + 0.9856474 * w + eq_centre (365.25 * IZR y + w) in
  (0.45 <= lam <= 179.55 -> 0.0078 <= sin (alm_long (365.25 * IZR y + w))) /\
  (180.45 <= lam <= 359.55 \/ -179.55 <= lam <= -0.45 -> sin (alm_long (365.25 * IZR y + w)) <= -0.0078).
Proof.
  intros y w Hy lam. pose proof PI_RGT_0 as P.
  assert (E : sin (alm_long (365.25 * IZR y + w)) = sin (degrees lam)).
  { replace (alm_long (365.25 * IZR y + w)) with (degrees lam + IZR (y + 1) * (2 * PI)); [apply L_ApxMod.trig_turns|].
    unfold lam, alm_long, alm_mean_long. fold (eq_centre (365.25 * IZR y + w)). set (e := eq_centre _). unfold degrees. rewrite plus_IZR.
    replace (280.460 + 0.9856474 * (365.25 * IZR y + w)) with (-79.54 + 0.00771285 * IZR y + 0.9856474 * w + 360 * (IZR y + 1)) by lra.
    set (u := -79.54 + _ + _). field. }
  rewrite E. split; [apply sin_up|]. intros [B|B].
  - pose proof (sin_up (lam - 180) ltac:(lra)) as S. replace (degrees lam) with (degrees (lam - 180) + PI) by (unfold degrees; field). rewrite neg_sin. lra.
  - pose proof (sin_up (- lam) ltac:(lra)) as S. replace (degrees (- lam)) with (- degrees lam) in S by (unfold degrees; field). rewrite sin_neg in S. lra.
Qed.

Lemma sin_018 : sin (degrees 0.175) <= 0.00306.
Proof.
  pose proof PI_bounds as PB. assert (B : 0 <= degrees 0.175 <= 0.003055) by (unfold degrees; lra). pose proof (L_Epv.sin_abs_le (degrees 0.175)) as S.
  rewrite (Rabs_pos_eq (degrees 0.175)) in S by lra. pose proof (Rle_abs (sin (degrees 0.175))). lra.
Qed.

Lemma equinoxes : forall g k sec la lo, accepted g -> (1901 <= year g <= 2098)%Z -> day_count mjd_epoch (of_date g) k -> 0 <= sec <= 86400 -> -90 <= la <= 90 ->
  let md := (100 * month g + day g)%Z in
  ((323 <= md <= 920)%Z -> degrees (0.175 - la) <= acos (alm_cos_zenith (ut_days k sec) la lo) <= degrees (180 - la - 0.175)) /\
  ((md <= 318 \/ 925 <= md)%Z -> degrees (0.175 + la) <= acos (alm_cos_zenith (ut_days k sec) la lo) <= degrees (180 + la - 0.175)).
Proof.
  intros g k sec la lo Hg Hy Hk Hs Hl md. destruct (seasons g k sec la lo Hg Hy Hk Hs Hl) as (N & _).
  destruct (halves g k sec Hg Hy Hk Hs) as (w & EW & BY & W1 & W2 & W3). fold md in W1, W2, W3.
  pose proof (sin_obl (ut_days k sec) ltac:(lra)) as O. pose proof sin_018 as S.
  destruct (alm_above (ut_days k sec) la lo 0.175 Hl ltac:(lra)) as [AN AS].
  set (y := (year g - 2000)%Z) in *. destruct (long_sin y w BY) as [LN LS]. rewrite <- EW in LN, LS.
  assert (CB : -1.935 <= eq_centre (365.25 * IZR y + w) <= 1.935) by apply centre.
  split; intros H.
  - apply AN. specialize (W2 H). assert (J : 0.0078 <= sin (alm_long (ut_days k sec))); [|nra]. apply LN. rewrite EW.
    pose proof (centre_march y BY) as C1. pose proof (centre_september y BY) as C2.
    pose proof (centre_move (365.25 * IZR y + w) (365.25 * IZR y + 80.75)) as M1. pose proof (centre_move (365.25 * IZR y + w) (365.25 * IZR y + 263.5)) as M2.
    replace (365.25 * IZR y + w - (365.25 * IZR y + 80.75)) with (w - 80.75) in M1 by ring. replace (365.25 * IZR y + w - (365.25 * IZR y + 263.5)) with (w - 263.5) in M2 by ring.
    rewrite (Rabs_pos_eq (w - 80.75)) in M1 by lra. rewrite (Rabs_left1 (w - 263.5)) in M2 by lra. apply Rabs_le_inv in M1. apply Rabs_le_inv in M2.
    set (e := eq_centre _) in *. clearbody e. split; lra.
  - apply AS. assert (J : sin (alm_long (ut_days k sec)) <= -0.0078); [|nra]. apply LS. rewrite EW. set (e := eq_centre _) in *. clearbody e.
    destruct H as [H|H]; [specialize (W1 H); right; lra|specialize (W3 H); left; lra].
Qed.

(** C92, the equinoxes.  Let the request be accepted, its year lie from 1901 to 2098
    and the moment within its date.  From 23 March to 20 September the zenith angle
    at latitude phi degrees is between -phi and 180 - phi degrees; from 25 September to
    18 March it is between phi and 180 + phi degrees.  So at the North Pole the Sun is
    never below the horizon in the former half of the year and never above it in the
    latter, and conversely at the South Pole. *)
Lemma C92_equinoxes_pf : forall p par c ds, sun_new (A := realA) p par = Val c ->
  let g := sp_date (A := realA) par in let la := lat (A := realA) (sp_position (A := realA) par) in
  accepted g -> (1901 <= year g <= 2098)%Z -> 0 <= clock (sp_time (A := realA) par) + ds <= 86400 -> -90 <= la <= 90 ->
  let md := (100 * month g + day g)%Z in
  exists r, sun_compute (A := realA) c ds = Val r /\
  ((323 <= md <= 920)%Z -> degrees (- la) < sr_sza (A := realA) r < degrees (180 - la)) /\
  ((md <= 318 \/ 925 <= md)%Z -> degrees la < sr_sza (A := realA) r < degrees (180 + la)).
Proof.
  intros p par c ds E g la Hg Hy Hs Hl md. pose proof (proj1 (L_PCalendar.accepted_spec _) Hg) as [V _].
  assert (Hk : day_count mjd_epoch (of_date g) (L_Calendar.mjd (of_date g))) by (apply L_Calendar.mjd_epoch_count; exact V). set (k := L_Calendar.mjd (of_date g)) in *. clearbody k.
  destruct (seasons g k _ la (lon (A := realA) (sp_position (A := realA) par)) Hg Hy Hk Hs Hl) as (N & _).
  pose proof (equinoxes g k _ la (lon (A := realA) (sp_position (A := realA) par)) Hg Hy Hk Hs Hl) as EQ. cbv zeta in EQ. fold md in EQ. destruct EQ as [SN SS].
  destruct (C87_almanac_pf p par c ds k E Hg ltac:(fold g; lia) Hk N) as (r & Er & B). exists r. split; [exact Er|]. fold la in B.
  set (w := acos _) in *. set (q := sr_sza (A := realA) r) in *. clearbody w q. clear - B SN SS. pose proof PI_RGT_0 as P. apply Rabs_le_inv in B.
  split; intros M; [specialize (SN M)|specialize (SS M)]; unfold degrees in *; lra.
Qed.

(** C92, the equinoxes in binary64: the same bounds for the usual inputs, a moment
    within the date and a latitude of 25 to 90 degrees north or south. *)
Lemma C92_equinoxes_b64_pf : forall lm, good_libm lm -> forall p g h m s lo la ht ds,
  usual_inputs g h m s lo la ht ds -> 0 <= 3600 * IZR h + 60 * IZR m + B2R s + B2R ds <= 86400 -> 25 <= Rabs (B2R la) <= 90 ->
  let md := (100 * month g + day g)%Z in
  exists c r, sun_new (A := b64A lm) p (parF lm g h m s lo la ht) = Val c /\ sun_compute (A := b64A lm) c ds = Val r /\
  is_finite (sr_sza (A := b64A lm) r) = true /\
  ((323 <= md <= 920)%Z -> degrees (- B2R la) < B2R (sr_sza (A := b64A lm) r) < degrees (180 - B2R la)) /\
  ((md <= 318 \/ 925 <= md)%Z -> degrees (B2R la) < B2R (sr_sza (A := b64A lm) r) < degrees (180 + B2R la)).
Proof.
  intros lm G p g h m s lo la ht ds U Hs Hl md. pose proof PI_bounds as PB. destruct U as (Hg & Hy & U'). pose proof (conj Hg (conj Hy U')) as U. change (usual_inputs g h m s lo la ht ds) in U.
  assert (L90 : -90 <= B2R la <= 90) by (apply Rabs_le_inv; lra). pose proof (proj1 (L_PCalendar.accepted_spec _) Hg) as [V _].
  assert (Hk : day_count mjd_epoch (of_date g) (L_Calendar.mjd (of_date g))) by (apply L_Calendar.mjd_epoch_count; exact V). set (k := L_Calendar.mjd (of_date g)) in *. clearbody k.
  destruct (seasons g k _ (B2R la) (B2R lo) Hg Hy Hk Hs L90) as (N & _).
  pose proof (equinoxes g k _ (B2R la) (B2R lo) Hg Hy Hk Hs L90) as EQ. cbv zeta in EQ. fold md in EQ. destruct EQ as [SN SS].
  pose proof (alm_tropics _ (B2R la) (B2R lo) N L90) as T.
  pose proof (C87_almanac_b64_pf lm G p g h m s lo la ht ds k U Hk) as A. cbv zeta in A. set (z := acos _) in *.
  destruct A as (c & r & E1 & E2 & F & B); [clearbody z; unfold degrees in T; nra|].
  exists c, r. split; [exact E1|]. split; [exact E2|]. split; [exact F|].
  set (q := B2R (sr_sza (A := b64A lm) r)) in *. clearbody z q. clear - B SN SS PB. apply Rabs_le_inv in B.
  split; intros M; [specialize (SN M)|specialize (SS M)]; unfold degrees in *; lra.
Qed.

(** C92 at the North Pole in binary64: at any time of day the Sun is above the
    horizon on 2000 March 23, and below it on September 25. *)
Example C92_pole_example_pf : forall lm, good_libm lm -> forall p h m, (0 <= h < 24)%Z -> (0 <= m < 60)%Z -> exists c r c' r',
  sun_new (A := b64A lm) p (parF lm (MkDate 2000 3 23) h m (Flit 0 0) (Flit 0 0) (Flit 90 0) (Flit 0 0)) = Val c /\ sun_compute (A := b64A lm) c (Flit 0 0) = Val r /\
  B2R (sr_sza (A := b64A lm) r) < degrees 90 /\
  sun_new (A := b64A lm) p (parF lm (MkDate 2000 9 25) h m (Flit 0 0) (Flit 0 0) (Flit 90 0) (Flit 0 0)) = Val c' /\ sun_compute (A := b64A lm) c' (Flit 0 0) = Val r' /\
  degrees 90 < B2R (sr_sza (A := b64A lm) r').
Proof.
  intros lm G p h m Hh Hm. destruct L_ArithF.lit_0 as [E0 F0]. pose proof PI_RGT_0 as P.
  assert (E90 : B2R (Flit 90 0) = 90 /\ is_finite (Flit 90 0) = true) by L_ArithF.flit_prove. destruct E90 as [E90 F90].
  assert (BH : 0 <= IZR h <= 23) by (split; apply IZR_le; lia). assert (BM : 0 <= IZR m <= 59) by (split; apply IZR_le; lia).
  assert (U : forall mo d, (mo = 3 /\ d = 23 \/ mo = 9 /\ d = 25)%Z -> usual_inputs (MkDate 2000 mo d) h m (Flit 0 0) (Flit 0 0) (Flit 90 0) (Flit 0 0) (Flit 0 0)).
  { intros mo d Hmo. unfold usual_inputs. cbn [year]. rewrite !E0, ?E90. repeat match goal with |- _ /\ _ => split end; try assumption; try lia; try lra; try (apply Rabs_le; lra). destruct Hmo as [[-> ->]|[-> ->]]; reflexivity. }
  destruct (C92_equinoxes_b64_pf lm G p _ _ _ _ _ _ _ _ (U 3%Z 23%Z ltac:(lia))) as (c & r & T1 & T2 & _ & T3 & _); [rewrite !E0; lra|rewrite E90, Rabs_pos_eq; lra|].
  destruct (C92_equinoxes_b64_pf lm G p _ _ _ _ _ _ _ _ (U 9%Z 25%Z ltac:(lia))) as (c' & r' & T1' & T2' & _ & _ & T3'); [rewrite !E0; lra|rewrite E90, Rabs_pos_eq; lra|].
  exists c, r, c', r'. cbn [month day] in T3, T3'. specialize (T3 ltac:(lia)). specialize (T3' ltac:(lia)). rewrite E90 in T3, T3'.
  split; [exact T1|]. split; [exact T2|]. split; [unfold degrees in *; lra|]. split; [exact T1'|]. split; [exact T2'|]. unfold degrees in *; lra.
Qed.

(** ** The distance of the Sun *)

Lemma kepler_cos : forall u y w, kepler u (y + w / 365.25 ) -> forall z c, y = IZR z -> -99.1 <= y <= 98.1 ->
  Rabs (-0.043125333 + 6.283075849991 * (w / 365.25) - c) <= 0.2735 -> exists x, Rabs x <= 0.3025 /\ cos u = cos (c + x).
Proof.
  intros u y w K z c -> Hy B. unfold kepler, mean_anomaly, iers_e, orbit_peri in K. pose proof PI_bounds as PB. pose proof (SIN_bound u) as SB.
  exists (u - c - IZR z * (2 * PI)). split.
  - assert (orbit_e * sin u <= 0.0168 /\ -0.0168 <= orbit_e * sin u) as [S1 S2] by (unfold orbit_e; lra). apply Rabs_le_inv in B.
    assert (IZR z * (2 * PI) - 0.011 <= 6.283075849991 * IZR z <= IZR z * (2 * PI) + 0.011) by (clear - PB Hy; set (a := IZR z) in *; clearbody a; split; nra).
    apply Rabs_le. lra.
  - replace (c + (u - c - IZR z * (2 * PI))) with (u + IZR (- z) * (2 * PI)) by (rewrite opp_IZR; ring). symmetry. apply L_ApxMod.trig_turns.
Qed.

(** C93.  Let the request be accepted, its year lie from 1901 to 2098 and the moment
    within its date.  The Earth-Sun distance in the result is at most 0.987
    astronomical units in January and at least 1.0134 in July. *)
Lemma C93_distance_pf : forall p par c ds, sun_new (A := realA) p par = Val c ->
  let g := sp_date (A := realA) par in accepted g -> (1901 <= year g <= 2098)%Z -> 0 <= clock (sp_time (A := realA) par) + ds <= 86400 ->
  exists r, sun_compute (A := realA) c ds = Val r /\
  (month g = 1%Z -> length3 (sr_earth (A := realA) r) <= 0.987) /\
  (month g = 7%Z -> 1.0134 <= length3 (sr_earth (A := realA) r)).
Proof.
  intros p par c ds E g Hg Hy Hs. pose proof (proj1 (L_PCalendar.accepted_spec _) Hg) as [V _].
  assert (Hk : day_count mjd_epoch (of_date g) (L_Calendar.mjd (of_date g))) by (apply L_Calendar.mjd_epoch_count; exact V). set (k := L_Calendar.mjd (of_date g)) in *. clearbody k.
  destruct (L_PSunAngle.C51_geometry_pf p par c ds E) as (r & e & m & Er & (d & Ed & Td) & Ee & _). exists r. split; [exact Er|].
  destruct (utc_days p par c ds r k E Er Hg ltac:(fold g; lia) Hk) as [EN TT].
  destruct (season g k _ Hg Hy Hk Hs) as (w & EW & BY & W1 & _ & W7 & _). rewrite EW in EN. apply Rabs_le_inv in TT.
  set (y := (year g - 2000)%Z) in *. clearbody y.
  set (v := w + (tt_total (A := realA) (sr_tt (A := realA) r) - utc_total (A := realA) (sr_utc (A := realA) r))).
  assert (YR : years d = IZR y + v / 365.25) by (unfold years, v; rewrite Td; lra).
  assert (BV : w - 0.00085 <= v <= w + 0.00085) by (unfold v; lra). clearbody v. clear EN TT EW Td.
  assert (X : forall lo hi, lo <= w <= hi -> 0 <= hi + 1 <= 365 -> -1 <= lo -> Rabs (years d) <= 100).
  { intros lo hi Hw Hh Hlo. rewrite YR. apply Rabs_le. lra. }
  split; intros M.
  - pose proof (W1 M) as Bw. destruct (C82_distance_declination_pf d (X _ _ Bw ltac:(lra) ltac:(lra))) as (e' & u & Ed' & K & D & _).
    rewrite Ed in Ed'. assert (e' = e) by congruence. subst e'. rewrite <- Ee in D. rewrite YR in K.
    destruct (kepler_cos u _ v K y 0.2214 eq_refl ltac:(lra) ltac:(apply Rabs_le; lra)) as (x & Bx & Cx).
    apply Rabs_le_inv in Bx. destruct (cos_taylor4 (0.2214 + x) ltac:(apply Rabs_le; lra)) as [T _]. rewrite <- Cx in T.
    unfold length3. set (l := R_sqrt.sqrt _) in *. apply Rabs_le_inv in D. unfold orbit_a, orbit_e in D. clearbody l. assert (Q : (0.2214 + x) * (0.2214 + x) <= 0.274577) by (clear - Bx; nra). clear - D Q T Cx. lra.
  - pose proof (W7 M) as Bw. destruct (C82_distance_declination_pf d (X _ _ Bw ltac:(lra) ltac:(lra))) as (e' & u & Ed' & K & D & _).
    rewrite Ed in Ed'. assert (e' = e) by congruence. subst e'. rewrite <- Ee in D. rewrite YR in K. pose proof PI_bounds as PB.
    destruct (kepler_cos u _ v K y (PI + 0.1977) eq_refl ltac:(lra) ltac:(apply Rabs_le; lra)) as (x & Bx & Cx).
    apply Rabs_le_inv in Bx. destruct (cos_taylor4 (0.1977 + x) ltac:(apply Rabs_le; lra)) as [T _].
    replace (PI + 0.1977 + x) with (0.1977 + x + PI) in Cx by ring. rewrite neg_cos in Cx.
    unfold length3. set (l := R_sqrt.sqrt _) in *. apply Rabs_le_inv in D. unfold orbit_a, orbit_e in D. clearbody l. assert (Q : (0.1977 + x) * (0.1977 + x) <= 0.2503) by (clear - Bx; nra). clear - D Q T Cx. lra.
Qed.

(** C93 in binary64: for the usual inputs and a moment within the date, compute
    succeeds, the Earth vector it returns is finite, and its length obeys the same
    bounds within one part in 10^5. *)
Lemma C93_distance_b64_pf : forall lm, good_libm lm -> forall p g h m s lo la ht ds,
  usual_inputs g h m s lo la ht ds -> 0 <= 3600 * IZR h + 60 * IZR m + B2R s + B2R ds <= 86400 ->
  exists c r, sun_new (A := b64A lm) p (parF lm g h m s lo la ht) = Val c /\ sun_compute (A := b64A lm) c ds = Val r /\
  (forall i, is_finite (vget (A := b64A lm) (sr_earth (A := b64A lm) r) i) = true) /\
  let x i := B2R (vget (A := b64A lm) (sr_earth (A := b64A lm) r) i) in
  let dist := R_sqrt.sqrt (x I0 * x I0 + x I1 * x I1 + x I2 * x I2) in
  (month g = 1%Z -> dist <= 0.98701) /\ (month g = 7%Z -> 1.01339 <= dist).
Proof.
  intros lm G p g h m s lo la ht ds U Hs.
  destruct (L_PAccSun.C72_sun_accuracy_pf lm G p g h m s lo la ht ds U) as (c & r & c' & r' & E1 & E2 & E3 & E4 & _ & _ & _ & _ & _ & _ & _ & _ & _ & _ & _ & _ & EA & _).
  destruct U as (Hg & Hy & _). exists c, r. split; [exact E1|]. split; [exact E2|]. split; [intros i; apply (EA i)|].
  destruct (C93_distance_pf p (parR g h m s lo la ht) c' (B2R ds) E3 Hg Hy Hs) as (q & Eq & D1 & D7).
  rewrite E4 in Eq. assert (EQ : q = r') by congruence. subst q. clear E4. cbv zeta.
  set (x := fun i => B2R (vget (A := b64A lm) (sr_earth (A := b64A lm) r) i)). 
  assert (Z : forall i, Rabs (x i - coord (sr_earth (A := realA) r') i) <= 0.000003) by (intros i; destruct (EA i) as [_ B]; unfold x; eapply Rle_trans; [exact B|lra]).
  change (B2R (vget (A := b64A lm) (sr_earth (A := b64A lm) r) I0)) with (x I0). change (B2R (vget (A := b64A lm) (sr_earth (A := b64A lm) r) I1)) with (x I1). change (B2R (vget (A := b64A lm) (sr_earth (A := b64A lm) r) I2)) with (x I2).
  clearbody x. clear EA E1 E2 E3. change (month (sp_date (A := realA) (parR g h m s lo la ht))) with (month g) in D1, D7.
  assert (N : Rabs (nrm (V3 (A := realA) (x I0) (x I1) (x I2)) - length3 (sr_earth (A := realA) r')) <= 0.00001).
  { set (a := sr_earth (A := realA) r') in *. set (b := V3 (A := realA) (x I0) (x I1) (x I2)).
    change (length3 a) with (nrm a).
    pose proof (nrm_box (x I0 - coord a I0) (x I1 - coord a I1) (x I2 - coord a I2) 0.000003 ltac:(lra) (Z I0) (Z I1) (Z I2)) as NB.
    set (e := V3 (A := realA) (x I0 - coord a I0) (x I1 - coord a I1) (x I2 - coord a I2)) in *.
    assert (EB : b = addv a e) by (unfold b, e; destruct a; unfold addv; vec_calc; f_equal; ring).
    pose proof (nrm_triangle a e) as T1. pose proof (nrm_rev a e) as T2. rewrite <- EB in T1, T2. apply Rabs_le. lra. }
  unfold nrm in N. change (sprod (V3 (A := realA) (x I0) (x I1) (x I2)) (V3 (A := realA) (x I0) (x I1) (x I2))) with (x I0 * x I0 + x I1 * x I1 + x I2 * x I2) in N.
  apply Rabs_le_inv in N. split; intros M; [specialize (D1 M)|specialize (D7 M)]; lra.
Qed.

(** C93 on 2000 January 10 and July 10, at any time of day, with the binary64
    program: the July distance exceeds the January one by more than 0.026
    astronomical units. *)
Example C93_example_pf : forall lm, good_libm lm -> forall p h m, (0 <= h < 24)%Z -> (0 <= m < 60)%Z -> exists c r c' r',
  sun_new (A := b64A lm) p (parF lm (MkDate 2000 1 10) h m (Flit 0 0) (Flit 0 0) (Flit 0 0) (Flit 0 0)) = Val c /\ sun_compute (A := b64A lm) c (Flit 0 0) = Val r /\
  sun_new (A := b64A lm) p (parF lm (MkDate 2000 7 10) h m (Flit 0 0) (Flit 0 0) (Flit 0 0) (Flit 0 0)) = Val c' /\ sun_compute (A := b64A lm) c' (Flit 0 0) = Val r' /\
  let dist q := let x i := B2R (vget (A := b64A lm) (sr_earth (A := b64A lm) q) i) in R_sqrt.sqrt (x I0 * x I0 + x I1 * x I1 + x I2 * x I2) in
  dist r + 0.026 <= dist r'.
Proof.
  intros lm G p h m Hh Hm. destruct L_ArithF.lit_0 as [E0 F0].
  assert (BH : 0 <= IZR h <= 23) by (split; apply IZR_le; lia). assert (BM : 0 <= IZR m <= 59) by (split; apply IZR_le; lia).
  assert (U : forall mo, (mo = 1 \/ mo = 7)%Z -> usual_inputs (MkDate 2000 mo 10) h m (Flit 0 0) (Flit 0 0) (Flit 0 0) (Flit 0 0) (Flit 0 0)).
  { intros mo Hmo. unfold usual_inputs. cbn [year]. rewrite !E0. repeat match goal with |- _ /\ _ => split end; try assumption; try lia; try lra; try (apply Rabs_le; lra). destruct Hmo; subst mo; reflexivity. }
  destruct (C93_distance_b64_pf lm G p _ _ _ _ _ _ _ _ (U 1%Z ltac:(lia))) as (c & r & T1 & T2 & _ & T3 & _); [rewrite !E0; lra|].
  destruct (C93_distance_b64_pf lm G p _ _ _ _ _ _ _ _ (U 7%Z ltac:(lia))) as (c' & r' & T1' & T2' & _ & _ & T3'); [rewrite !E0; lra|].
  exists c, r, c', r'. specialize (T3 eq_refl). specialize (T3' eq_refl). split; [exact T1|]. split; [exact T2|]. split; [exact T1'|]. split; [exact T2'|]. cbv zeta. lra.
Qed.
