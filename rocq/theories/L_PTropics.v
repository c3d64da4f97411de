(** * Proofs of C88 *)

From Coq Require Import ZArith Reals Lra Lia Bool List Psatz.
From Flocq Require Import Core BinarySingleNaN.
From Verif Require Import Outcome Arith ArithR ArithF M_Common M_Calendar M_Time M_Ellipsoid M_Locator M_Frames M_Earth M_SunAngle Spec_Calendar Spec_Api Spec_Accuracy Spec_Matrix Spec_Sun Spec_SunAcc Spec_Almanac.
From Verif Require Import L_ArithR L_Matrix L_PMatrix L_Near L_Pi L_Angle L_Almanac L_AlmanacSky L_PAlmanac.
Open Scope R_scope.

Definition e3 : vec3 realA := V3 (A := realA) 0 0 1.
Lemma e3_unit : nrm e3 = 1.
Proof. apply nrm_unit. ring. Qed.

Lemma dot_e3 : forall v, nrm v = 1 -> unit_dot v e3 = coord v I2.
Proof. intros [a b c] H. unfold unit_dot. rewrite H, e3_unit. unfold e3. vec_calc. field. Qed.

Lemma acos_sin : forall x, - (PI / 2) <= x <= PI / 2 -> acos (sin x) = PI / 2 - x.
Proof. intros x H. rewrite <- cos_shift. apply acos_cos. lra. Qed.

Lemma acos_between : forall x e, 0 <= e <= PI / 2 -> - sin e <= x <= sin e -> PI / 2 - e <= acos x <= PI / 2 + e.
Proof.
  intros x e He Hx. pose proof (SIN_bound e) as SB. pose proof (acos_bound x) as A.
  assert (C : cos (acos x) = x) by (apply cos_acos; lra). split.
  - apply Rnot_lt_le. intros N. pose proof (cos_decreasing_1 (acos x) (PI / 2 - e) ltac:(lra) ltac:(lra) ltac:(lra) ltac:(lra) N) as D. rewrite cos_shift, C in D. lra.
  - apply Rnot_lt_le. intros N. pose proof (cos_decreasing_1 (PI / 2 + e) (acos x) ltac:(lra) ltac:(lra) ltac:(lra) ltac:(lra) N) as D.
    rewrite C in D. replace (PI / 2 + e) with (PI / 2 - (- e)) in D by ring. rewrite cos_shift, sin_neg in D. lra.
Qed.

Lemma tropics : forall z s la e, nrm z = 1 -> nrm s = 1 -> coord z I2 = sin la -> - (PI / 2) <= la <= PI / 2 -> 0 <= e <= PI / 2 -> - sin e <= coord s I2 <= sin e ->
  Rabs la - e <= acos (unit_dot z s).
Proof.
  intros z s la e Hz Hs Hl Bl Be Bs.
  pose proof (angle_triangle z s e3 ltac:(lra) ltac:(lra) ltac:(rewrite e3_unit; lra)) as T1.
  pose proof (angle_triangle s z e3 ltac:(lra) ltac:(lra) ltac:(rewrite e3_unit; lra)) as T2.
  replace (unit_dot s z) with (unit_dot z s) in T2 by (unfold unit_dot; rewrite (Rmult_comm (nrm s)); f_equal; unfold sprod; ring).
  rewrite !dot_e3 in T1, T2 by assumption. rewrite Hl, acos_sin in T1, T2 by exact Bl.
  pose proof (acos_between _ _ Be Bs) as A. unfold Rabs. destruct (Rcase_abs la); lra.
Qed.

Lemma alm_tropics : forall n la lo, Rabs n <= 36524 -> -90 <= la <= 90 ->
  degrees (Rabs la - 23.454) <= acos (alm_cos_zenith n la lo) <= degrees (180 - Rabs la + 23.454).
Proof.
  intros n la lo Hn Hl. pose proof PI_RGT_0 as P. pose proof PI_bounds as PB.
  set (pos := MkG360 (A := realA) lo la 0).
  pose proof (alm_dir_zenith n pos) as AD. cbn [lat lon pos] in AD. rewrite <- AD. clear AD.
  assert (Z : nrm (zenith_of pos) = 1).
  { unfold zenith_of. apply nrm_unit. cbn [lat lon pos]. pose proof (sin2_cos2 (degrees la)) as A. pose proof (sin2_cos2 (degrees lo)) as B. unfold Rsqr in A, B.
    set (a := cos (degrees la)) in *. set (b := sin (degrees la)) in *. set (c := cos (degrees lo)) in *. set (d := sin (degrees lo)) in *. clearbody a b c d.
    transitivity (a * a * (d * d + c * c) + b * b); [ring|]. rewrite B. lra. }
  pose proof (alm_dir_unit n) as D.
  assert (E : sprod (zenith_of pos) (alm_dir n) = unit_dot (zenith_of pos) (alm_dir n)) by (unfold unit_dot; rewrite Z, D; field). rewrite E.
  assert (Bl : - (PI / 2) <= degrees la <= PI / 2) by (unfold degrees; nra).
  assert (Bo : 0 <= alm_obliquity n <= degrees 23.454).
  { unfold alm_obliquity, degrees. apply Rabs_le_inv in Hn. split; [apply Rmult_le_pos; lra|apply Rmult_le_compat_r; lra]. }
  assert (B90 : degrees 23.454 <= PI / 2) by (unfold degrees; lra).
  assert (Bs : - sin (degrees 23.454) <= coord (alm_dir n) I2 <= sin (degrees 23.454)).
  { change (coord (alm_dir n) I2) with (sin (alm_obliquity n) * sin (alm_long n)). pose proof (SIN_bound (alm_long n)) as S.
    assert (S1 : 0 <= sin (alm_obliquity n)) by (apply sin_ge_0; lra). assert (S2 : sin (alm_obliquity n) <= sin (degrees 23.454)) by (apply sin_incr_1; lra). split; nra. }
  assert (Be : 0 <= degrees 23.454 <= PI / 2) by lra.
  assert (AB : Rabs (degrees la) = Rabs la * (PI / 180)) by (unfold degrees; rewrite Rabs_mult, (Rabs_pos_eq (PI / 180)) by lra; reflexivity).
  split.
  - pose proof (tropics (zenith_of pos) (alm_dir n) (degrees la) _ Z D eq_refl Bl Be Bs) as T. rewrite AB in T. unfold degrees at 1. unfold degrees in T. lra.
  - assert (N : nrm (scl (-1) (alm_dir n)) = 1) by (rewrite L_AlmanacSun.nrm_neg; exact D).
    pose proof (tropics (zenith_of pos) (scl (-1) (alm_dir n)) (degrees la) _ Z N eq_refl Bl Be) as T.
    assert (O : unit_dot (zenith_of pos) (scl (-1) (alm_dir n)) = - unit_dot (zenith_of pos) (alm_dir n)).
    { unfold unit_dot. rewrite Z, D, N. unfold scl. vec_calc. field. }
    rewrite O, acos_opp in T. rewrite AB in T.
    assert (- sin (degrees 23.454) <= coord (scl (-1) (alm_dir n)) I2 <= sin (degrees 23.454)) by (unfold scl; change (coord (V3 (A := realA) ?a ?b ?c) I2) with c; change (coord (V3 (A := realA) _ _ (-1 * coord (alm_dir n) I2)) I2) with (-1 * coord (alm_dir n) I2); lra).
    specialize (T H). clear - T. set (w := acos _) in *. clearbody w. unfold degrees in *. lra.
Qed.

Lemma usual_days : forall g h m s lo la ht ds k, usual_inputs g h m s lo la ht ds -> day_count mjd_epoch (of_date g) k ->
  Rabs (ut_days k (3600 * IZR h + 60 * IZR m + B2R s + B2R ds)) <= 36524.
Proof.
  intros g h m s lo la ht ds k HU Hk. destruct HU as (Hg & Hy & Hh & Hm & Fs & Bs & _ & _ & _ & _ & _ & _ & _ & Bd).
  assert (EK : k = L_Calendar.mjd (of_date g)).
  { pose proof (proj1 (L_PCalendar.accepted_spec _) Hg) as [V _]. apply (L_PCalendar.C02_day_count_unique_pf (of_date g)); [exact V|exact Hk|apply L_Calendar.mjd_epoch_count; exact V]. }
  pose proof (L_ApxDat.mjd_between g 1901 2098 Hg ltac:(lia) ltac:(lia)) as MB.
  change (L_Calendar.mjd (1901, 1, 1)%Z) with 15385%Z in MB. change (L_Calendar.mjd (2098, 12, 31)%Z) with 87703%Z in MB. rewrite <- EK in MB.
  destruct MB as [M1 M2]. apply IZR_le in M1. apply IZR_le in M2. unfold ut_days. apply Rabs_le_inv in Bd.
  assert (0 <= IZR h <= 23) by (split; apply IZR_le; lia). assert (0 <= IZR m <= 59) by (split; apply IZR_le; lia). apply Rabs_le. lra.
Qed.

(** C88. Let the request be accepted and let its moment lie within 36524 days of
    noon UT of 2000 January 1.  For a latitude between -90 and 90 degrees the solar
    zenith angle that compute returns is at least the absolute latitude minus 23.6
    degrees and at most 180 degrees minus the absolute latitude plus 23.6 degrees:
    outside the tropics the Sun never stands overhead. *)
Lemma C88_tropics_pf : forall p par c ds k, sun_new (A := realA) p par = Val c ->
  accepted (sp_date (A := realA) par) -> (year (sp_date (A := realA) par) <= 1465072)%Z -> day_count mjd_epoch (of_date (sp_date (A := realA) par)) k ->
  Rabs (ut_days k (clock (sp_time (A := realA) par) + ds)) <= 36524 -> -90 <= lat (A := realA) (sp_position (A := realA) par) <= 90 ->
  exists r, sun_compute (A := realA) c ds = Val r /\
  degrees (Rabs (lat (A := realA) (sp_position (A := realA) par)) - 23.6) <= sr_sza (A := realA) r <= degrees (180 - Rabs (lat (A := realA) (sp_position (A := realA) par)) + 23.6).
Proof.
  intros p par c ds k E Ha Hy Hk Hn Hl. destruct (C87_almanac_pf p par c ds k E Ha Hy Hk Hn) as (r & Er & B). exists r. split; [exact Er|].
  pose proof (alm_tropics _ _ (lon (A := realA) (sp_position (A := realA) par)) Hn Hl) as T. pose proof PI_RGT_0 as P.
  set (w := acos _) in *. set (q := sr_sza (A := realA) r) in *. clearbody w q. clear - B T P. apply Rabs_le_inv in B. unfold degrees in *. lra.
Qed.

(** C88 in binary64: for the usual inputs and a latitude of at least 25 degrees,
    north or south, compute succeeds and the zenith angle it returns is finite and
    obeys the same two bounds. *)
Lemma C88_tropics_b64_pf : forall lm, good_libm lm -> forall p g h m s lo la ht ds k,
  usual_inputs g h m s lo la ht ds -> day_count mjd_epoch (of_date g) k -> 25 <= Rabs (B2R la) <= 90 ->
  exists c r, sun_new (A := b64A lm) p (parF lm g h m s lo la ht) = Val c /\ sun_compute (A := b64A lm) c ds = Val r /\
  is_finite (sr_sza (A := b64A lm) r) = true /\
  degrees (Rabs (B2R la) - 23.6) <= B2R (sr_sza (A := b64A lm) r) <= degrees (180 - Rabs (B2R la) + 23.6).
Proof.
  intros lm G p g h m s lo la ht ds k U Hk Hl. pose proof PI_bounds as PB.
  assert (N : Rabs (ut_days k (3600 * IZR h + 60 * IZR m + B2R s + B2R ds)) <= 36524) by (eapply usual_days; eassumption).
  assert (L90 : -90 <= B2R la <= 90) by (apply Rabs_le_inv; lra). pose proof (alm_tropics _ (B2R la) (B2R lo) N L90) as T.
  pose proof (C87_almanac_b64_pf lm G p g h m s lo la ht ds k U Hk) as A. cbv zeta in A. set (z := acos _) in *.
  destruct A as (c & r & E1 & E2 & F & B); [clearbody z; unfold degrees in T; nra|].
  exists c, r. split; [exact E1|]. split; [exact E2|]. split; [exact F|].
  set (q := B2R (sr_sza (A := b64A lm) r)) in *. clearbody z q. clear - B T PB. apply Rabs_le_inv in B. unfold degrees in *. lra.
Qed.

(** C88 at the north pole at noon UT of 2000 January 1: the binary64 zenith angle
    lies between 66.4 and 113.6 degrees. *)
Example C88_example_pf : forall lm, good_libm lm -> forall p, exists c r,
  sun_new (A := b64A lm) p (parF lm (MkDate 2000 1 1) 12 0 (Flit 0 0) (Flit 0 0) (Flit 90 0) (Flit 0 0)) = Val c /\ sun_compute (A := b64A lm) c (Flit 0 0) = Val r /\
  degrees 66.4 <= B2R (sr_sza (A := b64A lm) r) <= degrees 113.6.
Proof.
  intros lm G p. destruct L_ArithF.lit_0 as [E0 F0].
  assert (E90 : B2R (Flit 90 0) = 90 /\ is_finite (Flit 90 0) = true) by L_ArithF.flit_prove. destruct E90 as [E90 F90].
  assert (K : day_count mjd_epoch (of_date (MkDate 2000 1 1)) 51544) by (change 51544%Z with (L_Calendar.mjd (2000, 1, 1)%Z); apply L_Calendar.mjd_epoch_count; cbn; lia).
  assert (U : usual_inputs (MkDate 2000 1 1) 12 0 (Flit 0 0) (Flit 0 0) (Flit 90 0) (Flit 0 0) (Flit 0 0)).
  { unfold usual_inputs. cbn [year]. rewrite !E0, ?E90. repeat match goal with |- _ /\ _ => split end; try assumption; try lia; try lra; try (apply Rabs_le; lra). reflexivity. }
  destruct (C88_tropics_b64_pf lm G p _ _ _ _ _ _ _ _ _ U K) as (c & r & T1 & T2 & _ & T3); [rewrite E90, Rabs_pos_eq; lra|].
  exists c, r. split; [exact T1|]. split; [exact T2|]. rewrite E90, Rabs_pos_eq in T3 by lra.
  replace (90 - 23.6) with 66.4 in T3 by lra. replace (180 - 90 + 23.6) with 113.6 in T3 by lra. exact T3.
Qed.
