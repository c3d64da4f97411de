(** * Proofs of C94 *)

From Coq Require Import ZArith Reals Lra Lia Bool List Psatz.
From Flocq Require Import Core BinarySingleNaN.
From Verif Require Import Outcome Arith ArithR ArithF M_Common M_Calendar M_Time M_Ellipsoid M_Locator M_Frames M_Earth M_SunAngle Spec_Calendar Spec_Api Spec_Accuracy Spec_Matrix Spec_Sun Spec_SunAcc Spec_Almanac.
From Verif Require Import L_ArithR L_Matrix L_PMatrix L_Near L_Pi L_Angle L_Almanac L_PAlmanac L_PSmooth L_PSunAngle.
From Verif Require L_ApxMod L_PSeries.
Open Scope R_scope.

Lemma compute_same : forall (A : arith) j0 j1 dat fr du dt xp yp ps ps' z z' ds r,
  sun_compute (A := A) (MkSAC (A := A) j0 j1 dat fr du dt xp yp ps z) ds = Val r ->
  exists r', sun_compute (A := A) (MkSAC (A := A) j0 j1 dat fr du dt xp yp ps' z') ds = Val r' /\
  sr_jd0 (A := A) r' = sr_jd0 (A := A) r /\ sr_jd1 (A := A) r' = sr_jd1 (A := A) r /\ sr_utc (A := A) r' = sr_utc (A := A) r /\
  sr_dat (A := A) r' = sr_dat (A := A) r /\ sr_tai (A := A) r' = sr_tai (A := A) r /\ sr_tt (A := A) r' = sr_tt (A := A) r /\ sr_ut1 (A := A) r' = sr_ut1 (A := A) r /\
  sr_era (A := A) r' = sr_era (A := A) r /\ sr_earth (A := A) r' = sr_earth (A := A) r /\ sr_sun_e (A := A) r' = sr_sun_e (A := A) r /\ (z' = z -> sr_sza (A := A) r' = sr_sza (A := A) r).
Proof.
  intros A j0 j1 dat fr du dt xp yp ps ps' z z' ds r. unfold sun_compute. cbn [sc_jd0 sc_jd1_date sc_dat sc_fr sc_dut1 sc_dtr sc_xp sc_yp sc_p sc_zen].
  destruct (earth_pos_vel _) as [epv|]; [|discriminate]. cbn [bind].
  destruct (celestial_to_terrestrial _ _ _ _) as [m|]; [|discriminate]. cbn [bind].
  intros Hr. assert (Er : forall X (a b : X), Val a = Val b -> b = a) by congruence. apply Er in Hr. subst r. eexists. split; [reflexivity|].
  cbn [sr_jd0 sr_jd1 sr_utc sr_dat sr_tai sr_tt sr_ut1 sr_era sr_earth sr_sun_e sr_sza].
  do 10 (split; [reflexivity|]). intros ->. reflexivity.
Qed.

(** C94.  Over any arithmetic: two accepted requests for the same date and time have
    the same outcome of compute at every offset as far as times and the Sun are
    concerned; only the position and the zenith angle depend on the place.  The
    zenith angle does not depend on the height. *)
Lemma C94_same_sun_pf : forall (A : arith) p par par' c c' ds r,
  sun_new (A := A) p par = Val c -> sun_new (A := A) p par' = Val c' ->
  sp_date (A := A) par = sp_date (A := A) par' -> sp_time (A := A) par = sp_time (A := A) par' ->
  sun_compute (A := A) c ds = Val r ->
  exists r', sun_compute (A := A) c' ds = Val r' /\
  sr_jd0 (A := A) r' = sr_jd0 (A := A) r /\ sr_jd1 (A := A) r' = sr_jd1 (A := A) r /\ sr_utc (A := A) r' = sr_utc (A := A) r /\
  sr_dat (A := A) r' = sr_dat (A := A) r /\ sr_tai (A := A) r' = sr_tai (A := A) r /\ sr_tt (A := A) r' = sr_tt (A := A) r /\ sr_ut1 (A := A) r' = sr_ut1 (A := A) r /\
  sr_era (A := A) r' = sr_era (A := A) r /\ sr_earth (A := A) r' = sr_earth (A := A) r /\ sr_sun_e (A := A) r' = sr_sun_e (A := A) r /\
  (lat (A := A) (sp_position (A := A) par) = lat (A := A) (sp_position (A := A) par') ->
   lon (A := A) (sp_position (A := A) par) = lon (A := A) (sp_position (A := A) par') -> sr_sza (A := A) r' = sr_sza (A := A) r).
Proof.
  intros A p par par' c c' ds r H H' ED ET Hr.
  destruct (sun_new_inv A p par c H) as (j0 & j1 & o & wg & pos & J & D & W & P & Ec).
  destruct (sun_new_inv A p par' c' H') as (j0' & j1' & o' & wg' & pos' & J' & D' & W' & P' & Ec').
  rewrite <- ED in J', D'. rewrite <- ET in D', Ec'. rewrite J in J'. rewrite D in D'.
  assert (E1 : j0' = j0) by congruence. assert (E2 : j1' = j1) by congruence. assert (E3 : o' = o) by congruence. subst j0' j1' o'.
  clear H H' J J' D D' W W' P P'. subst c c'.
  destruct (compute_same A _ _ _ _ _ _ _ _ _ pos' _ (zenith (A := A) (geodetic_of_360 (A := A) (sp_position (A := A) par'))) ds r Hr) as (r' & Er & F).
  exists r'. split; [exact Er|]. do 10 (destruct F as [F1 F]; split; [exact F1|]; clear F1).
  intros La Lo. apply F. unfold geodetic_of_360, zenith. cbn [elong phi]. rewrite La, Lo. reflexivity.
Qed.

(** The zenith angle as an angle between vectors, with a Sun vector that depends on
    date, time and offset only. *)
Lemma same_zang : forall p par par' c c' k ds, sun_new (A := realA) p par = Val c -> sun_new (A := realA) p par' = Val c' ->
  sp_date (A := realA) par = sp_date (A := realA) par' -> sp_time (A := realA) par = sp_time (A := realA) par' ->
  accepted (sp_date (A := realA) par) -> (year (sp_date (A := realA) par) <= 1465072)%Z -> day_count mjd_epoch (of_date (sp_date (A := realA) par)) k ->
  Rabs (ut_days k (clock (sp_time (A := realA) par) + ds)) <= 36524 ->
  exists r r' s, sun_compute (A := realA) c ds = Val r /\ sun_compute (A := realA) c' ds = Val r' /\ 0 < nrm s /\
  nrm (zenith_of (sp_position (A := realA) par)) = 1 /\ nrm (zenith_of (sp_position (A := realA) par')) = 1 /\
  sr_sza (A := realA) r = acos (unit_dot (zenith_of (sp_position (A := realA) par)) s) /\
  sr_sza (A := realA) r' = acos (unit_dot (zenith_of (sp_position (A := realA) par')) s).
Proof.
  intros p par par' c c' k ds H H' ED ET Hg Hy Hk Hn.
  destruct (C51_geometry_pf p par c ds H) as (r & e & m & Er & (d & Ed & Td) & Ee & _ & _ & LS & LZ & SR & SD).
  destruct (C51_geometry_pf p par' c' ds H') as (r1 & e1 & m1 & Er1 & _ & _ & _ & _ & _ & LZ1 & SR1 & SD1).
  destruct (C94_same_sun_pf realA p par par' c c' ds r H H' ED ET Er) as (r' & Er' & _ & _ & _ & _ & _ & _ & _ & _ & _ & ES & _).
  rewrite Er1 in Er'. assert (E : r1 = r') by congruence. subst r1. rewrite ES in SD1.
  exists r, r', (sr_sun_e (A := realA) r). split; [exact Er|]. split; [exact Er1|].
  destruct (utc_days p par c ds r k H Er Hg Hy Hk) as [EN TT].
  assert (P : 0 < nrm (sr_sun_e (A := realA) r)).
  { change (nrm (sr_sun_e (A := realA) r)) with (length3 (sr_sun_e (A := realA) r)). rewrite LS.
    destruct (L_PSeries.C43_distance_pf d) as (q & Eq & Q).
    - unfold Spec_Series.years. rewrite Td. apply Rabs_le_inv in TT. apply Rabs_le_inv in Hn. rewrite <- EN in Hn. clear - TT Hn. apply Rabs_le. change (num realA) with R in *. set (a := tt_total (A := realA) _) in *. set (b := utc_total (A := realA) _) in *. clearbody a b. lra.
    - rewrite Ed in Eq. assert (E : q = e) by congruence. subst q. cbv zeta in Q. rewrite <- Ee in Q. unfold length3. set (l := R_sqrt.sqrt _) in *. clearbody l. lra. }
  split; [exact P|]. change (length3 (zenith_of (sp_position (A := realA) par))) with (nrm (zenith_of (sp_position (A := realA) par))) in LZ. change (length3 (zenith_of (sp_position (A := realA) par'))) with (nrm (zenith_of (sp_position (A := realA) par'))) in LZ1.
  split; [exact LZ|]. split; [exact LZ1|].
  change (length3 (sr_sun_e (A := realA) r)) with (nrm (sr_sun_e (A := realA) r)) in SD, SD1.
  split.
  - unfold unit_dot. rewrite LZ, SD. rewrite <- (acos_cos (sr_sza (A := realA) r)) at 1 by exact SR. f_equal. field. lra.
  - unfold unit_dot. rewrite LZ1, SD1. rewrite <- (acos_cos (sr_sza (A := realA) r')) at 1 by exact SR1. f_equal. field. lra.
Qed.

(** C94.  For two accepted requests with the same date and time, at a moment within
    36524 days of noon UT of 2000 January 1, the zenith angles differ by at most the
    angle between the verticals of the two places, and add up to at least the angle
    between them. *)
Lemma C94_moving_pf : forall p par par' c c' k ds, sun_new (A := realA) p par = Val c -> sun_new (A := realA) p par' = Val c' ->
  sp_date (A := realA) par = sp_date (A := realA) par' -> sp_time (A := realA) par = sp_time (A := realA) par' ->
  accepted (sp_date (A := realA) par) -> (year (sp_date (A := realA) par) <= 1465072)%Z -> day_count mjd_epoch (of_date (sp_date (A := realA) par)) k ->
  Rabs (ut_days k (clock (sp_time (A := realA) par) + ds)) <= 36524 ->
  exists r r', sun_compute (A := realA) c ds = Val r /\ sun_compute (A := realA) c' ds = Val r' /\
  let moved := acos (sprod (zenith_of (sp_position (A := realA) par)) (zenith_of (sp_position (A := realA) par'))) in
  Rabs (sr_sza (A := realA) r - sr_sza (A := realA) r') <= moved <= sr_sza (A := realA) r + sr_sza (A := realA) r'.
Proof.
  intros p par par' c c' k ds H H' ED ET Hg Hy Hk Hn.
  destruct (same_zang p par par' c c' k ds H H' ED ET Hg Hy Hk Hn) as (r & r' & s & Er & Er' & P & Z & Z' & S1 & S2).
  exists r, r'. split; [exact Er|]. split; [exact Er'|]. cbv zeta. rewrite S1, S2. cbv zeta. set (u := zenith_of (sp_position (A := realA) par)) in *. set (v := zenith_of (sp_position (A := realA) par')) in *.
  assert (E : sprod u v = unit_dot u v) by (unfold unit_dot; rewrite Z, Z'; field). rewrite E.
  assert (C : forall a b, unit_dot a b = unit_dot b a) by (intros a b; unfold unit_dot; rewrite (Rmult_comm (nrm a)); f_equal; unfold sprod; ring).
  pose proof (angle_triangle u v s ltac:(lra) ltac:(lra) P) as T1. pose proof (angle_triangle v u s ltac:(lra) ltac:(lra) P) as T2. pose proof (angle_triangle u s v ltac:(lra) P ltac:(lra)) as T3.
  rewrite (C v u) in T2. rewrite (C s v) in T3. split; [apply Rabs_le; lra|lra].
Qed.

(** C94.  A latitude change at the same longitude changes the zenith angle by at
    most as many degrees. *)
Lemma C94_latitude_pf : forall p par par' c c' k ds, sun_new (A := realA) p par = Val c -> sun_new (A := realA) p par' = Val c' ->
  sp_date (A := realA) par = sp_date (A := realA) par' -> sp_time (A := realA) par = sp_time (A := realA) par' ->
  accepted (sp_date (A := realA) par) -> (year (sp_date (A := realA) par) <= 1465072)%Z -> day_count mjd_epoch (of_date (sp_date (A := realA) par)) k ->
  Rabs (ut_days k (clock (sp_time (A := realA) par) + ds)) <= 36524 ->
  lon (A := realA) (sp_position (A := realA) par) = lon (A := realA) (sp_position (A := realA) par') ->
  exists r r', sun_compute (A := realA) c ds = Val r /\ sun_compute (A := realA) c' ds = Val r' /\
  Rabs (sr_sza (A := realA) r - sr_sza (A := realA) r') <= degrees (Rabs (lat (A := realA) (sp_position (A := realA) par) - lat (A := realA) (sp_position (A := realA) par'))).
Proof.
  intros p par par' c c' k ds H H' ED ET Hg Hy Hk Hn EL.
  destruct (C94_moving_pf p par par' c c' k ds H H' ED ET Hg Hy Hk Hn) as (r & r' & Er & Er' & B & _). exists r, r'. split; [exact Er|]. split; [exact Er'|].
  eapply Rle_trans; [exact B|]. unfold zenith_of. rewrite <- EL.
  set (a := lat (A := realA) (sp_position (A := realA) par)). set (b := lat (A := realA) (sp_position (A := realA) par')). set (o := degrees (lon (A := realA) (sp_position (A := realA) par))).
  assert (S : sprod (V3 (A := realA) (cos (degrees a) * cos o) (cos (degrees a) * sin o) (sin (degrees a))) (V3 (A := realA) (cos (degrees b) * cos o) (cos (degrees b) * sin o) (sin (degrees b))) = cos (degrees (Rabs (a - b)))).
  { assert (D : degrees (Rabs (a - b)) = Rabs (degrees a - degrees b)).
    { unfold degrees. pose proof PI_RGT_0. replace (a * (PI / 180) - b * (PI / 180)) with ((a - b) * (PI / 180)) by ring. rewrite Rabs_mult, (Rabs_pos_eq (PI / 180)) by lra. reflexivity. }
    rewrite D. assert (CA : forall x, cos (Rabs x) = cos x) by (intros x; unfold Rabs; destruct (Rcase_abs x); [apply cos_neg|reflexivity]). rewrite CA, cos_minus.
    unfold sprod, coord. cbn [vget v0 v1 v2]. pose proof (sin2_cos2 o) as Q. unfold Rsqr in Q.
    transitivity (cos (degrees a) * cos (degrees b) * (sin o * sin o + cos o * cos o) + sin (degrees a) * sin (degrees b)); [ring|]. rewrite Q. ring. }
  rewrite S. assert (X : 0 <= degrees (Rabs (a - b))) by (unfold degrees; pose proof PI_RGT_0; pose proof (Rabs_pos (a - b)); nra).
  set (x := degrees (Rabs (a - b))) in *. clearbody x. destruct (Rle_dec x PI) as [L|L]; [rewrite acos_cos by lra; lra|]. pose proof (acos_bound (cos x)). lra.
Qed.

(** C94.  At the antipodes (opposite latitude, longitude 180 degrees away) the
    zenith angle is the supplement: where one place has day the other has night. *)
Lemma C94_antipodes_pf : forall p par par' c c' k ds, sun_new (A := realA) p par = Val c -> sun_new (A := realA) p par' = Val c' ->
  sp_date (A := realA) par = sp_date (A := realA) par' -> sp_time (A := realA) par = sp_time (A := realA) par' ->
  accepted (sp_date (A := realA) par) -> (year (sp_date (A := realA) par) <= 1465072)%Z -> day_count mjd_epoch (of_date (sp_date (A := realA) par)) k ->
  Rabs (ut_days k (clock (sp_time (A := realA) par) + ds)) <= 36524 ->
  lat (A := realA) (sp_position (A := realA) par') = - lat (A := realA) (sp_position (A := realA) par) ->
  lon (A := realA) (sp_position (A := realA) par') = lon (A := realA) (sp_position (A := realA) par) + 180 ->
  exists r r', sun_compute (A := realA) c ds = Val r /\ sun_compute (A := realA) c' ds = Val r' /\ sr_sza (A := realA) r' = degrees 180 - sr_sza (A := realA) r.
Proof.
  intros p par par' c c' k ds H H' ED ET Hg Hy Hk Hn EA EO.
  destruct (same_zang p par par' c c' k ds H H' ED ET Hg Hy Hk Hn) as (r & r' & s & Er & Er' & P & Z & Z' & S1 & S2).
  exists r, r'. split; [exact Er|]. split; [exact Er'|]. cbv zeta. rewrite S1, S2.
  assert (N : zenith_of (sp_position (A := realA) par') = scl (-1) (zenith_of (sp_position (A := realA) par))).
  { unfold zenith_of. rewrite EA, EO. unfold degrees. set (a := lat (A := realA) _). set (o := lon (A := realA) _).
    replace (- a * (PI / 180)) with (- (a * (PI / 180))) by ring. replace ((o + 180) * (PI / 180)) with (o * (PI / 180) + PI) by lra. rewrite cos_neg, sin_neg, neg_cos, neg_sin. unfold scl. vec_calc. f_equal; ring. }
  assert (D : unit_dot (zenith_of (sp_position (A := realA) par')) s = - unit_dot (zenith_of (sp_position (A := realA) par)) s).
  { unfold unit_dot. rewrite Z, Z', N. set (u := zenith_of _). clearbody u. assert (M : sprod (scl (-1) u) s = - sprod u s) by (unfold scl; vec_calc; ring). rewrite M. unfold Rdiv. ring. }
  rewrite D, acos_opp. replace (degrees 180) with PI by (unfold degrees; field). reflexivity.
Qed.

(** C94.  Going once around the Earth, or changing the height, leaves the zenith
    angle unchanged. *)
Lemma C94_turn_pf : forall p par par' c c' k ds, sun_new (A := realA) p par = Val c -> sun_new (A := realA) p par' = Val c' ->
  sp_date (A := realA) par = sp_date (A := realA) par' -> sp_time (A := realA) par = sp_time (A := realA) par' ->
  accepted (sp_date (A := realA) par) -> (year (sp_date (A := realA) par) <= 1465072)%Z -> day_count mjd_epoch (of_date (sp_date (A := realA) par)) k ->
  Rabs (ut_days k (clock (sp_time (A := realA) par) + ds)) <= 36524 ->
  lat (A := realA) (sp_position (A := realA) par') = lat (A := realA) (sp_position (A := realA) par) ->
  (exists j : Z, lon (A := realA) (sp_position (A := realA) par') = lon (A := realA) (sp_position (A := realA) par) + 360 * IZR j) ->
  exists r r', sun_compute (A := realA) c ds = Val r /\ sun_compute (A := realA) c' ds = Val r' /\ sr_sza (A := realA) r' = sr_sza (A := realA) r.
Proof.
  intros p par par' c c' k ds H H' ED ET Hg Hy Hk Hn EA (j & EO).
  destruct (same_zang p par par' c c' k ds H H' ED ET Hg Hy Hk Hn) as (r & r' & s & Er & Er' & P & Z & Z' & S1 & S2).
  exists r, r'. split; [exact Er|]. split; [exact Er'|]. cbv zeta. rewrite S1, S2.
  assert (N : zenith_of (sp_position (A := realA) par') = zenith_of (sp_position (A := realA) par)).
  { unfold zenith_of. rewrite EA, EO. unfold degrees. set (a := lat (A := realA) _). set (o := lon (A := realA) _).
    replace ((o + 360 * IZR j) * (PI / 180)) with (o * (PI / 180) + IZR j * (2 * PI)) by lra. destruct (L_ApxMod.trig_turns (o * (PI / 180)) j) as [-> ->]. reflexivity. }
  rewrite N. reflexivity.
Qed.

(** C94 at latitude 40 and longitude 20 and at its antipodes, at noon UT of 2000
    January 1: the exact zenith angles add up to 180 degrees. *)
Example C94_example_pf : forall p, exists c c' r r',
  sun_new (A := realA) p (MkSAP (A := realA) (MkDate 2000 1 1) (MkHMS (A := realA) 12 0 0) (MkG360 (A := realA) 20 40 0)) = Val c /\
  sun_new (A := realA) p (MkSAP (A := realA) (MkDate 2000 1 1) (MkHMS (A := realA) 12 0 0) (MkG360 (A := realA) 200 (-40) 0)) = Val c' /\
  sun_compute (A := realA) c 0 = Val r /\ sun_compute (A := realA) c' 0 = Val r' /\ sr_sza (A := realA) r + sr_sza (A := realA) r' = degrees 180.
Proof.
  intros p.
  assert (K : day_count mjd_epoch (of_date (MkDate 2000 1 1)) 51544) by (change 51544%Z with (L_Calendar.mjd (2000, 1, 1)%Z); apply L_Calendar.mjd_epoch_count; cbn; lia).
  assert (S : forall la lo, exists c, sun_new (A := realA) p (MkSAP (A := realA) (MkDate 2000 1 1) (MkHMS (A := realA) 12 0 0) (MkG360 (A := realA) lo la 0)) = Val c).
  { intros la lo. destruct (C52_new_panics_partial_pf p (MkDate 2000 1 1) (MkHMS (A := realA) 12 0 0) (MkG360 (A := realA) lo la 0) eq_refl ltac:(unfold civil_lt, of_date; cbn; lia)) as [X _].
    destruct (sun_new (A := realA) p _) as [c|] eqn:E; [exists c; reflexivity|]. exfalso. apply (X eq_refl). unfold clock. cbn [hour minute second]. change (num realA) with R. lra. }
  destruct (S 40 20) as [c C]. destruct (S (-40) 200) as [c' C'].
  destruct (C94_antipodes_pf p _ _ c c' 51544 0 C C' eq_refl eq_refl eq_refl ltac:(cbn; lia) K) as (r & r' & E & E' & Z).
  - unfold clock, ut_days. cbn [sp_time hour minute second]. apply Rabs_le. change (num realA) with R in *. lra.
  - reflexivity.
  - cbn [sp_position lon]. change (num realA) with R. lra.
  - exists c, c', r, r'. split; [exact C|]. split; [exact C'|]. split; [exact E|]. split; [exact E'|]. rewrite Z. lra.
Qed.
