(** * Proofs of C91 *)

From Coq Require Import ZArith Reals Lra Lia Bool List Psatz.
From Flocq Require Import Core BinarySingleNaN.
From Verif Require Import Outcome Arith ArithR ArithF M_Common M_Calendar M_Time M_Ellipsoid M_Locator M_Frames M_Earth M_SunAngle Spec_Calendar Spec_Api Spec_Accuracy Spec_Matrix Spec_Sun Spec_SunAcc Spec_Almanac.
From Verif Require Import L_ArithR L_Matrix L_PMatrix L_Near L_Pi L_Kepler L_Orbit L_POrbit L_PPole L_Angle L_Almanac L_AlmanacSky L_PAlmanac L_PTropics L_PSmooth.
From Verif Require L_Geodesy L_Epv L_SeriesR L_Fro.
Open Scope R_scope.

(** Cosine of the zenith distance at latitude f and local sidereal time q. *)
Definition cosz (f q l e : R) : R := sin f * (sin e * sin l) + cos f * (cos l * cos q + cos e * sin l * sin q).
Lemma cosz_alm : forall n la lo, alm_cos_zenith n la lo = cosz (degrees la) (alm_gmst n + degrees lo) (alm_long n) (alm_obliquity n).
Proof. reflexivity. Qed.

Lemma cosz_move : forall f q l e l' e', Rabs (cosz f q l e - cosz f q l' e') <= Rabs (l - l') + Rabs (e - e').
Proof.
  intros f q l e l' e'. set (u := V3 (A := realA) (cos f * cos q) (cos f * sin q) (sin f)).
  assert (U : nrm u = 1).
  { apply nrm_unit. pose proof (sin2_cos2 f) as A. pose proof (sin2_cos2 q) as B. unfold Rsqr in A, B.
    transitivity (cos f * cos f * (sin q * sin q + cos q * cos q) + sin f * sin f); [ring|]. rewrite B. lra. }
  assert (C : forall l e, cosz f q l e = sprod u (ecl l e)) by (intros; unfold cosz, u, ecl, sprod, coord; cbn [vget v0 v1 v2]; ring).
  rewrite !C. set (w := sub (ecl l e) (ecl l' e')). assert (E : sprod u (ecl l e) - sprod u (ecl l' e') = sprod u w) by (unfold w, ecl, u; vec_calc; ring). rewrite E.
  assert (N : nrm w <= Rabs (l - l') + Rabs (e - e')).
  { unfold w. eapply Rle_trans; [apply (dist_tri _ (ecl l' e))|]. apply Rplus_le_compat; [apply ecl_long|apply ecl_obl]. }
  eapply Rle_trans; [|exact N]. pose proof (cauchy u w) as CS. rewrite <- !nrm_sq, U in CS. pose proof (nrm_pos w).
  apply L_Fro.abs_le_sq; lra.
Qed.

(** Right ascension and declination. *)
Lemma equatorial : forall l e s, 0 <= s < 1 -> Rabs (sin e) <= s -> exists a d, Rabs d <= asin s /\
  forall f, cosz f a l e = cos (f - d) /\ cosz f (a + PI) l e = - cos (f + d).
Proof.
  intros l e s Hs He. destruct (L_Geodesy.polar_exists (cos l) (cos e * sin l)) as (a & _ & Ca & Sa). set (z := sin e * sin l).
  pose proof (sin2_cos2 l) as A. pose proof (sin2_cos2 e) as B. unfold Rsqr in A, B.
  assert (Z : Rabs z <= s) by (unfold z; pose proof (mulb _ _ _ _ He (L_SeriesR.sin_abs l)) as M; lra). apply Rabs_le_inv in Z.
  assert (Q : cos l * cos l + cos e * sin l * (cos e * sin l) = 1 - z * z).
  { unfold z. transitivity (cos l * cos l + sin l * sin l * (1 - sin e * sin e)); [rewrite <- B at 1; ring|]. lra. }
  rewrite Q in Ca, Sa. exists a, (asin z).
  assert (DA : Rabs (asin z) <= asin s).
  { pose proof (asin_bound z) as B1. pose proof (asin_bound s) as B2. pose proof PI_RGT_0 as P. apply Rabs_le. split.
    - apply Rnot_lt_le. intros N. pose proof (sin_increasing_1 (asin z) (- asin s) ltac:(lra) ltac:(lra) ltac:(lra) ltac:(lra) N) as S. rewrite sin_neg, !sin_asin in S by lra. lra.
    - apply Rnot_lt_le. intros N. pose proof (sin_increasing_1 (asin s) (asin z) ltac:(lra) ltac:(lra) ltac:(lra) ltac:(lra) N) as S. rewrite !sin_asin in S by lra. lra. }
  split; [exact DA|]. assert (CD : cos (asin z) = R_sqrt.sqrt (1 - z * z)) by (rewrite cos_asin by lra; reflexivity). rewrite <- CD in Ca, Sa.
  assert (SD : sin (asin z) = z) by (apply sin_asin; lra).
  pose proof (sin2_cos2 a) as AA. unfold Rsqr in AA. intros f.
  assert (G : forall q, cosz f q l e = sin f * z + cos f * (cos (asin z) * (cos a * cos q + sin a * sin q))).
  { intros q. unfold cosz. fold z. rewrite Ca, Sa. ring. }
  split.
  - rewrite G, cos_minus, SD. replace (cos a * cos a + sin a * sin a) with 1 by lra. ring.
  - rewrite G, neg_cos, neg_sin, cos_plus, SD. replace (cos a * - cos a + sin a * - sin a) with (-1) by lra. ring.
Qed.

(** Sidereal time takes every value mod 2 PI within a day. *)
Lemma gmst_day : forall n, Rabs n <= 36524 -> alm_gmst n + 2 * PI <= alm_gmst (n + 1).
Proof.
  intros n Hn. apply Rabs_le_inv in Hn. unfold alm_gmst, degrees. pose proof PI_RGT_0 as P. set (w := PI / 180). assert (W : 0 < w) by (unfold w; lra). replace (2 * PI) with (360 * w) by (unfold w; field). clearbody w.
  rewrite <- Rmult_plus_distr_r. apply Rmult_le_compat_r; [lra|].
  replace ((n + 1) / 36525) with (n / 36525 + / 36525) by field. set (x := n / 36525). assert (X : -1 <= x <= 1) by (unfold x; lra). clearbody x.
  assert (Y : -1 <= x * x <= 1) by nra. cbn [pow]. nra.
Qed.
Lemma gmst_cont : continuity alm_gmst.
Proof. unfold alm_gmst, degrees. reg. Qed.
Lemma reach : forall n q, Rabs n <= 36524 -> exists x j, n <= x <= n + 1 /\ alm_gmst x = q + IZR j * (2 * PI).
Proof.
  intros n q Hn. pose proof PI_RGT_0 as P. set (u := (alm_gmst n - q) / (2 * PI)). destruct (archimed u) as [A1 A2]. set (j := up u) in *.
  assert (EU : alm_gmst n = q + u * (2 * PI)) by (unfold u; field; lra). clearbody u j.
  assert (L : alm_gmst n <= q + IZR j * (2 * PI)) by (rewrite EU; nra).
  assert (H : q + IZR j * (2 * PI) <= alm_gmst (n + 1)) by (pose proof (gmst_day n Hn); nra).
  remember (q + IZR j * (2 * PI)) as T eqn:ET.
  destruct (IVT_cor (fun x => alm_gmst x - T) n (n + 1)) as (x & Bx & Ex).
  - apply continuity_minus; [apply gmst_cont|]. apply continuity_const. intros a b. reflexivity.
  - lra.
  - nra.
  - exists x, j. split; [exact Bx|]. rewrite <- ET. lra.
Qed.

Lemma long_move : forall n x, 0 <= x - n <= 1 -> Rabs (alm_long x - alm_long n) <= 0.0178.
Proof.
  intros n x H. unfold alm_long, alm_mean_long. pose proof PI_bounds as PB. 
  assert (AN : Rabs (alm_anomaly x - alm_anomaly n) <= 0.017203).
  { unfold alm_anomaly, degrees. replace ((357.528 + 0.9856003 * x) * (PI / 180) - (357.528 + 0.9856003 * n) * (PI / 180)) with (0.9856003 * (x - n) * (PI / 180)) by ring. rewrite Rabs_pos_eq; nra. }
  pose proof (L_Epv.sin_lip (alm_anomaly x) (alm_anomaly n)) as S1. pose proof (L_Epv.sin_lip (2 * alm_anomaly x) (2 * alm_anomaly n)) as S2.
  replace (2 * alm_anomaly x - 2 * alm_anomaly n) with (2 * (alm_anomaly x - alm_anomaly n)) in S2 by ring. rewrite (Rabs_mult 2), (Rabs_pos_eq 2) in S2 by lra.
  set (a := sin (alm_anomaly x)) in *. set (b := sin (alm_anomaly n)) in *. set (c := sin (2 * alm_anomaly x)) in *. set (d := sin (2 * alm_anomaly n)) in *.
  assert (A1 : - (0.017203) <= a - b <= 0.017203) by (apply Rabs_le_inv; lra). assert (A2 : - (0.034406) <= c - d <= 0.034406) by (apply Rabs_le_inv; lra). clearbody a b c d. clear S1 S2 AN.
  unfold degrees. match goal with |- Rabs ?z <= _ => replace z with ((0.9856474 * (x - n) + 1.915 * (a - b) + 0.02 * (c - d)) * (PI / 180)) by lra end.
  set (w := 0.9856474 * (x - n) + _ + _). assert (W : -0.034 <= w <= 1.01929) by (unfold w; lra). clearbody w. apply Rabs_le. split; nra.
Qed.

Lemma obl_bounds : forall n, Rabs n <= 36525 -> degrees 23.42 <= alm_obliquity n <= degrees 23.454.
Proof. intros n Hn. unfold alm_obliquity, degrees. apply Rabs_le_inv in Hn. pose proof PI_RGT_0. split; apply Rmult_le_compat_r; lra. Qed.
Lemma obl_move : forall n x, 0 <= x - n <= 1 -> Rabs (alm_obliquity x - alm_obliquity n) <= 0.00001.
Proof.
  intros n x H. unfold alm_obliquity, degrees. pose proof PI_bounds.
  replace ((23.439 - 0.0000004 * x) * (PI / 180) - (23.439 - 0.0000004 * n) * (PI / 180)) with (- (0.0000004 * (x - n) * (PI / 180))) by ring. rewrite Rabs_Ropp, Rabs_pos_eq; nra.
Qed.

Lemma cosz_turns : forall f q l e j, cosz f (q + IZR j * (2 * PI)) l e = cosz f q l e.
Proof.
  intros f q l e j. unfold cosz.
  assert (P : forall j, cos (q + IZR j * (2 * PI)) = cos q /\ sin (q + IZR j * (2 * PI)) = sin q).
  { clear j. intros j. destruct (Z_le_dec 0 j) as [L|L].
    - rewrite <- (Z2Nat.id j L), <- INR_IZR_INZ. replace (q + INR (Z.to_nat j) * (2 * PI)) with (q + 2 * INR (Z.to_nat j) * PI) by ring. split; [apply cos_period|apply sin_period].
    - set (y := q + IZR j * (2 * PI)). replace q with (y + 2 * INR (Z.to_nat (- j)) * PI); [rewrite cos_period, sin_period; split; reflexivity|].
      rewrite INR_IZR_INZ, Z2Nat.id by lia. rewrite opp_IZR. unfold y. ring. }
  destruct (P j) as [-> ->]. reflexivity.
Qed.

Lemma cos_88 : forall x, Rabs x <= degrees 88.454 -> 0.02696 <= cos x.
Proof.
  intros x H. pose proof PI_bounds as PB.
  assert (C : cos (Rabs x) = cos x) by (unfold Rabs; destruct (Rcase_abs x); [apply cos_neg|reflexivity]). rewrite <- C. set (y := Rabs x) in *. assert (Y : 0 <= y) by apply Rabs_pos. clearbody y.
  assert (L : sin (degrees 1.546) <= cos y).
  { rewrite <- (sin_shift y). unfold degrees in *. apply sin_incr_1; lra. }
  eapply Rle_trans; [|exact L]. set (z := degrees 1.546). assert (Z : 0.02698 <= z <= 0.02699) by (unfold z, degrees; lra). clearbody z.
  pose proof (sin_taylor3 z ltac:(rewrite Rabs_pos_eq; lra)) as T. rewrite (Rabs_pos_eq z) in T by lra. apply Rabs_le_inv in T.
  assert (0 <= z ^ 3 <= 0.00002) by (cbn [pow]; split; nra). assert (z ^ 5 <= 0.0000001) by (assert (0 <= z * z <= 0.0008) by nra; replace (z ^ 5) with (z * z * z ^ 3) by ring; nra). lra.
Qed.

Lemma acos_low : forall x b, 0 <= b <= 1 -> b <= x -> acos x <= PI / 2 - b.
Proof.
  intros x b Hb Hx. pose proof PI_bounds as PB. destruct (Rle_lt_dec 1 x) as [O|O].
  - unfold acos. destruct (Rle_dec x (-1)); [lra|]. destruct (Rle_dec 1 x); [lra|lra].
  - pose proof (acos_bound x) as A. apply Rnot_lt_le. intros N.
    pose proof (cos_decreasing_1 (PI / 2 - b) (acos x) ltac:(lra) ltac:(lra) ltac:(lra) ltac:(lra) N) as D. rewrite cos_acos, cos_shift in D by lra.
    assert (sin b <= b). { pose proof (L_Epv.sin_abs_le b) as S. rewrite (Rabs_pos_eq b) in S by lra. pose proof (Rle_abs (sin b)). lra. } lra.
Qed.

Lemma noon_midnight : forall n la lo, Rabs n <= 36524 -> -65 <= la <= 65 ->
  (exists x, n <= x <= n + 1 /\ acos (alm_cos_zenith x la lo) <= PI / 2 - 0.009) /\
  (exists x, n <= x <= n + 1 /\ PI / 2 + 0.009 <= acos (alm_cos_zenith x la lo)).
Proof.
  intros n la lo Hn Hl. pose proof PI_bounds as PB. pose proof (obl_bounds n ltac:(lra)) as OB. set (s := sin (degrees 23.454)).
  assert (S0 : 0 <= s < 1).
  { unfold s. split; [apply sin_ge_0; unfold degrees; lra|]. rewrite <- sin_PI2. apply sin_increasing_1; unfold degrees; lra. }
  assert (SE : Rabs (sin (alm_obliquity n)) <= s).
  { unfold degrees in OB. rewrite Rabs_pos_eq by (apply sin_ge_0; lra). unfold s, degrees. apply sin_incr_1; lra. }
  destruct (equatorial (alm_long n) (alm_obliquity n) s S0 SE) as (a & d & Dd & Hd).
  assert (AS : asin s = degrees 23.454) by (unfold s; apply asin_sin; unfold degrees; lra). rewrite AS in Dd.
  assert (FL : Rabs (degrees la) <= degrees 65) by (unfold degrees; apply Rabs_le; split; nra).
  apply Rabs_le_inv in Dd. apply Rabs_le_inv in FL.
  assert (S88 : degrees 65 + degrees 23.454 = degrees 88.454) by (unfold degrees; lra).
  destruct (Hd (degrees la)) as [HN HM].
  assert (MV : forall x, n <= x <= n + 1 -> forall q, Rabs (cosz (degrees la) q (alm_long x) (alm_obliquity x) - cosz (degrees la) q (alm_long n) (alm_obliquity n)) <= 0.01782).
  { intros x Hx q. eapply Rle_trans; [apply cosz_move|]. pose proof (long_move n x ltac:(lra)). pose proof (obl_move n x ltac:(lra)). lra. }
  split.
  - destruct (reach n (a - degrees lo) Hn) as (x & j & Bx & Ex). exists x. split; [exact Bx|]. apply acos_low; [lra|]. rewrite cosz_alm, Ex.
    replace (a - degrees lo + IZR j * (2 * PI) + degrees lo) with (a + IZR j * (2 * PI)) by ring. rewrite cosz_turns.
    pose proof (MV x Bx a) as M. apply Rabs_le_inv in M. rewrite HN in M. pose proof (cos_88 (degrees la - d) ltac:(apply Rabs_le; lra)). lra.
  - destruct (reach n (a + PI - degrees lo) Hn) as (x & j & Bx & Ex). exists x. split; [exact Bx|].
    assert (A : acos (- alm_cos_zenith x la lo) <= PI / 2 - 0.009); [|rewrite acos_opp in A; lra]. apply acos_low; [lra|]. rewrite cosz_alm, Ex.
    replace (a + PI - degrees lo + IZR j * (2 * PI) + degrees lo) with (a + PI + IZR j * (2 * PI)) by ring. rewrite cosz_turns.
    pose proof (MV x Bx (a + PI)) as M. apply Rabs_le_inv in M. rewrite HM in M. pose proof (cos_88 (degrees la + d) ltac:(apply Rabs_le; lra)). lra.
Qed.

(** C91.  Let the request be accepted, let the latitude lie between -65 and 65
    degrees, and let the 24 hours after an offset lie within 36524 days of noon UT of
    2000 January 1.  Within these 24 hours there is a moment at which compute returns
    a solar zenith angle of at most 89.7 degrees, and one at which it returns at
    least 90.3 degrees. *)
Lemma C91_day_night_pf : forall p par c ds k, sun_new (A := realA) p par = Val c ->
  accepted (sp_date (A := realA) par) -> (year (sp_date (A := realA) par) <= 1465072)%Z -> day_count mjd_epoch (of_date (sp_date (A := realA) par)) k ->
  Rabs (ut_days k (clock (sp_time (A := realA) par) + ds)) <= 36523 -> -65 <= lat (A := realA) (sp_position (A := realA) par) <= 65 ->
  exists d d' r r', ds <= d <= ds + 86400 /\ ds <= d' <= ds + 86400 /\ sun_compute (A := realA) c d = Val r /\ sun_compute (A := realA) c d' = Val r' /\
  sr_sza (A := realA) r <= degrees 89.7 /\ degrees 90.3 <= sr_sza (A := realA) r'.
Proof.
  intros p par c ds k H Hg Hy Hk Hn Hl. set (n := ut_days k (clock (sp_time (A := realA) par) + ds)) in *. pose proof PI_bounds as PB.
  destruct (noon_midnight n _ (lon (A := realA) (sp_position (A := realA) par)) ltac:(lra) Hl) as [(x & Bx & Ax) (y & By & Ay)].
  assert (EX : forall x, ut_days k (clock (sp_time (A := realA) par) + (ds + 86400 * (x - n))) = x) by (intros; unfold n, ut_days; field).
  assert (BX : forall x, n <= x <= n + 1 -> Rabs x <= 36524) by (intros u Hu; apply Rabs_le_inv in Hn; apply Rabs_le; lra).
  pose proof (C87_almanac_pf p par c (ds + 86400 * (x - n)) k H Hg Hy Hk) as CX. cbv zeta in CX. rewrite EX in CX. destruct (CX (BX x Bx)) as (r & Er & Zr).
  pose proof (C87_almanac_pf p par c (ds + 86400 * (y - n)) k H Hg Hy Hk) as CY. cbv zeta in CY. rewrite EX in CY. destruct (CY (BX y By)) as (r' & Er' & Zr').
  exists (ds + 86400 * (x - n)), (ds + 86400 * (y - n)), r, r'. split; [lra|]. split; [lra|]. split; [exact Er|]. split; [exact Er'|].
  apply Rabs_le_inv in Zr. apply Rabs_le_inv in Zr'. clear - PB Zr Zr' Ax Ay. set (a := acos _) in Ax, Zr. set (b := acos _) in Ay, Zr'. unfold degrees in *. lra.
Qed.

Lemma clamp_lip : forall lo hi x y, lo <= hi -> Rabs (Rmax lo (Rmin x hi) - Rmax lo (Rmin y hi)) <= Rabs (x - y).
Proof. intros lo hi x y H. unfold Rmax, Rmin, Rabs. repeat destruct Rle_dec; repeat destruct Rcase_abs; lra. Qed.
Lemma clamp_in : forall lo hi x, lo <= hi -> lo <= Rmax lo (Rmin x hi) <= hi.
Proof. intros lo hi x H. unfold Rmax, Rmin. repeat destruct Rle_dec; lra. Qed.
Lemma clamp_id : forall lo hi x, lo <= x <= hi -> Rmax lo (Rmin x hi) = x.
Proof. intros lo hi x H. unfold Rmax, Rmin. repeat destruct Rle_dec; lra. Qed.

(** A function with a Lipschitz bound takes intermediate values. *)
Lemma lip_ivt : forall (f : R -> R) lo hi L v, lo <= hi -> 0 < L -> (forall x y, lo <= x <= hi -> lo <= y <= hi -> Rabs (f x - f y) <= L * Rabs (x - y)) ->
  forall a b, lo <= a <= hi -> lo <= b <= hi -> f a <= v <= f b -> exists x, lo <= x <= hi /\ f x = v.
Proof.
  intros f lo hi L v O PL H a b Ha Hb Hv. set (g := fun x => f (Rmax lo (Rmin x hi)) - v).
  assert (C : continuity g).
  { intros x e He. exists (e / (2 * L)). split; [apply Rdiv_lt_0_compat; lra|]. intros y [_ Hy]. unfold dist in *. cbn [R_met dist] in *. unfold R_dist in *. unfold g.
    replace (f (Rmax lo (Rmin y hi)) - v - (f (Rmax lo (Rmin x hi)) - v)) with (f (Rmax lo (Rmin y hi)) - f (Rmax lo (Rmin x hi))) by ring.
    eapply Rle_lt_trans; [apply H; apply clamp_in, O|]. pose proof (clamp_lip lo hi y x O) as CL.
    apply Rle_lt_trans with (L * Rabs (y - x)); [apply Rmult_le_compat_l; lra|]. apply Rle_lt_trans with (L * (e / (2 * L))); [apply Rmult_le_compat_l; lra|]. replace (L * (e / (2 * L))) with (e / 2) by (field; lra). lra. }
  assert (GA : g a <= 0) by (unfold g; rewrite clamp_id by exact Ha; lra). assert (GB : 0 <= g b) by (unfold g; rewrite clamp_id by exact Hb; lra).
  assert (Z : exists x, lo <= x <= hi /\ g x = 0).
  { destruct (Rle_lt_dec a b) as [AB|AB].
    - destruct (IVT_cor g a b C AB ltac:(nra)) as (x & Bx & Ex). exists x. split; [lra|exact Ex].
    - destruct (IVT_cor g b a C ltac:(lra) ltac:(nra)) as (x & Bx & Ex). exists x. split; [lra|exact Ex]. }
  destruct Z as (x & Bx & Ex). exists x. split; [exact Bx|]. unfold g in Ex. rewrite clamp_id in Ex by exact Bx. lra.
Qed.

(** C91.  Under the same conditions there is, within the 24 hours, a moment of
    sunrise or sunset: a zenith angle of exactly 90 degrees. *)
Lemma C91_horizon_pf : forall p par c ds k, sun_new (A := realA) p par = Val c ->
  accepted (sp_date (A := realA) par) -> (year (sp_date (A := realA) par) <= 1465072)%Z -> day_count mjd_epoch (of_date (sp_date (A := realA) par)) k ->
  Rabs (ut_days k (clock (sp_time (A := realA) par) + ds)) <= 36523 -> -65 <= lat (A := realA) (sp_position (A := realA) par) <= 65 ->
  exists d r, ds <= d <= ds + 86400 /\ sun_compute (A := realA) c d = Val r /\ sr_sza (A := realA) r = degrees 90.
Proof.
  intros p par c ds k H Hg Hy Hk Hn Hl. pose proof PI_bounds as PB.
  destruct (C91_day_night_pf p par c ds k H Hg Hy Hk Hn Hl) as (d & d' & r & r' & Bd & Bd' & Er & Er' & Z & Z').
  set (f := fun x => match sun_compute (A := realA) c x with Val q => sr_sza (A := realA) q | Panic => 0 end).
  assert (NB : forall x, ds <= x <= ds + 86400 -> Rabs (ut_days k (clock (sp_time (A := realA) par) + x)) <= 36524).
  { intros x Hx. apply Rabs_le_inv in Hn. unfold ut_days in *. apply Rabs_le. lra. }
  assert (FL : forall x y, ds <= x <= ds + 86400 -> ds <= y <= ds + 86400 -> Rabs (f x - f y) <= degrees 0.0042 * Rabs (x - y)).
  { intros x y Hx Hy'. destruct (C90_rate_pf p par c x y k H Hg Hy Hk (NB x Hx) (NB y Hy')) as (q & q' & Eq & Eq' & B). unfold f. rewrite Eq, Eq'. exact B. }
  destruct (lip_ivt f ds (ds + 86400) (degrees 0.0042) (degrees 90) ltac:(lra) ltac:(unfold degrees; lra) FL d d' Bd Bd') as (x & Bx & Ex).
  - unfold f. rewrite Er, Er'. unfold degrees in *. lra.
  - destruct (C90_rate_pf p par c x x k H Hg Hy Hk (NB x Bx) (NB x Bx)) as (q & _ & Eq & _). exists x, q. split; [exact Bx|]. split; [exact Eq|]. unfold f in Ex. rewrite Eq in Ex. exact Ex.
Qed.

(** The hour angle from the right ascension. *)
Lemma equatorial_hour : forall l e s, 0 <= s < 1 -> Rabs (sin e) <= s -> exists a d, Rabs (sin d) <= s /\ 0 <= cos d /\
  forall f t, cosz f (a + t) l e = sin f * sin d + cos f * cos d * cos t.
Proof.
  intros l e s Hs He. destruct (L_Geodesy.polar_exists (cos l) (cos e * sin l)) as (a & _ & Ca & Sa). set (z := sin e * sin l).
  pose proof (sin2_cos2 l) as A. pose proof (sin2_cos2 e) as B. unfold Rsqr in A, B.
  assert (Z : Rabs z <= s) by (unfold z; pose proof (mulb _ _ _ _ He (L_SeriesR.sin_abs l)) as M; lra). pose proof Z as Z'. apply Rabs_le_inv in Z'.
  assert (Q : cos l * cos l + cos e * sin l * (cos e * sin l) = 1 - z * z).
  { unfold z. transitivity (cos l * cos l + sin l * sin l * (1 - sin e * sin e)); [rewrite <- B at 1; ring|]. lra. }
  rewrite Q in Ca, Sa. exists a, (asin z).
  assert (CD : cos (asin z) = R_sqrt.sqrt (1 - z * z)) by (rewrite cos_asin by lra; reflexivity).
  assert (SD : sin (asin z) = z) by (apply sin_asin; lra). rewrite CD, SD. split; [exact Z|]. split; [apply sqrt_pos|].
  pose proof (sin2_cos2 a) as AA. unfold Rsqr in AA. intros f t. unfold cosz. fold z. rewrite Ca, Sa, cos_plus, sin_plus. set (w := R_sqrt.sqrt _).
  transitivity (sin f * z + cos f * (w * ((sin a * sin a + cos a * cos a) * cos t))); [ring|]. rewrite AA. ring.
Qed.

Lemma acos_high : forall x b, 0 <= b <= 1 -> x <= 1 - b * b / 2 -> b <= acos x.
Proof.
  intros x b Hb Hx. pose proof PI_bounds as PB. pose proof (acos_bound x) as A. apply Rnot_lt_le. intros N.
  assert (X : -1 <= x) by (destruct (Rle_lt_dec (-1) x) as [L|L]; [exact L|]; unfold acos in N; destruct (Rle_dec x (-1)); lra).
  assert (X1 : x <= 1) by nra.
  pose proof (cos_decreasing_1 (acos x) b ltac:(lra) ltac:(lra) ltac:(lra) ltac:(lra) N) as D. rewrite cos_acos in D by lra.
  assert (C : 1 - b * b / 2 <= cos b).
  { replace b with (2 * (b / 2)) at 3 by field. rewrite cos_2a_sin. pose proof (L_Epv.sin_abs_le (b / 2)) as S. rewrite (Rabs_pos_eq (b / 2)) in S by lra. apply Rabs_le_inv in S. nra. }
  lra.
Qed.

(** Three hours from noon and from midnight the Sun is neither near the horizon nor
    near the vertical, between the tropics. *)
Lemma forenoon : forall n la lo, Rabs n <= 36524 -> -25 <= la <= 25 ->
  (exists x, n <= x <= n + 1 /\ 0.3 <= acos (alm_cos_zenith x la lo) <= PI / 2 - 0.3) /\
  (exists x, n <= x <= n + 1 /\ PI / 2 + 0.3 <= acos (alm_cos_zenith x la lo) <= PI - 0.3).
Proof.
  intros n la lo Hn Hl. pose proof PI_bounds as PB. pose proof (obl_bounds n ltac:(lra)) as OB.
  assert (S25 : forall x, Rabs x <= degrees 25 -> Rabs (sin x) <= 0.4227 /\ 0.904 <= cos x).
  { intros x Hx. assert (B : 0.43633 <= degrees 25 <= 0.43634) by (unfold degrees; lra). apply Rabs_le_inv in Hx.
    split.
    - assert (S : sin (degrees 25) <= 0.4227).
      { destruct (sin_taylor5 (degrees 25) ltac:(lra)) as [_ T]. set (u := degrees 25) in *. clearbody u.
        assert (0.43633 ^ 3 <= u ^ 3) by (apply pow_incr; lra). assert (u ^ 5 <= 0.43634 ^ 5) by (apply pow_incr; lra). lra. }
      apply Rabs_le. split.
      + apply Rle_trans with (- sin (degrees 25)); [lra|]. rewrite <- sin_neg. apply sin_incr_1; lra.
      + apply Rle_trans with (sin (degrees 25)); [|exact S]. apply sin_incr_1; lra.
    - destruct (cos_taylor4 x ltac:(apply Rabs_le; lra)) as [T _]. nra. }
  assert (E25 : Rabs (alm_obliquity n) <= degrees 25) by (unfold degrees in *; apply Rabs_le; lra).
  destruct (S25 _ E25) as [SE _].
  destruct (equatorial_hour (alm_long n) (alm_obliquity n) 0.4227 ltac:(lra) SE) as (a & d & Sd & Cd & Hd).
  assert (FL : Rabs (degrees la) <= degrees 25) by (unfold degrees; apply Rabs_le; split; nra).
  destruct (S25 _ FL) as [Sf Cf]. clear S25.
  assert (CF1 : cos (degrees la) <= 1) by apply COS_bound. assert (CD1 : cos d <= 1) by apply COS_bound.
  assert (CD : 0.904 <= cos d). { pose proof (sin2_cos2 d) as Q. unfold Rsqr in Q. apply Rabs_le_inv in Sd. nra. }
  assert (P1 : Rabs (sin (degrees la) * sin d) <= 0.1787) by (pose proof (mulb _ _ _ _ Sf Sd) as M; eapply Rle_trans; [exact M|lra]). apply Rabs_le_inv in P1.
  assert (P2 : 0.8172 <= cos (degrees la) * cos d <= 1) by nra.
  assert (C4 : 0.7071 <= cos (PI / 4) <= 0.7072).
  { pose proof sin_cos_PI4 as E. pose proof (sin2_cos2 (PI / 4)) as Q. unfold Rsqr in Q. rewrite E in Q. assert (0 < cos (PI / 4)) by (apply cos_gt_0; lra).
    set (v := cos (PI / 4)) in *. clearbody v. split; nra. }
  assert (MV : forall x, n <= x <= n + 1 -> forall q, Rabs (cosz (degrees la) q (alm_long x) (alm_obliquity x) - cosz (degrees la) q (alm_long n) (alm_obliquity n)) <= 0.01782).
  { intros x Hx q. eapply Rle_trans; [apply cosz_move|]. pose proof (long_move n x ltac:(lra)). pose proof (obl_move n x ltac:(lra)). lra. }
  split.
  - destruct (reach n (a + PI / 4 - degrees lo) Hn) as (x & j & Bx & Ex). exists x. split; [exact Bx|].
    assert (V : 0.3 <= alm_cos_zenith x la lo <= 0.91).
    { rewrite cosz_alm, Ex. replace (a + PI / 4 - degrees lo + IZR j * (2 * PI) + degrees lo) with (a + PI / 4 + IZR j * (2 * PI)) by ring. rewrite cosz_turns.
      pose proof (MV x Bx (a + PI / 4)) as M. apply Rabs_le_inv in M. rewrite Hd in M. set (u := cos (degrees la) * cos d) in *. set (v := cos (PI / 4)) in *. set (t := sin (degrees la) * sin d) in *. clearbody u v t. clear - M P1 P2 C4. assert (0.5778 <= u * v <= 0.7072) by nra. lra. }
    split; [apply acos_high; lra|apply acos_low; lra].
  - destruct (reach n (a + (PI / 4 + PI) - degrees lo) Hn) as (x & j & Bx & Ex). exists x. split; [exact Bx|].
    assert (V : 0.3 <= - alm_cos_zenith x la lo <= 0.91).
    { rewrite cosz_alm, Ex. replace (a + (PI / 4 + PI) - degrees lo + IZR j * (2 * PI) + degrees lo) with (a + (PI / 4 + PI) + IZR j * (2 * PI)) by ring. rewrite cosz_turns.
      pose proof (MV x Bx (a + (PI / 4 + PI))) as M. apply Rabs_le_inv in M. rewrite Hd, neg_cos in M. set (u := cos (degrees la) * cos d) in *. set (v := cos (PI / 4)) in *. set (t := sin (degrees la) * sin d) in *. clearbody u v t. clear - M P1 P2 C4. assert (0.5778 <= u * v <= 0.7072) by nra. lra. }
    assert (A1 : 0.3 <= acos (- alm_cos_zenith x la lo)) by (apply acos_high; lra). assert (A2 : acos (- alm_cos_zenith x la lo) <= PI / 2 - 0.3) by (apply acos_low; lra).
    rewrite acos_opp in A1, A2. lra.
Qed.

(** Day and night away from the vertical. *)
Lemma day_night_safe : forall p par c ds k, sun_new (A := realA) p par = Val c ->
  accepted (sp_date (A := realA) par) -> (year (sp_date (A := realA) par) <= 1465072)%Z -> day_count mjd_epoch (of_date (sp_date (A := realA) par)) k ->
  Rabs (ut_days k (clock (sp_time (A := realA) par) + ds)) <= 36523 -> -65 <= lat (A := realA) (sp_position (A := realA) par) <= 65 ->
  exists d d' r r', ds <= d <= ds + 86400 /\ ds <= d' <= ds + 86400 /\ sun_compute (A := realA) c d = Val r /\ sun_compute (A := realA) c d' = Val r' /\
  degrees 1.39 <= sr_sza (A := realA) r <= degrees 89.7 /\ degrees 90.3 <= sr_sza (A := realA) r' <= degrees 178.61.
Proof.
  intros p par c ds k H Hg Hy Hk Hn Hl. pose proof PI_bounds as PB. destruct (Rle_lt_dec (Rabs (lat (A := realA) (sp_position (A := realA) par))) 25) as [L|L].
  - set (n := ut_days k (clock (sp_time (A := realA) par) + ds)) in *. apply Rabs_le_inv in L.
    destruct (forenoon n _ (lon (A := realA) (sp_position (A := realA) par)) ltac:(lra) L) as [(x & Bx & Ax) (y & By & Ay)].
    assert (EX : forall x, ut_days k (clock (sp_time (A := realA) par) + (ds + 86400 * (x - n))) = x) by (intros; unfold n, ut_days; field).
    assert (BX : forall x, n <= x <= n + 1 -> Rabs x <= 36524) by (intros u Hu; apply Rabs_le_inv in Hn; apply Rabs_le; lra).
    pose proof (C87_almanac_pf p par c (ds + 86400 * (x - n)) k H Hg Hy Hk) as CX. cbv zeta in CX. rewrite EX in CX. destruct (CX (BX x Bx)) as (r & Er & Zr).
    pose proof (C87_almanac_pf p par c (ds + 86400 * (y - n)) k H Hg Hy Hk) as CY. cbv zeta in CY. rewrite EX in CY. destruct (CY (BX y By)) as (r' & Er' & Zr').
    exists (ds + 86400 * (x - n)), (ds + 86400 * (y - n)), r, r'. split; [lra|]. split; [lra|]. split; [exact Er|]. split; [exact Er'|].
    apply Rabs_le_inv in Zr. apply Rabs_le_inv in Zr'. clear - PB Zr Zr' Ax Ay. set (a := acos _) in Ax, Zr. set (b := acos _) in Ay, Zr'. unfold degrees in *. lra.
  - destruct (C91_day_night_pf p par c ds k H Hg Hy Hk Hn Hl) as (d & d' & r & r' & Bd & Bd' & Er & Er' & Z & Z').
    assert (NB : forall x, ds <= x <= ds + 86400 -> Rabs (ut_days k (clock (sp_time (A := realA) par) + x)) <= 36524).
    { intros x Hx. apply Rabs_le_inv in Hn. unfold ut_days in *. apply Rabs_le. lra. }
    destruct (C88_tropics_pf p par c d k H Hg Hy Hk (NB d Bd) ltac:(lra)) as (q & Eq & T). assert (q = r) by congruence. subst q.
    destruct (C88_tropics_pf p par c d' k H Hg Hy Hk (NB d' Bd') ltac:(lra)) as (q & Eq' & T'). assert (q = r') by congruence. subst q.
    exists d, d', r, r'. split; [exact Bd|]. split; [exact Bd'|]. split; [exact Er|]. split; [exact Er'|].
    set (w := Rabs _) in *. clearbody w. unfold degrees in *. split; split; nra.
Qed.

(** C91 in binary64: for the usual inputs and a latitude between -65 and 65 degrees
    there are whole numbers of seconds within 86401 seconds of the
    offset at which compute returns a finite zenith angle of at most 89.75 degrees
    and of at least 90.25 degrees. *)
Lemma C91_day_night_b64_pf : forall lm, good_libm lm -> forall p g h m s lo la ht ds,
  usual_inputs g h m s lo la ht ds -> B2R ds <= 31017599 -> -65 <= B2R la <= 65 ->
  exists c z z' r r', sun_new (A := b64A lm) p (parF lm g h m s lo la ht) = Val c /\
  B2R ds <= IZR z <= B2R ds + 86401 /\ B2R ds <= IZR z' <= B2R ds + 86401 /\
  sun_compute (A := b64A lm) c (FofZ z) = Val r /\ sun_compute (A := b64A lm) c (FofZ z') = Val r' /\
  is_finite (sr_sza (A := b64A lm) r) = true /\ B2R (sr_sza (A := b64A lm) r) <= degrees 89.75 /\
  is_finite (sr_sza (A := b64A lm) r') = true /\ degrees 90.25 <= B2R (sr_sza (A := b64A lm) r').
Proof.
  intros lm G p g h m s lo la ht ds U HD L65. pose proof PI_bounds as PB.
  assert (OI : forall X (a b : X), Val a = Val b -> a = b) by congruence.
  pose proof U as (Hg & Hy & Hh & Hm & Fs & Bs & F1 & B1 & F2 & B2 & F3 & B3 & F4 & B4).
  assert (K : day_count mjd_epoch (of_date g) (L_Calendar.mjd (of_date g))).
  { pose proof (proj1 (L_PCalendar.accepted_spec _) Hg) as [V _]. apply L_Calendar.mjd_epoch_count. exact V. }
  set (k := L_Calendar.mjd (of_date g)) in *.
  destruct (L_PAccSun.C72_sun_accuracy_pf lm G p g h m s lo la ht ds U) as (c & _ & e & _ & E1 & _ & E3 & _ & _).
  assert (Y : (year g <= 1465072)%Z) by lia.
  assert (MB : Rabs (ut_days k (3600 * IZR h + 60 * IZR m + B2R s + B2R ds)) <= 36523).
  { pose proof (L_ApxDat.mjd_between g 1901 2098 Hg ltac:(lia) ltac:(lia)) as MB. fold k in MB.
    change (L_Calendar.mjd (1901, 1, 1)%Z) with 15385%Z in MB. change (L_Calendar.mjd (2098, 12, 31)%Z) with 87703%Z in MB.
    destruct MB as [M1 M2]. apply IZR_le in M1. apply IZR_le in M2. unfold ut_days. apply Rabs_le_inv in B4.
    assert (0 <= IZR h <= 23) by (split; apply IZR_le; lia). assert (0 <= IZR m <= 59) by (split; apply IZR_le; lia). apply Rabs_le. lra. }
  destruct (day_night_safe p (parR g h m s lo la ht) e (B2R ds) k E3 Hg Y K MB L65) as (d & d' & q & q' & Bd & Bd' & Eq & Eq' & Z & Z').
  assert (STEP : forall d q, B2R ds <= d <= B2R ds + 86400 -> sun_compute (A := realA) e d = Val q -> degrees 1.39 <= sr_sza (A := realA) q <= degrees 178.61 ->
    exists z r, B2R ds <= IZR z <= B2R ds + 86401 /\ sun_compute (A := b64A lm) c (FofZ z) = Val r /\ is_finite (sr_sza (A := b64A lm) r) = true /\
    Rabs (B2R (sr_sza (A := b64A lm) r) - sr_sza (A := realA) q) <= degrees 0.0043).
  { clear d d' q q' Bd Bd' Eq Eq' Z Z'. intros d q Bd Eq T. destruct (archimed d) as [A1 A2]. exists (up d). set (z := up d) in *. clearbody z.
    apply Rabs_le_inv in B4.
    assert (ZB : (Z.abs z <= 2 ^ 53)%Z). { apply le_IZR. rewrite abs_IZR. apply Rle_trans with 40000000; [apply Rabs_le; lra|]. apply IZR_le. lia. }
    destruct (L_ArithF.FofZ_ok z ZB) as (V & F & _).
    assert (U' : usual_inputs g h m s lo la ht (FofZ z)).
    { unfold usual_inputs. rewrite V. repeat match goal with |- _ /\ _ => split end; try assumption; try lia; try lra. apply Rabs_le. lra. }
    destruct (L_PAccSun.C72_sun_accuracy_pf lm G p g h m s lo la ht (FofZ z) U') as (c1 & r & e1 & q1 & K1 & K2 & K3 & K4 & _).
    rewrite E1 in K1. apply OI in K1. subst c1. rewrite E3 in K3. apply OI in K3. subst e1. exists r. split; [lra|]. split; [exact K2|].
    destruct (L_PAccSun.C72_zenith_angle_pf lm G p g h m s lo la ht (FofZ z) U' c r e q1 E1 K2 E3 K4) as [ZZ _].
    pose proof (usual_days _ _ _ _ _ _ _ _ k U' K) as N.
    assert (N' : Rabs (ut_days k (3600 * IZR h + 60 * IZR m + B2R s + d)) <= 36524).
    { apply Rabs_le_inv in MB. unfold ut_days in *. apply Rabs_le. lra. }
    destruct (C90_rate_pf p (parR g h m s lo la ht) e (B2R (FofZ z)) d k E3 Hg Y K N N') as (x & x' & X & X' & L).
    rewrite K4 in X. apply OI in X. subst x. rewrite Eq in X'. apply OI in X'. subst x'.
    rewrite V in L. rewrite (Rabs_pos_eq (IZR z - d)) in L by lra.
    set (a := sr_sza (A := realA) q1) in *. set (y := sr_sza (A := realA) q) in *. clearbody a y.
    assert (L' : Rabs (a - y) <= degrees 0.0042) by (unfold degrees in *; nra). pose proof (Rabs_le_inv _ _ L') as LI.
    destruct ZZ as [[FF ZZ] _]; [clear - T LI PB; unfold degrees in *; lra|]. split; [exact FF|].
    set (b := B2R (sr_sza (A := b64A lm) r)) in *. clearbody b.
    replace (b - y) with ((b - a) + (a - y)) by ring. eapply Rle_trans; [apply Rabs_triang|]. unfold degrees in *. lra. }
  destruct (STEP d q Bd Eq ltac:(unfold degrees in *; lra)) as (z & r & Bz & Ez & Fz & Az). destruct (STEP d' q' Bd' Eq' ltac:(unfold degrees in *; lra)) as (z' & r' & Bz' & Ez' & Fz' & Az').
  exists c, z, z', r, r'. split; [exact E1|]. split; [exact Bz|]. split; [exact Bz'|]. split; [exact Ez|]. split; [exact Ez'|].
  apply Rabs_le_inv in Az. apply Rabs_le_inv in Az'.
  split; [exact Fz|]. split; [unfold degrees in *; lra|]. split; [exact Fz'|unfold degrees in *; lra].
Qed.

(** C91 at 45 degrees north on 2000 January 1: the binary64 program sees day and
    night within one day and a second. *)
Example C91_example_pf : forall lm, good_libm lm -> forall p, exists c z z' r r',
  sun_new (A := b64A lm) p (parF lm (MkDate 2000 1 1) 12 0 (Flit 0 0) (Flit 0 0) (Flit 45 0) (Flit 0 0)) = Val c /\
  (0 <= z <= 86401)%Z /\ (0 <= z' <= 86401)%Z /\ sun_compute (A := b64A lm) c (FofZ z) = Val r /\ sun_compute (A := b64A lm) c (FofZ z') = Val r' /\
  B2R (sr_sza (A := b64A lm) r) < degrees 90 < B2R (sr_sza (A := b64A lm) r').
Proof.
  intros lm G p. destruct L_ArithF.lit_0 as [E0 F0].
  assert (E45 : B2R (Flit 45 0) = 45 /\ is_finite (Flit 45 0) = true) by L_ArithF.flit_prove. destruct E45 as [E45 F45].
  assert (U : usual_inputs (MkDate 2000 1 1) 12 0 (Flit 0 0) (Flit 0 0) (Flit 45 0) (Flit 0 0) (Flit 0 0)).
  { unfold usual_inputs. cbn [year]. rewrite !E0, ?E45. repeat match goal with |- _ /\ _ => split end; try assumption; try lia; try lra; try (apply Rabs_le; lra). reflexivity. }
  destruct (C91_day_night_b64_pf lm G p _ _ _ _ _ _ _ _ U) as (c & z & z' & r & r' & T1 & T2 & T3 & T4 & T5 & _ & T6 & _ & T7); [rewrite E0; lra|rewrite E45; lra|].
  rewrite E0 in T2, T3. exists c, z, z', r, r'. split; [exact T1|]. split; [split; apply le_IZR; lra|]. split; [split; apply le_IZR; lra|]. split; [exact T4|]. split; [exact T5|].
  unfold degrees in *. pose proof PI_RGT_0. lra.
Qed.
