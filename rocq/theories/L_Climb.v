(** * The Sun climbs in the morning and sinks in the afternoon *)

From Coq Require Import ZArith Reals Lra Lia Bool List Psatz.
From Flocq Require Import Core.
From Verif Require Import Outcome Arith ArithR M_Common M_Time M_Ellipsoid M_Frames M_Earth Spec_Matrix Spec_Frames Spec_Series Spec_C2t Spec_Sun Spec_Orbit Spec_Almanac.
From Verif Require L_PPole.
From Verif Require Import L_ArithR L_Matrix L_PMatrix L_Frames L_Near L_Pi L_Fro L_PFrames L_Series L_PSeries L_Kepler L_Orbit L_POrbit L_Angle L_Almanac L_AlmanacSun L_AlmanacSky L_PAlmanac L_PSmooth L_PNoon L_PDaylight L_Sunrise.
Open Scope R_scope.

Lemma cos_bounds : forall f d, Rabs f <= degrees 65 -> Rabs d <= degrees 23.454 -> 0.4224 <= cos f /\ 0.9162 <= cos d.
Proof.
  intros f d Hf Hd. pose proof PI_bounds as PB. split.
  - assert (C : cos (Rabs f) = cos f) by (unfold Rabs; destruct (Rcase_abs f); [apply cos_neg|reflexivity]). rewrite <- C. set (y := Rabs f) in *. assert (Y : 0 <= y) by apply Rabs_pos. clearbody y.
    assert (L : sin (degrees 25) <= cos y) by (rewrite <- (sin_shift y); unfold degrees in *; apply sin_incr_1; lra).
    eapply Rle_trans; [|exact L]. set (z := degrees 25). assert (Z : 0.43633 <= z <= 0.43634) by (unfold z, degrees; lra). clearbody z.
    pose proof (sin_taylor3 z ltac:(rewrite Rabs_pos_eq; lra)) as T. rewrite (Rabs_pos_eq z) in T by lra. apply Rabs_le_inv in T.
    assert (z ^ 3 <= 0.43634 ^ 3) by (apply pow_incr; lra). lra.
  - assert (X : -0.40935 <= d <= 0.40935) by (apply Rabs_le_inv in Hd; unfold degrees in Hd; lra). destruct (cos_taylor4 d ltac:(apply Rabs_le; lra)) as [T' _].
    assert (d * d <= 0.40935 * 0.40935) by nra. lra.
Qed.

Lemma sin_307 : forall x, 3.07 <= x <= 176.93 -> 0.0535 <= sin (degrees x).
Proof.
  intros x Hx. pose proof PI_bounds as PB.
  assert (S : 0.0535 <= sin (degrees 3.07)).
  { set (z := degrees 3.07). assert (Z : 0.05358 <= z <= 0.05359) by (unfold z, degrees; lra). clearbody z.
    pose proof (sin_taylor3 z ltac:(rewrite Rabs_pos_eq; lra)) as T. rewrite (Rabs_pos_eq z) in T by lra. apply Rabs_le_inv in T. assert (z ^ 3 <= 0.05359 ^ 3) by (apply pow_incr; lra). lra. }
  eapply Rle_trans; [exact S|]. destruct (Rle_lt_dec x 90) as [C|C].
  - apply sin_incr_1; unfold degrees; nra.
  - replace (degrees x) with (PI - degrees (180 - x)) by (unfold degrees; lra). rewrite sin_PI_x. apply sin_incr_1; unfold degrees; nra.
Qed.

(** From half an hour to eleven and a half hours before ([g] = 1) or after ([g] = -1)
    local mean noon the Sun is well in the east or west. *)
Lemma east_far : forall D n la lo g x (j : Z), -2 <= D <= 40 -> Rabs n <= 36524 -> -65 <= la <= 65 -> (g = 1 \/ g = -1) -> 7.5 <= g * x <= 172.5 -> 360 * n + lo = IZR j * 360 - x ->
  0.0179 <= g * (coord (zen la lo) I0 * coord (sun D n) I1 - coord (zen la lo) I1 * coord (sun D n) I0).
Proof.
  intros D n la lo g x j HD Hn Hl Hg Hx Ex. rewrite cross_east. destruct (sun_near D n HD Hn) as (r & Hr & Hd). set (S := sun D n) in *. clearbody S.
  assert (S2 : Rabs (sprod (zen 0 (lo + 90)) S - r * alm_cos_zenith n 0 (lo + 90)) <= 0.00248 * r).
  { eapply Rle_trans; [|exact Hd]. pose proof (alm_dir_zenith n (MkG360 (A := realA) (lo + 90) 0 0)) as AZ. fold (zen 0 (lo + 90)) in AZ. cbn [lat lon] in AZ. rewrite <- AZ.
    replace (sprod (zen 0 (lo + 90)) S - r * sprod (zen 0 (lo + 90)) (alm_dir n)) with (sprod (zen 0 (lo + 90)) (sub S (scl r (alm_dir n)))); [apply sprod_le, zen_unit|].
    generalize (zen 0 (lo + 90)) (alm_dir n). intros [? ? ?] [? ? ?]. destruct S. unfold scl. vec_calc. ring. }
  clear Hd. rewrite (hour_angle n _ _ Hn) in S2.
  pose proof (decl_small n Hn) as DS. pose proof (eqt_small n Hn) as ES. set (d := decl n) in *. set (q := eqt n) in *. clearbody d q.
  replace (degrees (360 * n + (lo + 90) + q)) with (PI / 2 + degrees (IZR j * 360 - x + q)) in S2 by (unfold degrees; replace (360 * n + (lo + 90) + q) with (IZR j * 360 - x + q + 90) by lra; lra).
  rewrite (cos_plus (PI / 2)), cos_PI2, sin_PI2 in S2. replace (degrees 0) with 0 in S2 by (unfold degrees; ring). rewrite sin_0, cos_0 in S2.
  assert (HS : g * sin (degrees (IZR j * 360 - x + q)) <= -0.0535).
  { replace (degrees (IZR j * 360 - x + q)) with (degrees (q - x) + IZR j * (2 * PI)) by (unfold degrees; lra). destruct (L_ApxMod.trig_turns (degrees (q - x)) j) as [_ ->].
    apply Rabs_le_inv in ES. pose proof (sin_307 (g * (x - q)) ltac:(destruct Hg as [-> | ->]; lra)) as T.
    replace (degrees (q - x)) with (- (degrees (x - q))) by (unfold degrees; ring). rewrite sin_neg.
    destruct Hg as [-> | ->]; [rewrite Rmult_1_l in T; lra|]. replace (degrees (-1 * (x - q))) with (- degrees (x - q)) in T by (unfold degrees; ring). rewrite sin_neg in T. lra. }
  assert (PP : 0 < PI / 180) by (pose proof PI_RGT_0; lra).
  assert (F1 : Rabs (degrees la) <= degrees 65) by (unfold degrees; apply Rabs_le; split; nra).
  assert (F2 : Rabs (degrees d) <= degrees 23.454) by (apply Rabs_le_inv in DS; unfold degrees; apply Rabs_le; split; nra).
  destruct (cos_bounds _ _ F1 F2) as [CF CD]. pose proof (COS_bound (degrees la)) as BF.
  set (e := sprod (zen 0 (lo + 90)) S) in *. set (cf := cos (degrees la)) in *. set (cd := cos (degrees d)) in *. set (sd := sin (degrees d)) in *.
  set (sh := sin (degrees (IZR j * 360 - x + q))) in *. set (ch := cos (degrees (IZR j * 360 - x + q))) in *. clearbody e cf cd sd sh ch. clear F1 F2 DS ES Hx Ex PP Hl Hn HD x j la lo n D d q S.
  set (Y := cf * cd * sh).
  assert (GY : g * Y <= -0.0207).
  { unfold Y. replace (g * (cf * cd * sh)) with ((cf * cd) * (g * sh)) by ring. assert (U : 0.387 <= cf * cd) by nra. set (u := cf * cd) in *. set (v := g * sh) in *. clearbody u v. clear - U HS. nra. }
  assert (SE : Rabs (cf * e + r * Y) <= 0.00248 * r).
  { replace (cf * e + r * Y) with (cf * (e - r * (0 * sd + 1 * cd * (0 * ch - 1 * sh)))) by (unfold Y; ring). rewrite Rabs_mult, (Rabs_pos_eq cf) by lra.
    revert S2. set (w := Rabs _). intros S2. assert (0 <= w) by apply Rabs_pos. clearbody w. apply Rle_trans with (1 * w); [apply Rmult_le_compat_r; lra|lra]. }
  apply Rabs_le_inv in SE. clear - SE GY Hg Hr. clearbody Y. destruct Hg as [-> | ->]; nra.
Qed.

Lemma nrm_diff : forall u v, Rabs (nrm u - nrm v) <= nrm (sub u v).
Proof.
  intros u v. assert (T : forall a b, nrm a <= nrm b + nrm (sub a b)).
  { intros a b. replace a with (addv b (sub a b)) at 1 by (destruct a, b; vec_calc; f_equal; ring). apply nrm_triangle. }
  pose proof (T u v) as A. pose proof (T v u) as B. rewrite (nrm_sym v u) in B. apply Rabs_le. lra.
Qed.

(** The cosine of the zenith angle over one second. *)
Lemma climb_step : forall D n la lo g x (j : Z) s, -2 <= D <= 40 -> Rabs n <= 36524 -> -65 <= la <= 65 -> (g = 1 \/ g = -1) -> 7.5 <= g * x <= 172.5 -> 360 * n + lo = IZR j * 360 - x ->
  0 <= s <= 1 / 86400 -> Rabs (n + g * s) <= 36524 -> cos (zang (zen la lo) D n) + 0.07 * s <= cos (zang (zen la lo) D (n + g * s)).
Proof.
  intros D n la lo g x j s HD Hn Hl Hg Hx Ex Hs Hn'. pose proof (east_far D n la lo g x j HD Hn Hl Hg Hx Ex) as E.
  pose proof (turn_step D n la lo g s 0.0179 HD Hn Hg ltac:(lra) Hn' ltac:(lra)) as T. cbv beta zeta in T.
  destruct (zang_sign la lo D n HD Hn) as (_ & C0 & W0). destruct (zang_sign la lo D (n + g * s) HD Hn') as (_ & C1 & W1).
  assert (DW : Rabs (nrm (sun D (n + g * s)) - nrm (sun D n)) <= 0.0176 * s).
  { pose proof (tcent_small D n HD Hn) as Ht. pose proof (tcent_small D _ HD Hn') as Ht'. unfold sun. rewrite !sunv_nrm by assumption. eapply Rle_trans; [apply nrm_diff|]. eapply Rle_trans; [apply place_lip|].
    - rewrite Rabs_mult, (Rabs_pos_eq 36525) by lra. lra.
    - rewrite Rabs_mult, (Rabs_pos_eq 36525) by lra. lra.
    - replace (36525 * tcent D (n + g * s) - 36525 * tcent D n) with (g * s) by (unfold tcent; field). right. f_equal. destruct Hg as [-> | ->]; [rewrite Rmult_1_l|replace (-1 * s) with (- s) by ring; rewrite Rabs_Ropp]; apply Rabs_pos_eq; lra. }
  rewrite <- C0, <- C1 in T. pose proof (COS_bound (zang (zen la lo) D n)) as B0. set (c := cos (zang (zen la lo) D n)) in *. set (c' := cos (zang (zen la lo) D (n + g * s))) in *.
  set (w := nrm (sun D n)) in *. set (w' := nrm (sun D (n + g * s))) in *. clearbody c c' w w'. clear C0 C1 E Ex Hx Hl Hn Hn' HD Hg. apply Rabs_le_inv in DW.
  assert (K : 0.0919 * s <= (6.29 * 0.0179 - 0.02 - 42 * s) * s) by (apply Rmult_le_compat_r; lra).
  assert (L : c * w' - 0.0176 * s <= c * w).
  { assert (- (0.0176 * s) <= c * (w - w')) by (assert (M : Rabs (c * (w - w')) <= 1 * (0.0176 * s)) by (apply L_PPole.mulb; apply Rabs_le; lra); apply Rabs_le_inv in M; lra). lra. }
  apply Rmult_le_reg_r with w'; [lra|]. assert (0.07 * s * w' <= 0.07 * s * 1.04) by (apply Rmult_le_compat_l; lra). lra.
Qed.

(** From half an hour to eleven and a half hours from noon. *)
Lemma climb : forall D m la lo g (j : Z), -2 <= D <= 40 -> Rabs m <= 36523 -> -65 <= la <= 65 -> (g = 1 \/ g = -1) -> 360 * m + lo = IZR j * 360 ->
  forall a b, 1800 / 86400 <= b <= a -> a <= 41400 / 86400 -> zang (zen la lo) D (m - g * b) <= zang (zen la lo) D (m - g * a) - 0.07 * (a - b).
Proof.
  intros D m la lo g j HD Hm Hl Hg Em.
  assert (M : forall a, 0 <= a <= 0.5 -> Rabs (m - g * a) <= 36524) by (intros a Ha; apply Rabs_le_inv in Hm; apply Rabs_le; destruct Hg as [-> | ->]; lra).
  set (f := fun a => cos (zang (zen la lo) D (m - g * a))).
  assert (ST : forall a s, 1800 / 86400 <= a - s -> a <= 41400 / 86400 -> 0 <= s <= 1 / 86400 -> f a + 0.07 * s <= f (a - s)).
  { intros a s H0 H1 Hs. unfold f. replace (m - g * (a - s)) with (m - g * a + g * s) by ring.
    apply (climb_step D (m - g * a) la lo g (360 * g * a) j s HD (M a ltac:(lra)) Hl Hg); [destruct Hg as [-> | ->]; lra|lra|exact Hs|].
    replace (m - g * a + g * s) with (m - g * (a - s)) by ring. apply M. lra. }
  assert (G : forall k a b, 1800 / 86400 <= b <= a -> a <= 41400 / 86400 -> a - b <= INR k * (1 / 86400) -> f a + 0.07 * (a - b) <= f b).
  { induction k as [|k IH]; intros a b Hb Ha Hk.
    - cbn [INR] in Hk. replace b with a by lra. lra.
    - rewrite S_INR in Hk. destruct (Rle_lt_dec (a - b) (1 / 86400)) as [C|C].
      + replace b with (a - (a - b)) at 2 by ring. apply ST; lra.
      + pose proof (ST a (1 / 86400) ltac:(lra) Ha ltac:(lra)) as S1. pose proof (IH (a - 1 / 86400) b ltac:(lra) ltac:(lra) ltac:(lra)) as S2. lra. }
  intros a b Hb Ha. destruct (INR_above ((a - b) / (1 / 86400))) as [k Hk]; [apply Rmult_le_pos; lra|].
  assert (F : f a + 0.07 * (a - b) <= f b).
  { apply (G k); try assumption. apply Rlt_le. replace (a - b) with ((a - b) / (1 / 86400) * (1 / 86400)) by field. apply Rmult_lt_compat_r; lra. }
  unfold f in F. destruct (zang_sign la lo D (m - g * a) HD (M a ltac:(lra))) as (Z0 & _). destruct (zang_sign la lo D (m - g * b) HD (M b ltac:(lra))) as (Z1 & _).
  set (za := zang _ _ (m - g * a)) in *. set (zb := zang _ _ (m - g * b)) in *. clearbody za zb. pose proof (L_Apx.cos_lip za zb) as L.
  assert (O : zb <= za). { apply Rnot_lt_le. intros N. pose proof (cos_decreasing_1 za zb ltac:(lra) ltac:(lra) ltac:(lra) ltac:(lra) N). lra. }
  rewrite (Rabs_pos_eq (za - zb)) in L by lra. apply Rabs_le_inv in L. lra.
Qed.
