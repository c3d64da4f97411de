(** * The Sun crosses the horizon once in each half of the day *)

From Coq Require Import ZArith Reals Lra Lia Bool List Psatz.
From Flocq Require Import Core.
From Verif Require Import Outcome Arith ArithR M_Common M_Time M_Ellipsoid M_Frames M_Earth Spec_Matrix Spec_Frames Spec_Series Spec_C2t Spec_Sun Spec_Orbit Spec_Almanac.
From Verif Require L_PPole.
From Verif Require Import L_ArithR L_Matrix L_PMatrix L_Frames L_Near L_Pi L_Fro L_PFrames L_Series L_PSeries L_Kepler L_Orbit L_POrbit L_Angle L_Almanac L_AlmanacSun L_AlmanacSky L_PAlmanac L_PSmooth L_PNoon L_PDaylight.
Import ListNotations.
Open Scope R_scope.

(** The Sun seen from the rotating Earth at [n] days of Universal Time. *)
Definition sun (D n : R) : vec3 realA := sunv (tcent D n) (eran n) xpole ypole.

Lemma pole_small : Rabs xpole + Rabs ypole <= arcsec 0.52.
Proof. unfold xpole, ypole. rewrite !arcsec_abs, !Rabs_pos_eq by lra. unfold arcsec. pose proof PI_RGT_0. lra. Qed.

Lemma sun_near : forall D n, -2 <= D <= 40 -> Rabs n <= 36524 -> exists r, 0.983 <= r <= 1.0171 /\ nrm (sub (sun D n) (scl r (alm_dir n))) <= 0.00248 * r.
Proof.
  intros D n HD Hn. pose proof (tcent_small D n HD Hn) as Ht. set (t := tcent D n) in *.
  assert (E : 36525 * t - n = (D + 32.184) / 86400) by (unfold t, tcent; field).
  assert (B : 30 <= 86400 * (36525 * t - n) <= 73) by (rewrite E; lra).
  assert (Y : years (day (36525 * t)) = 100 * t) by (rewrite years_day; lra).
  destruct (C82_kepler_pf (day (36525 * t))) as (e & u & Ed & K & P); [rewrite Y; apply Rabs_le_inv in Ht; apply Rabs_le; lra|]. rewrite Y in K.
  rewrite earth_pos_vel_val in Ed. assert (Ee : e = epv_val realA (day (36525 * t))) by congruence. subst e. fold (place (36525 * t)) in P.
  pose proof (gmst_near t n Ht B) as G. fold (eran n) in G.
  pose proof (sun_terrestrial t n u (place (36525 * t)) (eran n) xpole ypole Ht B K P G pole_small) as S. cbv zeta in S.
  exists (rad_of (mean_anomaly (100 * t))). split; [apply rad_range|]. exact S.
Qed.

Lemma sprod_le : forall z v, nrm z = 1 -> Rabs (sprod z v) <= nrm v.
Proof.
  intros z v Hz. pose proof (cauchy z v) as CS. rewrite <- !nrm_sq, Hz in CS. pose proof (nrm_pos v). apply L_Fro.abs_le_sq; lra.
Qed.

(** Zenith of a place given in degrees, and the point of the equator 90 degrees east. *)
Definition zen (la lo : R) : vec3 realA := zenith_of (MkG360 (A := realA) lo la 0).
Lemma zen_unit : forall la lo, nrm (zen la lo) = 1.
Proof.
  intros la lo. unfold zen, zenith_of. cbn [lat lon]. set (a := degrees la). set (b := degrees lo). apply nrm_unit.
  pose proof (sin2_cos2 a) as A. pose proof (sin2_cos2 b) as B. unfold Rsqr in A, B.
  transitivity (cos a * cos a * (sin b * sin b + cos b * cos b) + sin a * sin a); [ring|]. rewrite B. lra.
Qed.

Lemma cross_east : forall la lo v, coord (zen la lo) I0 * coord v I1 - coord (zen la lo) I1 * coord v I0 = cos (degrees la) * sprod (zen 0 (lo + 90)) v.
Proof.
  intros la lo [a b c]. unfold zen, zenith_of, sprod, coord. cbn [vget v0 v1 v2 lat lon].
  replace (degrees (lo + 90)) with (PI / 2 + degrees lo) by (unfold degrees; lra). replace (degrees 0) with 0 by (unfold degrees; ring). rewrite cos_0, sin_0.
  rewrite (cos_plus (PI / 2)), (sin_plus (PI / 2)), cos_PI2, sin_PI2. change (num realA) with R in *. ring.
Qed.

Lemma trig_65 : forall f d, Rabs f <= degrees 65 -> Rabs d <= degrees 23.454 -> 0.0178 <= cos f * cos f - sin d * sin d /\ sin d * sin d <= 0.1606.
Proof.
  intros f d Hf Hd. pose proof PI_bounds as PB.
  assert (A : 0.4224 <= cos f).
  { assert (C : cos (Rabs f) = cos f) by (unfold Rabs; destruct (Rcase_abs f); [apply cos_neg|reflexivity]). rewrite <- C. set (y := Rabs f) in *. assert (Y : 0 <= y) by apply Rabs_pos. clearbody y.
    assert (L : sin (degrees 25) <= cos y) by (rewrite <- (sin_shift y); unfold degrees in *; apply sin_incr_1; lra).
    eapply Rle_trans; [|exact L]. set (z := degrees 25). assert (Z : 0.43633 <= z <= 0.43634) by (unfold z, degrees; lra). clearbody z.
    pose proof (sin_taylor3 z ltac:(rewrite Rabs_pos_eq; lra)) as T. rewrite (Rabs_pos_eq z) in T by lra. apply Rabs_le_inv in T.
    assert (z ^ 3 <= 0.43634 ^ 3) by (apply pow_incr; lra). lra. }
  assert (B : 0.9162 <= cos d).
  { assert (X : -0.40935 <= d <= 0.40935) by (apply Rabs_le_inv in Hd; unfold degrees in Hd; lra). destruct (cos_taylor4 d ltac:(apply Rabs_le; lra)) as [T _].
    assert (d * d <= 0.40935 * 0.40935) by nra. lra. }
  pose proof (sin2_cos2 d) as S. unfold Rsqr in S. set (x := cos f) in *. set (y := cos d) in *. set (s := sin d) in *. clearbody x y s.
  assert (0.4224 * 0.4224 <= x * x) by nra. assert (0.9162 * 0.9162 <= y * y) by nra. split; lra.
Qed.

Lemma sin_443 : forall x, Rabs x <= 4.43 -> Rabs (sin (degrees x)) <= 0.0774.
Proof.
  intros x Hx. pose proof PI_bounds as PB. eapply Rle_trans; [apply L_Epv.sin_abs_le|]. unfold degrees. apply Rabs_le_inv in Hx. apply Rabs_le. split; nra.
Qed.

(** In the hours before noon ([g] = 1) the hour angle lies in the eastern half up to
    the equation of time; in those after noon ([g] = -1) in the western half. *)
Lemma half_day : forall g x q (j : Z), (g = 1 \/ g = -1) -> 0 <= g * x <= 180 -> Rabs q <= 4.43 -> g * sin (degrees (IZR j * 360 - x + q)) <= 0.0774.
Proof.
  intros g x q j Hg Hx Hq. pose proof PI_bounds as PB.
  replace (degrees (IZR j * 360 - x + q)) with (degrees (q - x) + IZR j * (2 * PI)) by (unfold degrees; lra). destruct (L_ApxMod.trig_turns (degrees (q - x)) j) as [_ ->].
  apply Rabs_le_inv in Hq.
  destruct Hg as [-> | ->].
  - destruct (Rle_lt_dec (q - x) 0) as [C|C].
    + destruct (Rle_lt_dec (-180) (q - x)) as [C'|C'].
      * assert (S : 0 <= sin (- degrees (q - x))) by (apply sin_ge_0; unfold degrees; nra). rewrite sin_neg in S. lra.
      * pose proof (sin_443 (q - x + 180) ltac:(apply Rabs_le; lra)) as S. replace (degrees (q - x + 180)) with (degrees (q - x) + PI) in S by (unfold degrees; lra). rewrite neg_sin in S. apply Rabs_le_inv in S. lra.
    + pose proof (sin_443 (q - x) ltac:(apply Rabs_le; lra)) as S. apply Rabs_le_inv in S. lra.
  - destruct (Rle_lt_dec 0 (q - x)) as [C|C].
    + destruct (Rle_lt_dec (q - x) 180) as [C'|C'].
      * assert (S : 0 <= sin (degrees (q - x))) by (apply sin_ge_0; unfold degrees; nra). lra.
      * pose proof (sin_443 (q - x - 180) ltac:(apply Rabs_le; lra)) as S. replace (degrees (q - x)) with (degrees (q - x - 180) + PI) by (unfold degrees; lra). rewrite neg_sin. apply Rabs_le_inv in S. lra.
    + pose proof (sin_443 (q - x) ltac:(apply Rabs_le; lra)) as S. apply Rabs_le_inv in S. lra.
Qed.

(** Near the horizon the Sun of the morning is well in the east, the Sun of the
    afternoon well in the west. *)
Lemma east : forall D n la lo g x (j : Z), -2 <= D <= 40 -> Rabs n <= 36524 -> -65 <= la <= 65 -> (g = 1 \/ g = -1) -> 0 <= g * x <= 180 -> 360 * n + lo = IZR j * 360 - x ->
  Rabs (sprod (zen la lo) (sun D n)) <= 0.0035 ->
  0.1056 <= g * (coord (zen la lo) I0 * coord (sun D n) I1 - coord (zen la lo) I1 * coord (sun D n) I0).
Proof.
  intros D n la lo g x j HD Hn Hl Hg Hx Ex Hh. rewrite cross_east. destruct (sun_near D n HD Hn) as (r & Hr & Hd). set (S := sun D n) in *. clearbody S.
  assert (SC : forall la lo, Rabs (sprod (zen la lo) S - r * alm_cos_zenith n la lo) <= 0.00248 * r).
  { intros a o. eapply Rle_trans; [|exact Hd]. pose proof (alm_dir_zenith n (MkG360 (A := realA) o a 0)) as AZ. fold (zen a o) in AZ. cbn [lat lon] in AZ. rewrite <- AZ.
    replace (sprod (zen a o) S - r * sprod (zen a o) (alm_dir n)) with (sprod (zen a o) (sub S (scl r (alm_dir n)))); [apply sprod_le, zen_unit|].
    generalize (zen a o) (alm_dir n). intros [? ? ?] [? ? ?]. destruct S. unfold scl. vec_calc. ring. }
  pose proof (SC la lo) as S1. pose proof (SC 0 (lo + 90)) as S2. clear SC Hd. rewrite (hour_angle n _ _ Hn) in S1. rewrite (hour_angle n _ _ Hn) in S2.
  pose proof (decl_small n Hn) as DS. pose proof (eqt_small n Hn) as ES. set (d := decl n) in *. set (q := eqt n) in *. clearbody d q.
  replace (360 * n + (lo + 90) + q) with (360 * n + lo + q + 90) in S2 by ring.
  replace (degrees (360 * n + lo + q + 90)) with (PI / 2 + degrees (360 * n + lo + q)) in S2 by (unfold degrees; lra).
  rewrite (cos_plus (PI / 2)), cos_PI2, sin_PI2 in S2. replace (degrees 0) with 0 in S2 by (unfold degrees; ring). rewrite sin_0, cos_0 in S2.
  replace (360 * n + lo + q) with (IZR j * 360 - x + q) in S1, S2 by lra.
  pose proof (half_day g x q j Hg Hx ES) as HS. pose proof (sin2_cos2 (degrees (IZR j * 360 - x + q))) as HH. unfold Rsqr in HH.
  assert (PP : 0 < PI / 180) by (pose proof PI_RGT_0; lra).
  assert (F1 : Rabs (degrees la) <= degrees 65) by (unfold degrees; apply Rabs_le; split; nra).
  assert (F2 : Rabs (degrees d) <= degrees 23.454) by (apply Rabs_le_inv in DS; unfold degrees; apply Rabs_le; split; nra).
  destruct (trig_65 _ _ F1 F2) as [TR TS].
  assert (CF : 0 <= cos (degrees la)) by (apply cos_ge_0; pose proof PI_RGT_0; apply Rabs_le_inv in F1; unfold degrees in *; lra).
  assert (CD : 0 <= cos (degrees d)) by (apply cos_ge_0; pose proof PI_RGT_0; apply Rabs_le_inv in F2; unfold degrees in *; lra).
  pose proof (COS_bound (degrees la)) as BF. pose proof (COS_bound (degrees d)) as BD. pose proof (sin2_cos2 (degrees la)) as FF. pose proof (sin2_cos2 (degrees d)) as DD. unfold Rsqr in FF, DD.
  set (h := sprod (zen la lo) S) in *. set (e := sprod (zen 0 (lo + 90)) S) in *. clearbody h e.
  set (sf := sin (degrees la)) in *. set (cf := cos (degrees la)) in *. set (sd := sin (degrees d)) in *. set (cd := cos (degrees d)) in *.
  set (sh := sin (degrees (IZR j * 360 - x + q))) in *. set (ch := cos (degrees (IZR j * 360 - x + q))) in *. clearbody sf cf sd cd sh ch. clear F1 F2 DS ES Hx Ex PP Hl Hn HD x j la lo n D d q.
  set (Q := sf * sd + cf * cd * ch) in *.
  assert (QB : -0.0061 <= Q <= 0.0061).
  { apply Rabs_le_inv in S1. apply Rabs_le_inv in Hh. assert (-0.0061 * r <= r * Q <= 0.0061 * r) by lra. clearbody Q. split; nra. }
  set (Y := cf * cd * sh).
  assert (YY : Y * Y = cf * cf - sd * sd + 2 * Q * (sf * sd) - Q * Q).
  { unfold Y, Q. transitivity (cf * cf * (cd * cd) * (sh * sh)); [ring|]. replace (sh * sh) with (1 - ch * ch) by lra. replace (cd * cd) with (1 - sd * sd) by lra.
    transitivity (cf * cf - cf * cf * (sd * sd) - cf * cf * (1 - sd * sd) * (ch * ch)); [ring|]. replace (1 - sd * sd) with (cd * cd) by lra.
    transitivity (cf * cf - sd * sd + (sf * sd) * (sf * sd) - cf * cf * (cd * cd) * (ch * ch)); [|ring].
    replace (cf * cf - cf * cf * (sd * sd)) with (cf * cf - sd * sd + sf * sf * (sd * sd)) by (replace (sf * sf) with (1 - cf * cf) by lra; ring). ring. }
  assert (SD : sd * sd <= 0.1606 /\ 0 <= sf * sf <= 1) by (split; [exact TS|]; split; nra).
  assert (PS : -0.401 <= sf * sd <= 0.401).
  { destruct SD as [SD SF]. assert (P2 : (sf * sd) * (sf * sd) <= 0.401 * 0.401) by (replace ((sf * sd) * (sf * sd)) with (sf * sf * (sd * sd)) by ring; set (a := sf * sf) in *; set (b := sd * sd) in *; assert (0 <= b) by (unfold b; nra); clearbody a b; nra).
    set (a := sf * sd) in *. clearbody a. split; nra. }
  assert (Y2 : 0.0121 <= Y * Y) by (rewrite YY; clear - TR QB PS; set (a := sf * sd) in *; clearbody a; clearbody Q; assert (Q * Q <= 0.00004) by nra; assert (-0.0025 <= Q * a) by nra; lra).
  assert (U : 0 <= cf * cd <= 1) by (clear - CF CD BF BD; split; nra).
  assert (GY : g * Y <= -0.11).
  { assert (GL : g * Y <= 0.0774) by (unfold Y; replace (g * (cf * cd * sh)) with ((cf * cd) * (g * sh)) by ring; set (u := cf * cd) in *; set (v := g * sh) in *; clearbody u v; nra).
    assert (G2 : (g * Y) * (g * Y) = Y * Y) by (destruct Hg as [-> | ->]; ring). set (w := g * Y) in *. clearbody w. clear - GL G2 Y2. nra. }
  assert (SE : Rabs (cf * e + r * Y) <= 0.00248 * r).
  { replace (cf * e + r * Y) with (cf * (e - r * (0 * sd + 1 * cd * (0 * ch - 1 * sh)))) by (unfold Y; ring). rewrite Rabs_mult, (Rabs_pos_eq cf CF).
    revert S2. set (w := Rabs _). intros S2. assert (0 <= w) by apply Rabs_pos. clearbody w. apply Rle_trans with (1 * w); [apply Rmult_le_compat_r; lra|lra]. }
  apply Rabs_le_inv in SE. clear - SE GY Hg Hr. clearbody Y. destruct Hg as [-> | ->]; nra.
Qed.

Lemma chord_step : forall z a b c e, let u := V3 (A := realA) a b c in
  sprod z (sub (col (R3 e) u) u) = (cos e - 1) * (coord z I0 * a + coord z I1 * b) + sin e * (coord z I0 * b - coord z I1 * a).
Proof. intros [x y w] a b c e u. unfold u. rewrite col_R3. vec_calc. ring. Qed.

Lemma sun_size : forall D n, -2 <= D <= 40 -> Rabs n <= 36524 -> nrm (sun D n) <= 1.04.
Proof. intros D n HD Hn. unfold sun. pose proof (tcent_small D n HD Hn) as Ht. rewrite sunv_nrm by exact Ht. apply place_size, Ht. Qed.

Lemma sun_move : forall D n n', -2 <= D <= 40 -> Rabs n <= 36524 -> Rabs n' <= 36524 -> nrm (sub (sun D n') (sun D n)) <= 6.6 * Rabs (n' - n).
Proof.
  intros D n n' HD Hn Hn'. pose proof (tcent_small D n HD Hn) as Ht. pose proof (tcent_small D n' HD Hn') as Ht'. pose proof PI_bounds as PB. unfold sun.
  eapply Rle_trans; [apply sunv_dist; assumption|]. pose proof (place_size _ Ht) as PS. set (r := nrm _) in *. clearbody r.
  replace (tcent D n' - tcent D n) with ((n' - n) * / 36525) by (unfold tcent; field).
  replace (eran n' - eran n) with (2 * PI * 1.00273781191135448 * (n' - n)) by (unfold eran; ring).
  rewrite !Rabs_mult, !(Rabs_pos_eq 2), (Rabs_pos_eq PI), (Rabs_pos_eq (/ 36525)), (Rabs_pos_eq 1.00273781191135448) by lra.
  pose proof (Rabs_pos (n' - n)) as P. set (h := Rabs (n' - n)) in *. clearbody h.
  assert (2 * PI * 1.00273781191135448 * h + 67 * (h * / 36525) <= 6.31 * h) by nra. 
  assert (0 <= 2 * PI * 1.00273781191135448 * h + 67 * (h * / 36525)) by nra. set (w := _ + 67 * _) in *. clearbody w. nra.
Qed.

(** The Sun after a small turn of the Earth. *)
Lemma turn_step : forall D n la lo g s kap, -2 <= D <= 40 -> Rabs n <= 36524 -> (g = 1 \/ g = -1) -> 0 <= s <= 30 / 86400 -> Rabs (n + g * s) <= 36524 ->
  0.001 <= kap <= g * (coord (zen la lo) I0 * coord (sun D n) I1 - coord (zen la lo) I1 * coord (sun D n) I0) ->
  let h := fun n => sprod (zen la lo) (sun D n) in h n + (6.29 * kap - 0.02 - 42 * s) * s <= h (n + g * s).
Proof.
  intros D n la lo g s kap HD Hn Hg Hs Hn' E h. destruct E as [KP E].
  assert (GS : Rabs (g * s) = s) by (destruct Hg as [-> | ->]; [rewrite Rmult_1_l|replace (-1 * s) with (- s) by ring; rewrite Rabs_Ropp]; apply Rabs_pos_eq; lra).
  assert (SL : forall v w, sprod (zen la lo) (sub v w) = sprod (zen la lo) v - sprod (zen la lo) w) by (intros [? ? ?] [? ? ?]; generalize (zen la lo); intros [? ? ?]; vec_calc; ring).
  pose proof (tcent_small D n HD Hn) as Ht. pose proof (tcent_small D _ HD Hn') as Ht'. set (n' := n + g * s) in *. pose proof PI_bounds as PB.
  assert (EN : n' - n = g * s) by (unfold n'; ring). clearbody n'.
  set (T := sunv (tcent D n) (eran n') xpole ypole).
  assert (D1 : nrm (sub (sun D n') T) <= 0.0196 * s).
  { unfold sun, T. eapply Rle_trans; [apply sunv_dist; assumption|]. pose proof (place_size _ Ht) as PS. set (r := nrm _) in *. clearbody r.
    replace (tcent D n' - tcent D n) with (g * s * / 36525) by (rewrite <- EN; unfold tcent; field). rewrite (Rminus_diag_eq (eran n') (eran n')), Rabs_R0 by reflexivity.
    rewrite Rabs_mult, GS, (Rabs_pos_eq (/ 36525)) by lra. nra. }
  assert (DE : eran n' - eran n = g * (6.30038737675 * s) + g * s * (2 * PI * 1.00273781191135448 - 6.30038737675)).
  { unfold eran. replace n' with (n + g * s) by lra. ring. }
  set (de := eran n' - eran n) in *.
  assert (GD : 6.3003 * s <= g * de <= 6.3004 * s).
  { rewrite DE. replace (g * (g * (6.30038737675 * s) + g * s * (2 * PI * 1.00273781191135448 - 6.30038737675))) with ((g * g) * s * (2 * PI * 1.00273781191135448)) by ring.
    replace (g * g) with 1 by (destruct Hg as [-> | ->]; ring). split; nra. }
  set (v := col (C2I (tcent D n)) (scl (-1) (place (36525 * tcent D n)))). set (u := col (R3 (eran n)) v).
  assert (ES : sun D n = col (W_matrix xpole ypole 0) u) by (unfold sun, sunv, C2T, u, v; rewrite product_3, !col_mm; reflexivity).
  assert (ET : T = col (W_matrix xpole ypole 0) (col (R3 de) u)).
  { unfold T, sunv, C2T, u, v. rewrite product_3, !col_mm. f_equal. rewrite <- (col_mm (R3 de)). unfold R3. rewrite mm_rot. f_equal. f_equal. unfold de. ring. }
  assert (NU : nrm u <= 1.04) by (rewrite <- (col_nrm (W_matrix xpole ypole 0) u (W_proper _ _)), <- ES; apply sun_size; assumption).
  assert (AS : Rabs xpole + Rabs ypole <= 0.0000026) by (eapply Rle_trans; [apply pole_small|]; unfold arcsec; lra).
  assert (CN : forall y, nrm (sub (col (W_matrix xpole ypole 0) y) y) <= 0.0000026 * nrm y).
  { intros y. eapply Rle_trans; [apply col_near; [apply W_proper|apply W_near]|]. apply Rmult_le_compat_r; [apply nrm_pos|exact AS]. }
  set (y := sub (col (R3 de) u) u).
  assert (NY : nrm y <= 6.3004 * s * 1.04).
  { unfold y. eapply Rle_trans; [apply col_near; [unfold R3; apply rot3_proper|unfold R3; apply near_rot]|]. assert (Rabs de <= 6.3004 * s) by (apply Rabs_le; destruct Hg as [-> | ->]; lra).
    apply Rmult_le_compat; [apply Rabs_pos|apply nrm_pos|assumption|assumption]. }
  assert (ETS : sub T (sun D n) = col (W_matrix xpole ypole 0) y) by (rewrite ET, ES; unfold y; rewrite col_sub; reflexivity).
  assert (SP : forall v, Rabs (sprod (zen la lo) v) <= nrm v) by (intros; apply sprod_le, zen_unit).
  assert (H1 : h n' - h n = sprod (zen la lo) (sub (sun D n') T) + sprod (zen la lo) (sub (col (W_matrix xpole ypole 0) y) y) + sprod (zen la lo) y).
  { rewrite (SL _ y), <- ETS, !SL. unfold h. ring. }
  pose proof (SP (sub (sun D n') T)) as P1. pose proof (SP (sub (col (W_matrix xpole ypole 0) y) y)) as P2. pose proof (CN y) as P3.
  assert (EU : kap - 0.000003 <= g * (coord (zen la lo) I0 * coord u I1 - coord (zen la lo) I1 * coord u I0)).
  { revert E. rewrite !cross_east. intros E. pose proof (sprod_le (zen 0 (lo + 90)) (sub (sun D n) u) (zen_unit _ _)) as Q. pose proof (CN u) as P4. rewrite <- ES in P4.
    assert (QL : sprod (zen 0 (lo + 90)) (sub (sun D n) u) = sprod (zen 0 (lo + 90)) (sun D n) - sprod (zen 0 (lo + 90)) u) by (generalize (zen 0 (lo + 90)); intros [? ? ?]; destruct (sun D n), u; vec_calc; ring).
    rewrite QL in Q. pose proof (COS_bound (degrees la)) as CB. set (k := cos (degrees la)) in *. set (p := sprod _ (sun D n)) in *. set (p' := sprod _ u) in *.
    assert (QB : - (0.000003) <= p - p' <= 0.000003) by (apply Rabs_le_inv; eapply Rle_trans; [exact Q|]; eapply Rle_trans; [exact P4|]; lra). clearbody k p p'. clear - E QB CB Hg. destruct Hg as [-> | ->]; nra. }
  pose proof (SP u) as P5. assert (PC : y = sub (col (R3 de) (V3 (A := realA) (coord u I0) (coord u I1) (coord u I2))) (V3 (A := realA) (coord u I0) (coord u I1) (coord u I2))) by (unfold y; destruct u; reflexivity).
  pose proof (chord_step (zen la lo) (coord u I0) (coord u I1) (coord u I2) de) as CS. cbv zeta in CS. rewrite <- PC in CS.
  set (X := coord (zen la lo) I0 * coord u I0 + coord (zen la lo) I1 * coord u I1) in *. set (Y := coord (zen la lo) I0 * coord u I1 - coord (zen la lo) I1 * coord u I0) in *.
  assert (XB : -2.08 <= X <= 2.08).
  { assert (XE : X = sprod (zen la lo) u - coord (zen la lo) I2 * coord u I2) by (unfold X, sprod; ring).
    assert (ZC : Rabs (coord (zen la lo) I2) <= 1) by (unfold zen, zenith_of, coord; cbn [vget v0 v1 v2]; apply L_SeriesR.sin_abs).
    assert (UC : Rabs (coord u I2) <= 1.04).
    { eapply Rle_trans; [|exact NU]. apply L_Fro.abs_le_sq; [apply nrm_pos|]. rewrite nrm_sq. unfold sprod. pose proof (Rle_0_sqr (coord u I0)). pose proof (Rle_0_sqr (coord u I1)). unfold Rsqr in *. lra. }
    pose proof (L_PPole.mulb _ _ _ _ ZC UC) as M. rewrite XE. apply Rabs_le_inv in M. apply Rabs_le_inv in P5. lra. }
  clearbody X Y. set (hn' := h n') in *. set (hn := h n) in *. clearbody hn' hn. set (sy := sprod (zen la lo) y) in *. clearbody sy.
  set (q1 := sprod _ _) in H1, P1. set (q2 := sprod _ _) in H1, P2. set (n1 := nrm _) in D1, P1. set (n2 := nrm _) in P2, P3. set (ny := nrm y) in *. clearbody q1 q2 n1 n2 ny.
  clear - H1 P1 P2 P3 D1 NY CS EU XB GD Hg Hs KP. apply Rabs_le_inv in P1. apply Rabs_le_inv in P2.
  assert (TG : cos de = cos (g * de) /\ sin de = g * sin (g * de)).
  { destruct Hg as [-> | ->]; [rewrite Rmult_1_l; split; [reflexivity|ring]|]. replace (-1 * de) with (- de) by ring. rewrite cos_neg, sin_neg. split; [reflexivity|ring]. }
  destruct TG as [TC TSn]. rewrite TC, TSn in CS. set (d := g * de) in *. clearbody d.
  assert (DB : 0 <= d <= 0.00219) by lra.
  destruct (cos_taylor4 d ltac:(rewrite Rabs_pos_eq; lra)) as [C4 _]. pose proof (COS_bound d) as CB.
  pose proof (sin_taylor3 d ltac:(rewrite Rabs_pos_eq; lra)) as S3. rewrite (Rabs_pos_eq d) in S3 by lra. apply Rabs_le_inv in S3.
  assert (S4 : 0.9999 * d <= sin d) by (assert (d ^ 3 <= 0.0001 * d) by (cbn [pow]; nra); lra).
  assert (K1 : - (1.04 * (d * d)) <= (cos d - 1) * X) by (assert (0 <= 1 - cos d <= d * d / 2) by (split; nra); set (w := 1 - cos d) in *; replace (cos d - 1) with (- w) by (unfold w; ring); clearbody w; clear - H XB; nra).
  assert (K2 : 0.9999 * d * (kap - 0.000003) <= g * sin d * Y).
  { replace (g * sin d * Y) with (sin d * (g * Y)) by ring. set (w := g * Y) in *. clearbody w. set (t := sin d) in *. clearbody t. clear - S4 EU DB KP. apply Rmult_le_compat; nra. }
  assert (K3 : d * d <= 39.7 * (s * s)) by (assert (0 <= s) by lra; nra).
  assert (K4 : 6.2996 * s * (kap - 0.000003) <= 0.9999 * d * (kap - 0.000003)) by (apply Rmult_le_compat_r; lra).
  assert (K5 : 6.29 * kap * s - 0.0001 * s <= 6.2996 * s * (kap - 0.000003)) by (assert (0 <= s * kap) by (apply Rmult_le_pos; lra); lra).
  replace ((6.29 * kap - 0.02 - 42 * s) * s) with (6.29 * kap * s - 0.02 * s - 42 * (s * s)) by ring. assert (0 <= s * s) by nra. lra.
Qed.

(** One step towards noon. *)
Lemma rise_step : forall D n la lo g x (j : Z) s, -2 <= D <= 40 -> Rabs n <= 36524 -> -65 <= la <= 65 -> (g = 1 \/ g = -1) -> 0 <= g * x <= 180 -> 360 * n + lo = IZR j * 360 - x ->
  0 <= s <= 30 / 86400 -> Rabs (n + g * s) <= 36524 -> let h := fun n => sprod (zen la lo) (sun D n) in
  -0.0035 <= h n -> h n + 0.6 * s <= h (n + g * s) \/ 0.001 <= h (n + g * s).
Proof.
  intros D n la lo g x j s HD Hn Hl Hg Hx Ex Hs Hn' h Hh.
  assert (GS : Rabs (g * s) = s) by (destruct Hg as [-> | ->]; [rewrite Rmult_1_l|replace (-1 * s) with (- s) by ring; rewrite Rabs_Ropp]; apply Rabs_pos_eq; lra).
  assert (SL : forall v w, sprod (zen la lo) (sub v w) = sprod (zen la lo) v - sprod (zen la lo) w) by (intros [? ? ?] [? ? ?]; generalize (zen la lo); intros [? ? ?]; vec_calc; ring).
  destruct (Rle_lt_dec (h n) 0.0035) as [C|C].
  2:{ right. pose proof (sun_move D n (n + g * s) HD Hn Hn') as M. replace (n + g * s - n) with (g * s) in M by ring. rewrite GS in M.
      pose proof (sprod_le (zen la lo) (sub (sun D (n + g * s)) (sun D n)) (zen_unit la lo)) as L. rewrite SL in L. fold (h n) in L. fold (h (n + g * s)) in L. apply Rabs_le_inv in L. lra. }
  left. pose proof (east D n la lo g x j HD Hn Hl Hg Hx Ex ltac:(fold (h n); apply Rabs_le; lra)) as E. clear Ex Hx.
  pose proof (turn_step D n la lo g s 0.1056 HD Hn Hg Hs Hn' ltac:(lra)) as T. cbv beta zeta in T. fold (h n) (h (n + g * s)) in T. nra.
Qed.

(** Towards noon, from at most twelve hours away. *)
Lemma rise_chain : forall D m la lo g (j : Z), -2 <= D <= 40 -> Rabs m <= 36523 -> -65 <= la <= 65 -> (g = 1 \/ g = -1) -> 360 * m + lo = IZR j * 360 ->
  let h := fun n => sprod (zen la lo) (sun D n) in
  forall a b c, 0 <= b <= a -> a <= 0.5 -> -0.0035 <= c -> Rmin c 0.001 <= h (m - g * a) -> Rmin (c + 0.6 * (a - b)) 0.001 <= h (m - g * b).
Proof.
  intros D m la lo g j HD Hm Hl Hg Em h.
  assert (G : forall k a b c, 0 <= b <= a -> a <= 0.5 -> -0.0035 <= c -> a - b <= INR k * (30 / 86400) -> Rmin c 0.001 <= h (m - g * a) -> Rmin (c + 0.6 * (a - b)) 0.001 <= h (m - g * b)).
  { assert (M : forall a, 0 <= a <= 0.5 -> Rabs (m - g * a) <= 36524) by (intros a Ha; apply Rabs_le_inv in Hm; apply Rabs_le; destruct Hg as [-> | ->]; lra).
    assert (ST : forall a s c, 0 <= a - s -> a <= 0.5 -> 0 <= s <= 30 / 86400 -> -0.0035 <= c -> Rmin c 0.001 <= h (m - g * a) -> Rmin (c + 0.6 * s) 0.001 <= h (m - g * (a - s))).
    { intros a s c H0 H1 Hs Hc H. assert (LO : -0.0035 <= h (m - g * a)) by (eapply Rle_trans; [|exact H]; apply Rmin_glb; lra).
      pose proof (rise_step D (m - g * a) la lo g (360 * g * a) j s HD (M a ltac:(lra)) Hl Hg) as R.
      replace (m - g * a + g * s) with (m - g * (a - s)) in R by ring. cbv beta zeta in R. fold (h (m - g * a)) (h (m - g * (a - s))) in R.
      destruct R as [R|R]; [destruct Hg as [-> | ->]; lra|lra|exact Hs|apply M; lra|exact LO| |].
      - set (h1 := h (m - g * a)) in *. set (h2 := h (m - g * (a - s))) in *. clearbody h1 h2. clear - R H Hs. unfold Rmin in *. destruct (Rle_dec c 0.001), (Rle_dec (c + 0.6 * s) 0.001); lra.
      - eapply Rle_trans; [apply Rmin_r|exact R]. }
    induction k as [|k IH]; intros a b c Hb Ha Hc Hk H.
    - cbn [INR] in Hk. replace b with (a - 0) by lra. replace (a - (a - 0)) with 0 by ring. apply (ST a 0 c); lra.
    - rewrite S_INR in Hk. destruct (Rle_lt_dec (a - b) (30 / 86400)) as [C|C].
      + replace b with (a - (a - b)) at 2 by ring. apply (ST a (a - b) c); lra.
      + pose proof (ST a (30 / 86400) c ltac:(lra) Ha ltac:(lra) Hc H) as S1.
        pose proof (IH (a - 30 / 86400) b (c + 0.6 * (30 / 86400)) ltac:(lra) ltac:(lra) ltac:(lra) ltac:(lra) S1) as S2.
        replace (c + 0.6 * (a - b)) with (c + 0.6 * (30 / 86400) + 0.6 * (a - 30 / 86400 - b)) by lra. exact S2. }
  intros a b c Hb Ha Hc H. destruct (INR_above ((a - b) / (30 / 86400))) as [k Hk]; [apply Rmult_le_pos; lra|].
  apply (G k); try assumption. apply Rlt_le. replace (a - b) with ((a - b) / (30 / 86400) * (30 / 86400)) by field. apply Rmult_lt_compat_r; lra.
Qed.

Lemma zang_sign : forall la lo D n, -2 <= D <= 40 -> Rabs n <= 36524 -> let z := zang (zen la lo) D n in let h := sprod (zen la lo) (sun D n) in
  0 <= z <= PI /\ cos z * nrm (sun D n) = h /\ 0.96 <= nrm (sun D n) <= 1.04.
Proof.
  intros la lo D n HD Hn z h. pose proof (tcent_small D n HD Hn) as Ht. pose proof (place_size _ Ht) as PS. rewrite <- (sunv_nrm _ (eran n) xpole ypole Ht) in PS. fold (sun D n) in PS.
  unfold z, zang. fold (sun D n). split; [apply acos_bound|]. split; [|exact PS].
  rewrite cos_acos by (apply unit_dot_range; [rewrite zen_unit; lra|lra]). unfold unit_dot. rewrite zen_unit. fold h. field. lra.
Qed.

Lemma cos_half : forall z, 0 <= z <= PI -> (0 < cos z <-> z < PI / 2) /\ (cos z = 0 <-> z = PI / 2) /\ (cos z < 0 <-> PI / 2 < z).
Proof.
  intros z Hz. pose proof PI_RGT_0 as P. destruct (Rtotal_order z (PI / 2)) as [L|[->|L]].
  - pose proof (cos_gt_0 z ltac:(lra) L). lra.
  - rewrite cos_PI2. lra.
  - pose proof (cos_decreasing_1 (PI / 2) z ltac:(lra) ltac:(lra) ltac:(lra) ltac:(lra) L) as C. rewrite cos_PI2 in C. lra.
Qed.

(** One half of the day: there is one moment, at distance [a] from noon, at which the
    Sun is on the horizon; it is up nearer to noon and down further away. *)
Lemma half : forall D m la lo g (j : Z), -2 <= D <= 40 -> Rabs m <= 36523 -> -65 <= la <= 65 -> (g = 1 \/ g = -1) -> 360 * m + lo = IZR j * 360 ->
  zang (zen la lo) D m < PI / 2 -> PI / 2 < zang (zen la lo) D (m - g * 0.5) ->
  let h := fun n => sprod (zen la lo) (sun D n) in
  exists a, 0 < a < 0.5 /\ h (m - g * a) = 0 /\
    (forall b, 0 <= b <= a -> Rmin (0.6 * (a - b)) 0.001 <= h (m - g * b)) /\ (forall b, a <= b <= 0.5 -> h (m - g * b) <= - Rmin (0.6 * (b - a)) 0.001).
Proof.
  intros D m la lo g j HD Hm Hl Hg Em Z0 Z1 h.
  assert (M : forall a, 0 <= a <= 0.5 -> Rabs (m - g * a) <= 36524) by (intros a Ha; apply Rabs_le_inv in Hm; apply Rabs_le; destruct Hg as [-> | ->]; lra).
  destruct (lip_ivt (fun a => zang (zen la lo) D (m - g * a)) 0 0.5 6.3332 (PI / 2) ltac:(lra) ltac:(lra)) with (a := 0) (b := 0.5) as (a & Ba & Ea).
  - intros x y Hx Hy. eapply Rle_trans; [apply zang_lip; [apply zen_unit|exact HD|apply M; exact Hx|apply M; exact Hy]|].
    replace (m - g * x - (m - g * y)) with (g * (y - x)) by ring. rewrite Rabs_mult, (Rabs_minus_sym y x). right. destruct Hg as [-> | ->]; [rewrite Rabs_R1|replace (-1) with (- (1)) by ring; rewrite Rabs_Ropp, Rabs_R1]; ring.
  - lra.
  - lra.
  - replace (m - g * 0) with m by ring. lra.
  - assert (A0 : a <> 0) by (intros ->; replace (m - g * 0) with m in Ea by ring; lra). assert (A1 : a <> 0.5) by (intros ->; lra).
    exists a. split; [lra|]. destruct (zang_sign la lo D (m - g * a) HD (M a Ba)) as (_ & CZ & _). rewrite Ea, cos_PI2, Rmult_0_l in CZ. fold (h (m - g * a)) in CZ. symmetry in CZ.
    split; [exact CZ|]. split.
    + intros b Hb. pose proof (rise_chain D m la lo g j HD Hm Hl Hg Em a b 0 Hb ltac:(lra) ltac:(lra)) as R. cbv beta zeta in R. fold (h (m - g * a)) (h (m - g * b)) in R.
      rewrite Rplus_0_l in R. apply R. rewrite CZ. apply Rmin_l.
    + intros b Hb. apply Rnot_lt_le. intros N. set (c := h (m - g * b)) in *.
      assert (C0 : -0.0035 <= c) by (apply Rlt_le; eapply Rle_lt_trans; [|exact N]; apply Ropp_le_cancel; rewrite Ropp_involutive; eapply Rle_trans; [apply Rmin_r|lra]).
      pose proof (rise_chain D m la lo g j HD Hm Hl Hg Em b a c ltac:(lra) ltac:(lra) C0) as R. cbv beta zeta in R. fold (h (m - g * a)) (h (m - g * b)) in R. fold c in R. rewrite CZ in R.
      specialize (R (Rmin_l _ _)). unfold Rmin in R, N. destruct (Rle_dec (c + 0.6 * (b - a)) 0.001); [|lra]. destruct (Rle_dec (0.6 * (b - a)) 0.001); lra.
Qed.
