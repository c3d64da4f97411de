(** * Properties: Series

    Statements only; proofs are in L_PSeries.v. *)

From Coq Require Import ZArith Reals Lra Lia Bool List.
From Flocq Require Import Core BinarySingleNaN.
From Verif Require Import Outcome Arith ArithR ArithF M_Common M_Time M_Earth M_Fundargs M_Locator M_Frames.
From Verif Require Import Spec_Float Spec_Matrix Spec_Frames Spec_Series.
Import ListNotations.
Open Scope R_scope.
From Verif Require L_PSeries.

(** C39.  In any arithmetic, for any input, every table access is in bounds:
    the series functions and all that is built on them return. *)
Theorem C39_no_panic : forall A : arith,
  (forall d, exists r, earth_pos_vel (A := A) d = Val r) /\
  (forall d, exists r, nutation (A := A) d = Val r) /\
  (forall d x y, exists r, cio (A := A) d x y = Val r) /\
  (forall d, exists r, precession_nutation (A := A) d = Val r) /\
  (forall d, exists r, celestial_to_intermediate (A := A) d = Val r) /\
  (forall d u xp yp, exists r, celestial_to_terrestrial (A := A) d u xp yp = Val r).
Proof. exact L_PSeries.C39_no_panic_pf. Qed.
Print Assumptions C39_no_panic.

(** One entry further than the table is a panic in the model. *)
Example C39_example : forall A : arith,
  tab_get (A := A) T_Epv00.E0 0 500 0 <> Panic /\ tab_get (A := A) T_Epv00.E0 0 501 0 = Panic.
Proof. exact L_PSeries.C39_example_pf. Qed.

(** C40.  The velocity components are the derivatives of the position
    components with respect to either part of the date, in days. *)
Theorem C40_velocity_is_derivative : exists f : R -> R -> EarthPosVel realA,
  (forall a b, earth_pos_vel (A := realA) (MkTDB (A := realA) a b) = Val (f a b)) /\
  forall a b i,
  let hp a b := coord (pv_p (A := realA) (heliocentric (A := realA) (f a b))) i in
  let hv a b := coord (pv_v (A := realA) (heliocentric (A := realA) (f a b))) i in
  let bp a b := coord (pv_p (A := realA) (barycentric (A := realA) (f a b))) i in
  let bv a b := coord (pv_v (A := realA) (barycentric (A := realA) (f a b))) i in
  derivable_pt_lim (fun x => hp x b) a (hv a b) /\ derivable_pt_lim (fun x => hp a x) b (hv a b) /\
  derivable_pt_lim (fun x => bp x b) a (bv a b) /\ derivable_pt_lim (fun x => bp a x) b (bv a b).
Proof. exact L_PSeries.C40_velocity_is_derivative_pf. Qed.
Print Assumptions C40_velocity_is_derivative.

(** A table with the single term 3 cos(1/2 + 2t). *)
Example C40_example : forall t : R,
  terms0 (A := realA) [[[(3, 0)]]; [[(5, -1)]]; [[(2, 0)]]]%Z 1 0 t (0, 0) =
  Val (3 * cos (1 / 2 + 2 * t), - 6 * sin (1 / 2 + 2 * t)).
Proof. exact L_PSeries.C40_example_pf. Qed.

(** C41.  Exact arithmetic: the warning is set iff the date is 100 Julian years
    or more from J2000.0. *)
Theorem C41_warning_real : forall d, exists r, earth_pos_vel (A := realA) d = Val r /\
  (warning (A := realA) r = Some DateOutOfRange <-> 100 <= Rabs (years d)) /\
  (warning (A := realA) r = None <-> Rabs (years d) < 100).
Proof. exact L_PSeries.C41_warning_real_pf. Qed.
Print Assumptions C41_warning_real.

(** C41.  binary64, any libm: the warning is absent iff the rounded number of
    days since J2000.0 is finite and less than 36525 in absolute value. *)
Theorem C41_warning_b64 : forall lm (d : TDB (b64A lm)),
  let s := Fadd (Fsub (tdb_1 (A := b64A lm) d) (Flit 2451545 0)) (tdb_2 (A := b64A lm) d) in
  exists r, earth_pos_vel (A := b64A lm) d = Val r /\
  (warning (A := b64A lm) r = None <-> fin s = true /\ Rabs (B2R s) < 36525) /\
  (is_nan s = true -> warning (A := b64A lm) r = Some DateOutOfRange).
Proof. exact L_PSeries.C41_warning_b64_pf. Qed.
Print Assumptions C41_warning_b64.

(** C41.  The rounded number of days is NaN when either part of the date is. *)
Theorem C41_warning_nan : forall lm (d : TDB (b64A lm)),
  is_nan (tdb_1 (A := b64A lm) d) = true \/ is_nan (tdb_2 (A := b64A lm) d) = true ->
  exists r, earth_pos_vel (A := b64A lm) d = Val r /\ warning (A := b64A lm) r = Some DateOutOfRange.
Proof. exact L_PSeries.C41_warning_nan_pf. Qed.
Print Assumptions C41_warning_nan.

(** One day inside the limit, and exactly on it, in binary64. *)
Example C41_example : forall lm,
  (exists r, earth_pos_vel (A := b64A lm) (MkTDB (A := b64A lm) (Flit 2451545 0) (Flit 36524 0)) = Val r /\
     warning (A := b64A lm) r = None) /\
  (exists r, earth_pos_vel (A := b64A lm) (MkTDB (A := b64A lm) (Flit 2451545 0) (Flit (-36525) 0)) = Val r /\
     warning (A := b64A lm) r = Some DateOutOfRange).
Proof. exact L_PSeries.C41_example_pf. Qed.

(** C42.  Exact arithmetic: only the total date matters. *)
Theorem C42_total_date :
  (forall a b a' b' : R, a + b = a' + b' ->
     let d := MkTT (A := realA) a b in let d' := MkTT (A := realA) a' b' in
     nutation (A := realA) d = nutation (A := realA) d' /\
     precession_rate (A := realA) d = precession_rate (A := realA) d' /\
     mean_obliquity (A := realA) d = mean_obliquity (A := realA) d' /\
     bias_and_precession (A := realA) d = bias_and_precession (A := realA) d' /\
     precession_nutation (A := realA) d = precession_nutation (A := realA) d' /\
     (forall x y, cio (A := realA) d x y = cio (A := realA) d' x y) /\
     celestial_to_intermediate (A := realA) d = celestial_to_intermediate (A := realA) d') /\
  (forall a b a' b' : R, a + b = a' + b' ->
     earth_pos_vel (A := realA) (MkTDB (A := realA) a b) = earth_pos_vel (A := realA) (MkTDB (A := realA) a' b')).
Proof. exact L_PSeries.C42_total_date_pf. Qed.
Print Assumptions C42_total_date.

(** J2000.0 in three splits. *)
Example C42_example : let d a b := nutation (A := realA) (MkTT (A := realA) a b) in
  d 2451545 0 = d 2400000.5 51544.5 /\ d 2451545 0 = d 0 2451545.
Proof. exact L_PSeries.C42_example_pf. Qed.

(** C43.  Earth-Sun distance, 1900-2100. *)
Theorem C43_distance : forall d, Rabs (years d) <= 100 -> exists r, earth_pos_vel (A := realA) d = Val r /\
  let p := pv_p (A := realA) (heliocentric (A := realA) r) in
  0.96 <= R_sqrt.sqrt (sprod p p) <= 1.04.
Proof. exact L_PSeries.C43_distance_pf. Qed.
Print Assumptions C43_distance.

(** The interval of C43 is 1900 January 0.5 to 2100 January 1.5. *)
Example C43_example : years (MkTDB (A := realA) 2415020 0) = -100 /\ years (MkTDB (A := realA) 2488070 0) = 100 /\
  exists r, earth_pos_vel (A := realA) (MkTDB (A := realA) 2415020 0) = Val r.
Proof. exact L_PSeries.C43_example_pf. Qed.

(** C50.  The fundamental arguments are the IERS polynomials modulo one turn. *)
Theorem C50_congruent_partial : forall t : R,
  same_angle (l03 (A := realA) t) (iers_l t) /\ same_angle (lp03 (A := realA) t) (iers_lp t) /\
  same_angle (f03 (A := realA) t) (iers_f t) /\ same_angle (d03 (A := realA) t) (iers_d t) /\
  same_angle (om03 (A := realA) t) (iers_om t) /\ same_angle (ve03 (A := realA) t) (iers_ve t) /\
  same_angle (e03 (A := realA) t) (iers_e t) /\ pa03 (A := realA) t = iers_pa t.
Proof. exact L_PSeries.C50_congruent_partial_pf. Qed.
Print Assumptions C50_congruent_partial.

(** C50.  They lie within two turns of zero, ve03 and e03 within one. *)
Theorem C50_range_partial : forall t : R,
  Rabs (l03 (A := realA) t) < 2 * (2 * PI) /\ Rabs (lp03 (A := realA) t) < 2 * (2 * PI) /\
  Rabs (f03 (A := realA) t) < 2 * (2 * PI) /\ Rabs (d03 (A := realA) t) < 2 * (2 * PI) /\
  Rabs (om03 (A := realA) t) < 2 * (2 * PI) /\ Rabs (ve03 (A := realA) t) < 2 * PI /\ Rabs (e03 (A := realA) t) < 2 * PI.
Proof. exact L_PSeries.C50_range_partial_pf. Qed.
Print Assumptions C50_range_partial.

(** C50.  The claimed range fails: [%] binds tighter than [+], so the constant
    term is added after the reduction.  Witness: t = 0.00999, lp03. *)
Theorem C50_one_turn_refuted : exists t : R, 2 * PI < lp03 (A := realA) t.
Proof. exact L_PSeries.C50_one_turn_refuted_pf. Qed.
Print Assumptions C50_one_turn_refuted.

(** l03 at t = 0 is 485868.249036 arcseconds. *)
Example C50_example : l03 (A := realA) 0 = arcsec 485868.249036.
Proof. exact L_PSeries.C50_example_pf. Qed.

(** C57.  Exact arithmetic: cio + xy/2 depends on the total date only. *)
Theorem C57_cio : exists S : R -> R, forall a b x y,
  cio (A := realA) (MkTT (A := realA) a b) x y = Val (S (a + b) - x * y / 2).
Proof. exact L_PSeries.C57_cio_pf. Qed.
Print Assumptions C57_cio.

(** Exact arithmetic: the two CIO locators at (1,1) and (1,-1) differ by 1. *)
Example C57_example : forall d, exists s s', cio (A := realA) d 1 1 = Val s /\ cio (A := realA) d 1 (-1) = Val s' /\ s' - s = 1.
Proof. exact L_PSeries.C57_example_pf. Qed.

(** C58.  Nutation within 20 and 11 arcseconds, mean obliquity between 23.4 and
    23.5 degrees, within a century of J2000.0. *)
Theorem C58_magnitudes : forall d, Rabs (centuries d) <= 1 -> exists dpsi deps, nutation (A := realA) d = Val (dpsi, deps) /\
  Rabs dpsi < arcsec 20 /\ Rabs deps < arcsec 11 /\
  23.4 * (PI / 180) < mean_obliquity (A := realA) d < 23.5 * (PI / 180).
Proof. exact L_PSeries.C58_magnitudes_pf. Qed.
Print Assumptions C58_magnitudes.

(** At J2000.0 the mean obliquity is 84381.448 arcseconds. *)
Example C58_example : mean_obliquity (A := realA) (MkTT (A := realA) 2451545 0) = arcsec 84381.448.
Proof. exact L_PSeries.C58_example_pf. Qed.

(** C59.  Positions are the sums over all rows of the tables, turned to ICRF. *)
Theorem C59_position_series : forall d, exists r, earth_pos_vel (A := realA) d = Val r /\
  forall i, coord (pv_p (A := realA) (heliocentric (A := realA) r)) i = icrf (fun k => helio_ecl k (years d)) i /\
            coord (pv_p (A := realA) (barycentric (A := realA) r)) i = icrf (fun k => bary_ecl k (years d)) i.
Proof. exact L_PSeries.C59_position_series_pf. Qed.
Print Assumptions C59_position_series.

(** The leading term of the ecliptic x coordinate, and the numbers of rows. *)
Example C59_example :
  cell T_Epv00.E0 0 0 0 = 0.9998292878132 /\ cell T_Epv00.E0 1 0 0 = 1.753485171504 /\ cell T_Epv00.E0 2 0 0 = 6.283075850446 /\
  length (nth 0 T_Epv00.E0 []) = 501%nat /\ length (nth 0 T_Epv00.S0 []) = 213%nat.
Proof. exact L_PSeries.C59_example_pf. Qed.

(** C60.  Nutation is the IAU 2000B sum over the 77 rows of the tables, with
    Delaunay arguments linear in time; no reduction modulo a turn is needed. *)
Theorem C60_nutation_series : forall d, nutation (A := realA) d = Val (nut_dpsi (centuries d), nut_deps (centuries d)).
Proof. exact L_PSeries.C60_nutation_series_pf. Qed.
Print Assumptions C60_nutation_series.

(** The leading term of nutation is -17.2064161 arcseconds times sin Omega. *)
Example C60_example : length T_Nut.NALS = 77%nat /\ nth 0 T_Nut.NALS [] = [0; 0; 0; 0; 1]%Z /\
  nut_coef 0 0 / 10000000 = -17.2064161.
Proof. exact L_PSeries.C60_example_pf. Qed.

(** C61.  The CIO locator is the IERS 2003 series. *)
Theorem C61_cio_series : forall d x y, cio (A := realA) d x y = Val (cio_sxy2 (centuries d) - x * y / 2).
Proof. exact L_PSeries.C61_cio_series_pf. Qed.
Print Assumptions C61_cio_series.

(** C61.  The celestial-to-terrestrial matrix, end to end: N P B gives the pole
    (x,y), and the result is W(xp,yp,0) R3(ERA) Q(x,y,s), all of them spelled out. *)
Theorem C61_celestial_to_terrestrial : forall d u xp yp, Rabs (centuries d) <= 50 ->
  let t := centuries d in
  let npb := product [N_matrix (eps_A t) (nut_dpsi t) (nut_deps t); P_matrix t; B_matrix] in
  let x := entry npb I2 I0 in let y := entry npb I2 I1 in
  celestial_to_terrestrial (A := realA) d u xp yp =
    Val (product [W_matrix xp yp 0; R3 (era_of u); Q_matrix x y (cio_sxy2 t - x * y / 2)]).
Proof. exact L_PSeries.C61_celestial_to_terrestrial_pf. Qed.
Print Assumptions C61_celestial_to_terrestrial.

(** The polynomial part of s + xy/2 starts with 94 microarcseconds, and its
    leading periodic term is -2640.73 sin Omega (argument 5 of 8). *)
Example C61_example : dec (nth 0 T_Cio.SP (0, 0)%Z) = 0.000094 /\
  nth 0 (nth 0 T_Cio.KSS []) [] = [0; 0; 0; 0; 1; 0; 0; 0]%Z /\ cio_coef 0 0 0 = -0.00264073.
Proof. exact L_PSeries.C61_example_pf. Qed.
