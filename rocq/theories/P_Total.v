(** * Properties: Total

    Statements only; proofs are in L_PTotal.v. *)

From Coq Require Import ZArith Reals Lra Lia Bool List.
From Flocq Require Import Core BinarySingleNaN.
From Verif Require Import Outcome Arith ArithR ArithF Spec_Calendar Spec_Api Spec_Float Spec_Accuracy M_Common M_Calendar M_Time M_Locator M_Frames M_Ellipsoid Spec_Matrix Spec_Frames Spec_Series Spec_Geo.
From Verif Require Import Spec_Accuracy.
Import ListNotations.
Open Scope R_scope.
From Verif Require L_PTotal.

(** C13 in binary64: two splits of one total give the same moment within
    2^-53 (|smaller part| + |smaller part'| + 6) days. *)
Theorem C13_from_julian_total_b64 : forall lm p x y x' y',
  fin x = true -> fin y = true -> fin x' = true -> fin y' = true ->
  Rabs (B2R x) <= 2251799813685248 -> Rabs (B2R y) <= 2251799813685248 ->
  Rabs (B2R x') <= 2251799813685248 -> Rabs (B2R y') <= 2251799813685248 ->
  -32000 <= B2R x + B2R y <= 536802342 -> B2R x + B2R y = B2R x' + B2R y' ->
  exists g (f : b64) n g' (f' : b64) n',
    from_julian (A := b64A lm) p x y = Val (Ok (g, f)) /\ from_julian (A := b64A lm) p x' y' = Val (Ok (g', f')) /\
    day_count mjd_epoch (of_date g) n /\ day_count mjd_epoch (of_date g') n' /\
    Rabs ((IZR n + B2R f) - (IZR n' + B2R f')) <= bpow radix2 (-53) * (Rabs (Rmin (B2R x) (B2R y)) + Rabs (Rmin (B2R x') (B2R y')) + 6).
Proof. exact L_PTotal.C13_from_julian_total_b64_pf. Qed.
Print Assumptions C13_from_julian_total_b64.

(** C36 in binary64: the matrix is within 1.8e-14 of the exact one, in every entry, and so its
    third row is the pole. *)
Theorem C36_pole_matrix_b64 : forall lm, good_libm lm -> forall x y s : b64, fin x = true -> fin y = true -> fin s = true ->
  B2R x * B2R x + B2R y * B2R y <= 1 / 4 -> Rabs (B2R s) <= 1 ->
  exists m, c2i_from_xys (A := b64A lm) x y s = Val m /\
  (forall i j, near (mget (A := b64A lm) m i j) (entry (Q_matrix (B2R x) (B2R y) (B2R s)) i j) (1.8 / 10 ^ 14)) /\
  near (mget (A := b64A lm) m I2 I0) (B2R x) (1.8 / 10 ^ 14) /\ near (mget (A := b64A lm) m I2 I1) (B2R y) (1.8 / 10 ^ 14).
Proof. exact L_PTotal.C36_pole_matrix_b64_pf. Qed.
Print Assumptions C36_pole_matrix_b64.

(** C57 in binary64: for one date the locators at two positions of the pole differ by half the
    difference of the products of the coordinates, within 4e-12 rad. *)
Theorem C57_cio_b64 : forall lm, good_libm lm -> forall a b x y x' y' : b64,
  fin a = true -> fin b = true -> fin x = true -> fin y = true -> fin x' = true -> fin y' = true ->
  Rabs (B2R a) <= 4194304 -> Rabs (B2R b) <= 4194304 -> Rabs (B2R x) <= 1 -> Rabs (B2R y) <= 1 -> Rabs (B2R x') <= 1 -> Rabs (B2R y') <= 1 ->
  exists s s' : b64, cio (A := b64A lm) (MkTT (A := b64A lm) a b) x y = Val s /\ cio (A := b64A lm) (MkTT (A := b64A lm) a b) x' y' = Val s' /\
    near s (B2R s' + (B2R x' * B2R y' - B2R x * B2R y) / 2) (4 / 10 ^ 12).
Proof. exact L_PTotal.C57_cio_b64_pf. Qed.
Print Assumptions C57_cio_b64.

(** C57 in binary64 with the date split as a modified Julian date: within 3.4e-16 rad. *)
Theorem C57_cio_b64_mjd : forall lm, good_libm lm -> forall a b x y x' y' : b64,
  fin a = true -> fin b = true -> fin x = true -> fin y = true -> fin x' = true -> fin y' = true ->
  B2R a = 2400000.5 -> Rabs (B2R b) <= 100000 -> Rabs (B2R x) <= 1 -> Rabs (B2R y) <= 1 -> Rabs (B2R x') <= 1 -> Rabs (B2R y') <= 1 ->
  exists s s' : b64, cio (A := b64A lm) (MkTT (A := b64A lm) a b) x y = Val s /\ cio (A := b64A lm) (MkTT (A := b64A lm) a b) x' y' = Val s' /\
    near s (B2R s' + (B2R x' * B2R y' - B2R x * B2R y) / 2) (3.4 / 10 ^ 16).
Proof. exact L_PTotal.C57_cio_b64_mjd_pf. Qed.
Print Assumptions C57_cio_b64_mjd.

(** C45 in binary64 on WGS84: the point returned at height 0 satisfies the equation of the
    ellipsoid within 2.9e-14, and up to 10000 km above or below it the point returned at height h is the
    point returned at height 0 plus h times the zenith returned, within 60 nanometres and 7e-16 h. *)
Theorem C45_normal_b64 : forall lm, good_libm lm -> forall c lo la h z,
  conv_new (A := b64A lm) (WGS84 (A := b64A lm)) = Ok c ->
  fin lo = true -> fin la = true -> fin h = true -> fin z = true -> B2R z = 0 -> Rabs (B2R h) <= 10000000 ->
  exists v v', geodetic_to_geocentric (A := b64A lm) c (MkGeod (A := b64A lm) lo la z) = Ok v /\
  geodetic_to_geocentric (A := b64A lm) c (MkGeod (A := b64A lm) lo la h) = Ok v' /\
  let x i := B2R (vget (A := b64A lm) v i) in
  Rabs ((x I0 * x I0 + x I1 * x I1) / (6378137 * 6378137) + x I2 * x I2 / (6378137 * (1 - 1 / 298.257223563) * (6378137 * (1 - 1 / 298.257223563))) - 1) <= 2.9 / 10 ^ 14 /\
  forall i, near (vget (A := b64A lm) v' i) (x i + B2R h * B2R (vget (A := b64A lm) (zenith (A := b64A lm) (MkGeod (A := b64A lm) lo la h)) i))
    (6 / 10 ^ 8 + 7 / 10 ^ 16 * Rabs (B2R h)).
Proof. exact L_PTotal.C45_normal_b64_pf. Qed.
Print Assumptions C45_normal_b64.

(** Two splits of JD 2451545.25 read back as the same day and fraction. *)
Example C13_b64_example : forall lm p,
  let show r := match r with Val (Ok (g, f)) => Some (g, B2SF f) | _ => None end in
  show (from_julian (A := b64A lm) p (Flit 24515450 (-1)) (Flit 25 (-2))) = Some (MkDate 2000 1 1, B2SF (Flit 75 (-2))) /\
  show (from_julian (A := b64A lm) p (Flit 24000005 (-1)) (Flit 5154475 (-2))) = Some (MkDate 2000 1 1, B2SF (Flit 75 (-2))).
Proof. exact L_PTotal.C13_b64_example_pf. Qed.

(** C57 on 1 January 2006 with the pole at (1, 1) and at the origin: the locators differ by one half. *)
Example C57_b64_example : forall lm, good_libm lm -> exists s s' : b64,
  cio (A := b64A lm) (MkTT (A := b64A lm) (Flit 24000005 (-1)) (Flit 53736 0)) (Flit 0 0) (Flit 0 0) = Val s /\
  cio (A := b64A lm) (MkTT (A := b64A lm) (Flit 24000005 (-1)) (Flit 53736 0)) (Flit 1 0) (Flit 1 0) = Val s' /\
  near s (B2R s' + / 2) (3.4 / 10 ^ 16).
Proof. exact L_PTotal.C57_b64_example_pf. Qed.

(** C36 with the pole displaced by one half along x. *)
Example C36_b64_example : forall lm, good_libm lm -> exists m,
  c2i_from_xys (A := b64A lm) (Flit 5 (-1)) (Flit 0 0) (Flit 0 0) = Val m /\ near (mget (A := b64A lm) m I2 I0) (1 / 2) (1.8 / 10 ^ 14).
Proof. exact L_PTotal.C36_b64_example_pf. Qed.

(** C45 1000 m above the point at longitude and latitude 1 rad. *)
Example C45_b64_example : forall lm, good_libm lm -> forall c, conv_new (A := b64A lm) (WGS84 (A := b64A lm)) = Ok c ->
  exists v v', geodetic_to_geocentric (A := b64A lm) c (MkGeod (A := b64A lm) (Flit 1 0) (Flit 1 0) (Flit 0 0)) = Ok v /\
  geodetic_to_geocentric (A := b64A lm) c (MkGeod (A := b64A lm) (Flit 1 0) (Flit 1 0) (Flit 1000 0)) = Ok v' /\
  near (vget (A := b64A lm) v' I2) (B2R (vget (A := b64A lm) v I2)
    + 1000 * B2R (vget (A := b64A lm) (zenith (A := b64A lm) (MkGeod (A := b64A lm) (Flit 1 0) (Flit 1 0) (Flit 1000 0))) I2)) (6.1 / 10 ^ 8).
Proof. exact L_PTotal.C45_b64_example_pf. Qed.
