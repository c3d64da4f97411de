(** * Properties: AccGd

    Statements only; proofs are in L_PAccGd.v. *)

From Coq Require Import ZArith Reals Lra Lia Bool List Psatz.
From Flocq Require Import Core BinarySingleNaN.
From Verif Require Import Outcome Arith ArithR ArithF Spec_Float Spec_Accuracy M_Common M_Ellipsoid Spec_Matrix Spec_Geo.
Open Scope R_scope.
From Verif Require L_PAccGd.

(** C73, binary64, WGS84, every point from 5750 to 6500000 km from the centre:
    the computed latitude is within 1.7e-14 rad (a tenth of a micrometre on the
    ground) and the computed height within 2.4e-15 of the distance (16 nanometres
    at the surface) of what the same formulas give without rounding; so is the
    longitude, within 2^-51 rad, unless x^2 + y^2 underflows. *)
Theorem C73_accuracy : forall lm, good_libm lm -> forall c c' x y z,
  conv_new (A := b64A lm) (WGS84 (A := b64A lm)) = Ok c -> conv_new (A := realA) (WGS84 (A := realA)) = Ok c' ->
  fin x = true -> fin y = true -> fin z = true ->
  let r := sqrt (B2R x ^ 2 + B2R y ^ 2 + B2R z ^ 2) in 5750000 <= r <= 6500000000 ->
  let g := geocentric_to_geodetic (A := b64A lm) c (V3 (A := b64A lm) x y z) in
  let g' := geocentric_to_geodetic (A := realA) c' (V3 (A := realA) (B2R x) (B2R y) (B2R z)) in
  near (phi (A := b64A lm) g) (phi (A := realA) g') (1.7 / 10 ^ 14) /\
  near (height (A := b64A lm) g) (height (A := realA) g') (2.4 / 10 ^ 15 * r) /\
  (/ 10 ^ 300 <= B2R x ^ 2 + B2R y ^ 2 \/ B2R x = 0 /\ B2R y = 0 ->
   near_angle (elong (A := b64A lm) g) (elong (A := realA) g') (bpow radix2 (-51))).
Proof. exact L_PAccGd.C73_accuracy_pf. Qed.
Print Assumptions C73_accuracy.

(** C73, binary64, WGS84: from the Cartesian coordinates of any place from 500 km
    below to 6490000 km above the ellipsoid, the computed latitude, height and
    longitude are those of the place, up to the truncation error of the formula
    (tol, which vanishes on the ellipsoid) and the rounding error. *)
Theorem C73_geodetic : forall lm, good_libm lm -> forall c x y z lo la h,
  conv_new (A := b64A lm) (WGS84 (A := b64A lm)) = Ok c -> fin x = true -> fin y = true -> fin z = true ->
  - PI < lo <= PI -> - (PI / 2) <= la <= PI / 2 -> -500000 <= h <= 6490000000 ->
  wgs84_at lo la h = V3 (A := realA) (B2R x) (B2R y) (B2R z) ->
  let g := geocentric_to_geodetic (A := b64A lm) c (V3 (A := b64A lm) x y z) in
  let tol := 5 * (1 / 298.257223563) ^ 4 * Rabs (h / 6378137) ^ 3 / (1 + h / 6378137) ^ 4 + 125 * (1 / 298.257223563) ^ 5 * (h / 6378137) ^ 2 / (1 + h / 6378137) ^ 3 in
  near (phi (A := b64A lm) g) la (tol + 1.8 / 10 ^ 14) /\
  near (height (A := b64A lm) g) h ((Rabs h + 1.01 * 6378137) * (2.5 / 10 ^ 15)) /\
  (/ 10 ^ 300 <= B2R x ^ 2 + B2R y ^ 2 -> near_angle (elong (A := b64A lm) g) lo (bpow radix2 (-51))).
Proof. exact L_PAccGd.C73_geodetic_pf. Qed.
Print Assumptions C73_geodetic.

(** C73 at every height from 500 km below to 6490000 km above the ellipsoid: latitude
    within 1e-10 rad, height within 2.5e-15 of the distance. *)
Theorem C73_everywhere : forall lm, good_libm lm -> forall c x y z lo la h,
  conv_new (A := b64A lm) (WGS84 (A := b64A lm)) = Ok c -> fin x = true -> fin y = true -> fin z = true ->
  - PI < lo <= PI -> - (PI / 2) <= la <= PI / 2 -> -500000 <= h <= 6490000000 ->
  wgs84_at lo la h = V3 (A := realA) (B2R x) (B2R y) (B2R z) ->
  let g := geocentric_to_geodetic (A := b64A lm) c (V3 (A := b64A lm) x y z) in
  near (phi (A := b64A lm) g) la (/ 10 ^ 10) /\ near (height (A := b64A lm) g) h ((Rabs h + 1.01 * 6378137) * (2.5 / 10 ^ 15)).
Proof. exact L_PAccGd.C73_everywhere_pf. Qed.
Print Assumptions C73_everywhere.

(** C73 near the ground: latitude within 2e-14 rad (0.13 micrometres), height within 17
    nanometres. *)
Theorem C73_ground : forall lm, good_libm lm -> forall c x y z lo la h,
  conv_new (A := b64A lm) (WGS84 (A := b64A lm)) = Ok c -> fin x = true -> fin y = true -> fin z = true ->
  - PI < lo <= PI -> - (PI / 2) <= la <= PI / 2 -> -10000 <= h <= 10000 ->
  wgs84_at lo la h = V3 (A := realA) (B2R x) (B2R y) (B2R z) ->
  let g := geocentric_to_geodetic (A := b64A lm) c (V3 (A := b64A lm) x y z) in
  near (phi (A := b64A lm) g) la (2 / 10 ^ 14) /\ near (height (A := b64A lm) g) h (1.7 / 10 ^ 8).
Proof. exact L_PAccGd.C73_ground_pf. Qed.
Print Assumptions C73_ground.

(** C73 at the equator, 90 degrees east, 1 km up: latitude 0, height 1000 m,
    longitude pi / 2, and on the axis 6360 km south of the centre: latitude
    -pi / 2, height 6360 km less the semi-minor axis. *)
Example C73_example : forall lm, good_libm lm -> exists c,
  conv_new (A := b64A lm) (WGS84 (A := b64A lm)) = Ok c /\
  (let g := geocentric_to_geodetic (A := b64A lm) c (V3 (A := b64A lm) (Flit 0 0) (Flit 6379137 0) (Flit 0 0)) in
   near (phi (A := b64A lm) g) 0 (2 / 10 ^ 14) /\ near (height (A := b64A lm) g) 1000 (1.7 / 10 ^ 8) /\
   near_angle (elong (A := b64A lm) g) (PI / 2) (bpow radix2 (-51))) /\
  (let g := geocentric_to_geodetic (A := b64A lm) c (V3 (A := b64A lm) (Flit 0 0) (Flit 0 0) (Flit (-6360000) 0)) in
   near (phi (A := b64A lm) g) (- (PI / 2)) (2 / 10 ^ 14) /\
   near (height (A := b64A lm) g) (6360000 - 6378137 * (1 - 1 / 298.257223563)) (1.7 / 10 ^ 8)).
Proof. exact L_PAccGd.C73_example_pf. Qed.
