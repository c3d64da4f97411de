(** * Properties: GeoTrip

    Statements only; proofs are in L_PGeoTrip.v. *)

From Coq Require Import ZArith Reals Lra Lia Bool List Psatz.
From Flocq Require Import Core BinarySingleNaN.
From Verif Require Import Outcome Arith ArithR ArithF Spec_Float Spec_Accuracy M_Common M_Ellipsoid Spec_Matrix Spec_Geo.
Open Scope R_scope.
From Verif Require L_PGeoTrip.

(** C74: every point 5900 km or more from the centre has geodetic coordinates. *)
Theorem C74_exists : forall X Y Z, 5900000 <= sqrt (X ^ 2 + Y ^ 2 + Z ^ 2) -> exists lo la h,
  - PI < lo <= PI /\ - (PI / 2) <= la <= PI / 2 /\ -500000 <= h <= sqrt (X ^ 2 + Y ^ 2 + Z ^ 2) /\ wgs84_at lo la h = V3 (A := realA) X Y Z.
Proof. exact L_PGeoTrip.C74_exists_pf. Qed.
Print Assumptions C74_exists.

(** C74: geodetic coordinates above the depth of 5700 km are unique (the longitude
    away from the axis). *)
Theorem C74_unique : forall lo la h lo' la' h', - PI < lo <= PI -> - PI < lo' <= PI ->
  - (PI / 2) <= la <= PI / 2 -> - (PI / 2) <= la' <= PI / 2 -> -5700000 <= h -> -5700000 <= h' ->
  wgs84_at lo la h = wgs84_at lo' la' h' -> la = la' /\ h = h' /\ (cos la <> 0 -> lo = lo').
Proof. exact L_PGeoTrip.C74_unique_pf. Qed.
Print Assumptions C74_unique.

(** C74, binary64: every point from 5900 to 6490000 km from the centre has geodetic
    coordinates, and the computed ones are within 1e-10 rad, and 2.5e-15 of the
    distance, of them. *)
Theorem C74_point : forall lm, good_libm lm -> forall c x y z,
  conv_new (A := b64A lm) (WGS84 (A := b64A lm)) = Ok c -> fin x = true -> fin y = true -> fin z = true ->
  5900000 <= sqrt (B2R x ^ 2 + B2R y ^ 2 + B2R z ^ 2) <= 6490000000 -> exists lo la h,
  - PI < lo <= PI /\ - (PI / 2) <= la <= PI / 2 /\ -500000 <= h <= 6490000000 /\ wgs84_at lo la h = V3 (A := realA) (B2R x) (B2R y) (B2R z) /\
  let g := geocentric_to_geodetic (A := b64A lm) c (V3 (A := b64A lm) x y z) in
  near (phi (A := b64A lm) g) la (/ 10 ^ 10) /\ near (height (A := b64A lm) g) h ((Rabs h + 1.01 * 6378137) * (2.5 / 10 ^ 15)) /\
  (/ 10 ^ 300 <= B2R x ^ 2 + B2R y ^ 2 -> near_angle (elong (A := b64A lm) g) lo (bpow radix2 (-51))).
Proof. exact L_PGeoTrip.C74_point_pf. Qed.
Print Assumptions C74_point.

(** C74, binary64: from geocentric to geodetic and back, any point from 5900 to
    16300 km from the centre: each coordinate comes back within 2 mm (the
    truncation of the formula at altitude). *)
Theorem C74_round_trip : forall lm, good_libm lm -> forall c x y z,
  conv_new (A := b64A lm) (WGS84 (A := b64A lm)) = Ok c -> fin x = true -> fin y = true -> fin z = true ->
  5900000 <= sqrt (B2R x ^ 2 + B2R y ^ 2 + B2R z ^ 2) <= 16300000 ->
  exists v, geodetic_to_geocentric (A := b64A lm) c (geocentric_to_geodetic (A := b64A lm) c (V3 (A := b64A lm) x y z)) = Ok v /\
  near (v0 (A := b64A lm) v) (B2R x) (2 / 10 ^ 3) /\ near (v1 (A := b64A lm) v) (B2R y) (2 / 10 ^ 3) /\ near (v2 (A := b64A lm) v) (B2R z) (2 / 10 ^ 3).
Proof. exact L_PGeoTrip.C74_round_trip_pf. Qed.
Print Assumptions C74_round_trip.

(** C74 near the ground (10 km either way): the round trip is good to 0.2
    micrometres. *)
Theorem C74_round_trip_ground : forall lm, good_libm lm -> forall c x y z lo la h,
  conv_new (A := b64A lm) (WGS84 (A := b64A lm)) = Ok c -> fin x = true -> fin y = true -> fin z = true ->
  - PI < lo <= PI -> - (PI / 2) <= la <= PI / 2 -> -10000 <= h <= 10000 ->
  wgs84_at lo la h = V3 (A := realA) (B2R x) (B2R y) (B2R z) ->
  exists v, geodetic_to_geocentric (A := b64A lm) c (geocentric_to_geodetic (A := b64A lm) c (V3 (A := b64A lm) x y z)) = Ok v /\
  near (v0 (A := b64A lm) v) (B2R x) (2 / 10 ^ 7) /\ near (v1 (A := b64A lm) v) (B2R y) (2 / 10 ^ 7) /\ near (v2 (A := b64A lm) v) (B2R z) (2 / 10 ^ 7).
Proof. exact L_PGeoTrip.C74_round_trip_ground_pf. Qed.
Print Assumptions C74_round_trip_ground.

(** C74 for the point 6378137 m up the axis: geodetic height above the pole of
    exactly a f, and the round trip. *)
Example C74_example : forall lm, good_libm lm -> exists c v,
  conv_new (A := b64A lm) (WGS84 (A := b64A lm)) = Ok c /\
  wgs84_at 0 (PI / 2) (6378137 / 298.257223563) = V3 (A := realA) 0 0 6378137 /\
  geodetic_to_geocentric (A := b64A lm) c (geocentric_to_geodetic (A := b64A lm) c (V3 (A := b64A lm) (Flit 0 0) (Flit 0 0) (Flit 6378137 0))) = Ok v /\
  near (v0 (A := b64A lm) v) 0 (2 / 10 ^ 3) /\ near (v1 (A := b64A lm) v) 0 (2 / 10 ^ 3) /\ near (v2 (A := b64A lm) v) 6378137 (2 / 10 ^ 3).
Proof. exact L_PGeoTrip.C74_example_pf. Qed.

(** C75, binary64, WGS84: from geodetic to geocentric and back, any place from 400
    km below to 10000 km above the ellipsoid: the latitude comes back within
    1.1e-10 rad, the height within 0.1 micrometres, and, a few metres from the
    axis or more, the longitude within 1.2e-14 rad over the cosine of the latitude. *)
Theorem C75_round_trip : forall lm, good_libm lm -> forall c lo la h,
  conv_new (A := b64A lm) (WGS84 (A := b64A lm)) = Ok c -> fin lo = true -> fin la = true -> fin h = true ->
  - (PI / 2) <= B2R la <= PI / 2 -> -400000 <= B2R h <= 10000000 ->
  exists v, geodetic_to_geocentric (A := b64A lm) c (MkGeod (A := b64A lm) lo la h) = Ok v /\
  let g := geocentric_to_geodetic (A := b64A lm) c v in
  near (phi (A := b64A lm) g) (B2R la) (1.1 / 10 ^ 10) /\ near (height (A := b64A lm) g) (B2R h) (/ 10 ^ 7) /\
  (/ 10 ^ 6 <= cos (B2R la) -> near_angle (elong (A := b64A lm) g) (B2R lo) (1.2 / 10 ^ 14 / cos (B2R la))).
Proof. exact L_PGeoTrip.C75_round_trip_pf. Qed.
Print Assumptions C75_round_trip.

(** C75 near the ground: latitude within 3.1e-14 rad (0.2 micrometres on the ground),
    height within 70 nanometres. *)
Theorem C75_ground : forall lm, good_libm lm -> forall c lo la h,
  conv_new (A := b64A lm) (WGS84 (A := b64A lm)) = Ok c -> fin lo = true -> fin la = true -> fin h = true ->
  - (PI / 2) <= B2R la <= PI / 2 -> -9999 <= B2R h <= 9999 ->
  exists v, geodetic_to_geocentric (A := b64A lm) c (MkGeod (A := b64A lm) lo la h) = Ok v /\
  let g := geocentric_to_geodetic (A := b64A lm) c v in
  near (phi (A := b64A lm) g) (B2R la) (3.1 / 10 ^ 14) /\ near (height (A := b64A lm) g) (B2R h) (7 / 10 ^ 8).
Proof. exact L_PGeoTrip.C75_ground_pf. Qed.
Print Assumptions C75_ground.

(** C75 at latitude and longitude one radian, 100 m up. *)
Example C75_example : forall lm, good_libm lm -> exists c v,
  conv_new (A := b64A lm) (WGS84 (A := b64A lm)) = Ok c /\
  geodetic_to_geocentric (A := b64A lm) c (MkGeod (A := b64A lm) (Flit 1 0) (Flit 1 0) (Flit 100 0)) = Ok v /\
  let g := geocentric_to_geodetic (A := b64A lm) c v in
  near (phi (A := b64A lm) g) 1 (3.1 / 10 ^ 14) /\ near (height (A := b64A lm) g) 100 (7 / 10 ^ 8).
Proof. exact L_PGeoTrip.C75_example_pf. Qed.
