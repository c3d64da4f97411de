(** * Properties: GeoTripAny

    Statements only; proofs are in L_PGeoTripAny.v. *)

From Coq Require Import ZArith Reals Lra Lia Bool List Psatz.
From Flocq Require Import Core BinarySingleNaN.
From Verif Require Import Outcome Arith ArithR ArithF Spec_Float Spec_Accuracy M_Common M_Ellipsoid Spec_Matrix Spec_Ell.
Open Scope R_scope.
From Verif Require L_PGeoTripAny.

(** C97: on any ellipsoid of flattening up to 0.006, every point 0.92 equatorial radii or more
    from the centre has geodetic coordinates. *)
Theorem C97_exists : forall a f X Y Z, 0 < a -> 0 <= f <= 0.006 -> 0.92 * a <= sqrt (X ^ 2 + Y ^ 2 + Z ^ 2) -> exists lo la h,
  - PI < lo <= PI /\ - (PI / 2) <= la <= PI / 2 /\ - (a / 12) <= h <= sqrt (X ^ 2 + Y ^ 2 + Z ^ 2) /\ ellipsoid_at a f lo la h = V3 (A := realA) X Y Z.
Proof. exact L_PGeoTripAny.C97_exists_pf. Qed.
Print Assumptions C97_exists.

(** C97: geodetic coordinates above the depth of 0.89 equatorial radii are unique (the
    longitude away from the axis). *)
Theorem C97_unique : forall a f lo la h lo' la' h', 0 < a -> 0 <= f <= 0.006 -> - PI < lo <= PI -> - PI < lo' <= PI ->
  - (PI / 2) <= la <= PI / 2 -> - (PI / 2) <= la' <= PI / 2 -> - (0.89 * a) <= h -> - (0.89 * a) <= h' ->
  ellipsoid_at a f lo la h = ellipsoid_at a f lo' la' h' -> la = la' /\ h = h' /\ (cos la <> 0 -> lo = lo').
Proof. exact L_PGeoTripAny.C97_unique_pf. Qed.
Print Assumptions C97_unique.

(** C97, binary64: every point from 0.92 to 989 equatorial radii from the centre has geodetic
    coordinates, and the computed ones are within 1.1e-9 rad, and 3.1e-15 of the distance, of them. *)
Theorem C97_point : forall lm, good_libm lm -> forall c a f x y z,
  conv_new (A := b64A lm) (MkEll (A := b64A lm) a f) = Ok c ->
  fin a = true -> fin f = true -> / 10 ^ 6 <= B2R a <= 10 ^ 12 -> B2R f <= 0.006 ->
  fin x = true -> fin y = true -> fin z = true ->
  let r := sqrt (B2R x ^ 2 + B2R y ^ 2 + B2R z ^ 2) in 0.92 * B2R a <= r <= 989 * B2R a -> exists lo la h,
  - PI < lo <= PI /\ - (PI / 2) <= la <= PI / 2 /\ - (B2R a / 12) <= h <= r /\ ellipsoid_at (B2R a) (B2R f) lo la h = V3 (A := realA) (B2R x) (B2R y) (B2R z) /\
  let g := geocentric_to_geodetic (A := b64A lm) c (V3 (A := b64A lm) x y z) in
  near (phi (A := b64A lm) g) la (1.1 / 10 ^ 9) /\ near (height (A := b64A lm) g) h ((Rabs h + 1.01 * B2R a) * (3.1 / 10 ^ 15)) /\
  (/ 10 ^ 300 <= B2R x ^ 2 + B2R y ^ 2 -> near_angle (elong (A := b64A lm) g) lo (bpow radix2 (-51))).
Proof. exact L_PGeoTripAny.C97_point_pf. Qed.
Print Assumptions C97_point.

(** C97, binary64: from geocentric to geodetic and back, any point from 0.92 to 989 equatorial
    radii from the centre: each coordinate comes back within 1.4e-9 of the distance from the
    centre (the truncation of the formula at altitude). *)
Theorem C97_round_trip : forall lm, good_libm lm -> forall c a f x y z,
  conv_new (A := b64A lm) (MkEll (A := b64A lm) a f) = Ok c ->
  fin a = true -> fin f = true -> / 10 ^ 6 <= B2R a <= 10 ^ 12 -> B2R f <= 0.006 ->
  fin x = true -> fin y = true -> fin z = true ->
  let r := sqrt (B2R x ^ 2 + B2R y ^ 2 + B2R z ^ 2) in 0.92 * B2R a <= r <= 989 * B2R a ->
  exists v, geodetic_to_geocentric (A := b64A lm) c (geocentric_to_geodetic (A := b64A lm) c (V3 (A := b64A lm) x y z)) = Ok v /\
  let e := 1.4 / 10 ^ 9 * r in
  near (v0 (A := b64A lm) v) (B2R x) e /\ near (v1 (A := b64A lm) v) (B2R y) e /\ near (v2 (A := b64A lm) v) (B2R z) e.
Proof. exact L_PGeoTripAny.C97_round_trip_pf. Qed.
Print Assumptions C97_round_trip.

(** C97 near the surface (a 600th of the radius either way): the round trip is good to 3.2e-14
    of the radius. *)
Theorem C97_round_trip_ground : forall lm, good_libm lm -> forall c a f x y z lo la h,
  conv_new (A := b64A lm) (MkEll (A := b64A lm) a f) = Ok c ->
  fin a = true -> fin f = true -> / 10 ^ 6 <= B2R a <= 10 ^ 12 -> B2R f <= 0.006 ->
  fin x = true -> fin y = true -> fin z = true ->
  - PI < lo <= PI -> - (PI / 2) <= la <= PI / 2 -> - (B2R a / 600) <= h <= B2R a / 600 ->
  ellipsoid_at (B2R a) (B2R f) lo la h = V3 (A := realA) (B2R x) (B2R y) (B2R z) ->
  exists v, geodetic_to_geocentric (A := b64A lm) c (geocentric_to_geodetic (A := b64A lm) c (V3 (A := b64A lm) x y z)) = Ok v /\
  let e := 3.2 / 10 ^ 14 * B2R a in
  near (v0 (A := b64A lm) v) (B2R x) e /\ near (v1 (A := b64A lm) v) (B2R y) e /\ near (v2 (A := b64A lm) v) (B2R z) e.
Proof. exact L_PGeoTripAny.C97_round_trip_ground_pf. Qed.
Print Assumptions C97_round_trip_ground.

(** C97, binary64: from geodetic to geocentric and back, any place from a 16th of the equatorial
    radius below to 989 radii above the ellipsoid: the latitude comes back within 1.2e-9 rad, the
    height within 1.2e-14 of the distance, and, a millionth of the radius from the axis or more,
    the longitude within 1.3e-14 rad over the cosine of the latitude. *)
Theorem C97_back : forall lm, good_libm lm -> forall c a f lo la h,
  conv_new (A := b64A lm) (MkEll (A := b64A lm) a f) = Ok c ->
  fin a = true -> fin f = true -> / 10 ^ 6 <= B2R a <= 10 ^ 12 -> B2R f <= 0.006 ->
  fin lo = true -> fin la = true -> fin h = true ->
  - (PI / 2) <= B2R la <= PI / 2 -> - (B2R a / 16) <= B2R h <= 989 * B2R a ->
  exists v, geodetic_to_geocentric (A := b64A lm) c (MkGeod (A := b64A lm) lo la h) = Ok v /\
  let g := geocentric_to_geodetic (A := b64A lm) c v in
  near (phi (A := b64A lm) g) (B2R la) (1.2 / 10 ^ 9) /\ near (height (A := b64A lm) g) (B2R h) (1.2 / 10 ^ 14 * (B2R a + Rabs (B2R h))) /\
  (/ 10 ^ 6 <= cos (B2R la) -> near_angle (elong (A := b64A lm) g) (B2R lo) (1.3 / 10 ^ 14 / cos (B2R la))).
Proof. exact L_PGeoTripAny.C97_back_pf. Qed.
Print Assumptions C97_back.

(** C97 near the surface (a 601st of the radius either way): latitude within 3.5e-14 rad, height
    within 1.2e-14 of the radius. *)
Theorem C97_back_ground : forall lm, good_libm lm -> forall c a f lo la h,
  conv_new (A := b64A lm) (MkEll (A := b64A lm) a f) = Ok c ->
  fin a = true -> fin f = true -> / 10 ^ 6 <= B2R a <= 10 ^ 12 -> B2R f <= 0.006 ->
  fin lo = true -> fin la = true -> fin h = true ->
  - (PI / 2) <= B2R la <= PI / 2 -> - (B2R a / 601) <= B2R h <= B2R a / 601 ->
  exists v, geodetic_to_geocentric (A := b64A lm) c (MkGeod (A := b64A lm) lo la h) = Ok v /\
  let g := geocentric_to_geodetic (A := b64A lm) c v in
  near (phi (A := b64A lm) g) (B2R la) (3.5 / 10 ^ 14) /\ near (height (A := b64A lm) g) (B2R h) (1.2 / 10 ^ 14 * B2R a).
Proof. exact L_PGeoTripAny.C97_back_ground_pf. Qed.
Print Assumptions C97_back_ground.

(** C97 on the Moon taken as a sphere (radius 1737400 m, flattening 0): latitude and longitude
    one radian, 1000 m up. *)
Example C97_example : forall lm, good_libm lm -> exists c v,
  conv_new (A := b64A lm) (MkEll (A := b64A lm) (Flit 1737400 0) (Flit 0 0)) = Ok c /\
  geodetic_to_geocentric (A := b64A lm) c (MkGeod (A := b64A lm) (Flit 1 0) (Flit 1 0) (Flit 1000 0)) = Ok v /\
  let g := geocentric_to_geodetic (A := b64A lm) c v in
  near (phi (A := b64A lm) g) 1 (3.5 / 10 ^ 14) /\ near (height (A := b64A lm) g) 1000 (2.1 / 10 ^ 8).
Proof. exact L_PGeoTripAny.C97_example_pf. Qed.
