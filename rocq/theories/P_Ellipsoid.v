(** * Properties: Ellipsoid

    Statements only; proofs are in L_PEllipsoid.v. *)

From Coq Require Import ZArith Reals Lra Lia Bool.
From Flocq Require Import Core BinarySingleNaN.
From Verif Require Import Outcome Arith ArithR ArithF Spec_Float M_Common M_Ellipsoid.
Open Scope R_scope.
From Verif Require L_PEllipsoid.

(** C44, exact arithmetic: [new] succeeds exactly for 0 <= f < 1 and a >= 0. *)
Theorem C44_accepted : forall a f,
  (exists c, conv_new (A := realA) (MkEll (A := realA) a f) = Ok c) <-> 0 <= f < 1 /\ 0 <= a.
Proof. exact L_PEllipsoid.C44_accepted_pf. Qed.
Print Assumptions C44_accepted.

(** C44, exact arithmetic: the flattening is tested first, then the radius;
    the eccentricity test never fails. *)
Theorem C44_errors : forall a f,
  (f < 0 \/ 1 <= f -> conv_new (A := realA) (MkEll (A := realA) a f) = Err InvalidFlattening) /\
  (0 <= f < 1 -> a < 0 -> conv_new (A := realA) (MkEll (A := realA) a f) = Err InvalidRadius) /\
  conv_new (A := realA) (MkEll (A := realA) a f) <> Err BadEccentricity /\
  conv_new (A := realA) (MkEll (A := realA) a f) <> Err BadCoordinates.
Proof. exact L_PEllipsoid.C44_errors_pf. Qed.
Print Assumptions C44_errors.

(** C44, exact arithmetic: the constants kept in the converter. *)
Theorem C44_constants : forall a f c, conv_new (A := realA) (MkEll (A := realA) a f) = Ok c ->
  conv_ellipsoid (A := realA) c = MkEll (A := realA) a f /\
  cv_b (A := realA) c = a * (1 - f) /\
  cv_ec (A := realA) c = 1 - f /\ cv_ec2 (A := realA) c = (1 - f) ^ 2 /\
  cv_e2 (A := realA) c = 1 - (1 - f) ^ 2 /\ cv_e4t (A := realA) c = 3 / 2 * (1 - (1 - f) ^ 2) ^ 2 /\
  cv_aeps2 (A := realA) c = a ^ 2 / 10 ^ 32.
Proof. exact L_PEllipsoid.C44_constants_pf. Qed.
Print Assumptions C44_constants.

(** C44, refuted: a zero radius is accepted, in binary64 whatever the libm, and
    the height of every point is then NaN; so is every NaN radius or flattening. *)
Theorem C44_zero_radius_refuted : forall lm,
  (exists c, conv_new (A := b64A lm) (MkEll (A := b64A lm) (Flit 0 0) (Flit 0 0)) = Ok c /\
     is_nan (height (A := b64A lm) (geocentric_to_geodetic (A := b64A lm) c
       (V3 (A := b64A lm) (Flit 1 0) (Flit 0 0) (Flit 0 0)))) = true) /\
  (forall f, Bltb f (Flit 0 0) = false -> Bleb (Flit 1 0) f = false ->
     is_nan f = true -> exists c, conv_new (A := b64A lm) (MkEll (A := b64A lm) (Flit 1 0) f) = Ok c) /\
  (exists c, conv_new (A := b64A lm) (MkEll (A := b64A lm) B754_nan (Flit 0 0)) = Ok c).
Proof. exact L_PEllipsoid.C44_zero_radius_refuted_pf. Qed.
Print Assumptions C44_zero_radius_refuted.

(** C44, refuted at the other end: in binary64 the flattening 1 - 2^-52, which
    is below 1, is rejected as a bad eccentricity. *)
Theorem C44_flattening_near_one_refuted : forall lm,
  let f := Fof (2 ^ 52 - 1) (-52) in
  B2R f = 1 - / 2 ^ 52 /\
  conv_new (A := b64A lm) (MkEll (A := b64A lm) (Flit 1 0) f) = Err BadEccentricity.
Proof. exact L_PEllipsoid.C44_flattening_near_one_refuted_pf. Qed.
Print Assumptions C44_flattening_near_one_refuted.

(** C44, binary64, what does hold: apart from NaN, an accepted flattening is in
    [0,1) and an accepted radius is not negative; and every such radius is
    accepted with any flattening in [0, 1 - 2^-24]. *)
Theorem C44_accepted_b64 : forall lm a f, is_nan a = false -> is_nan f = false ->
  ((exists c, conv_new (A := b64A lm) (MkEll (A := b64A lm) a f) = Ok c) ->
    fin f = true /\ 0 <= B2R f < 1 /\ Bleb (Flit 0 0) a = true) /\
  (fin f = true -> 0 <= B2R f <= 1 - / 2 ^ 24 -> Bleb (Flit 0 0) a = true ->
    exists c, conv_new (A := b64A lm) (MkEll (A := b64A lm) a f) = Ok c).
Proof. exact L_PEllipsoid.C44_accepted_b64_pf. Qed.
Print Assumptions C44_accepted_b64.

(** C44, binary64.  Exactly which flattenings in [0, 1) are refused as a bad
    eccentricity: f = 1 - k/2^53 with k even and k <= 2^26, or with k = 3 modulo 4
    and k (k + 1) <= 3 * 2^52.  So 1 - 2^-53, the largest number below 1, is accepted
    although 1 - 2^-52 is refused. *)
Theorem C44_band_b64 : forall lm a f, fin f = true -> 0 <= B2R f < 1 -> Bleb (Flit 0 0) a = true ->
  let ell := MkEll (A := b64A lm) a f in
  (conv_new (A := b64A lm) ell = Err BadEccentricity \/ exists c, conv_new (A := b64A lm) ell = Ok c) /\
  (conv_new (A := b64A lm) ell = Err BadEccentricity <->
   exists k, (1 <= k)%Z /\ B2R f = 1 - IZR k / 2 ^ 53 /\
     ((k mod 2 = 0 /\ k <= 2 ^ 26) \/ (k mod 4 = 3 /\ k * (k + 1) <= 3 * 2 ^ 52))%Z).
Proof. exact L_PEllipsoid.C44_band_b64_pf. Qed.
Print Assumptions C44_band_b64.

(** C44, binary64: the largest number below 1 is accepted as a flattening. *)
Theorem C44_band_edge_b64 : forall lm,
  let f := Fof (2 ^ 53 - 1) (-53) in
  B2R f = 1 - / 2 ^ 53 /\
  exists c, conv_new (A := b64A lm) (MkEll (A := b64A lm) (Flit 1 0) f) = Ok c.
Proof. exact L_PEllipsoid.C44_band_edge_b64_pf. Qed.
Print Assumptions C44_band_edge_b64.

(** C44 on WGS84: accepted, with the polar radius 6356752.3142 m to a tenth of
    a millimetre. *)
Example C44_example : exists c, conv_new (A := realA) (WGS84 (A := realA)) = Ok c /\
  6356752.3142 < cv_b (A := realA) c < 6356752.3143.
Proof. exact L_PEllipsoid.C44_example_pf. Qed.

(** C45.  For every accepted ellipsoid of positive radius, exact arithmetic: the
    point at height 0 is on the ellipsoid of semi-axes a, a, a(1-f); there the
    gradient of the ellipsoid's equation is a positive multiple of [zenith],
    which is a unit vector; and the point at height h is the one at height 0
    plus h times [zenith]. *)
Theorem C45_normal : forall a f c l ph h, conv_new (A := realA) (MkEll (A := realA) a f) = Ok c -> 0 < a ->
  exists x0 y0 z0 : R,
  geodetic_to_geocentric (A := realA) c (MkGeod (A := realA) l ph 0) = Ok (V3 (A := realA) x0 y0 z0) /\
  (x0 ^ 2 + y0 ^ 2) / a ^ 2 + z0 ^ 2 / (a * (1 - f)) ^ 2 = 1 /\
  exists zx zy zz k : R, zenith (A := realA) (MkGeod (A := realA) l ph h) = V3 (A := realA) zx zy zz /\
  zx ^ 2 + zy ^ 2 + zz ^ 2 = 1 /\
  0 < k /\ x0 / a ^ 2 = k * zx /\ y0 / a ^ 2 = k * zy /\ z0 / (a * (1 - f)) ^ 2 = k * zz /\
  geodetic_to_geocentric (A := realA) c (MkGeod (A := realA) l ph h) =
    Ok (V3 (A := realA) (x0 + h * zx) (y0 + h * zy) (z0 + h * zz)).
Proof. exact L_PEllipsoid.C45_normal_pf. Qed.
Print Assumptions C45_normal.

(** C45 on the WGS84 ellipsoid: the point on the equator at longitude 0 and
    height 100 is (6378237, 0, 0). *)
Example C45_example : forall c, conv_new (A := realA) (MkEll (A := realA) 6378137 (1 / 298.257223563)) = Ok c ->
  geodetic_to_geocentric (A := realA) c (MkGeod (A := realA) 0 0 100) = Ok (V3 (A := realA) 6378237 0 0).
Proof. exact L_PEllipsoid.C45_example_pf. Qed.

(** C46.  For a converter returned by [new], exact arithmetic: never an error. *)
Theorem C46_never_fails : forall el c g, conv_new (A := realA) el = Ok c ->
  exists x, geodetic_to_geocentric (A := realA) c g = Ok x.
Proof. exact L_PEllipsoid.C46_never_fails_pf. Qed.
Print Assumptions C46_never_fails.

(** C46 does depend on [new]: with flattening 1 (which [new] rejects) a pole gives an error. *)
Example C46_example : exists c : EllipsoidConverter realA,
  geodetic_to_geocentric (A := realA) c (MkGeod (A := realA) 0 (PI / 2) 0) = Err BadCoordinates.
Proof. exact L_PEllipsoid.C46_example_pf. Qed.

(** C47, exact arithmetic, every accepted ellipsoid of positive radius, every
    height above the centres of curvature: longitude comes back exactly, away
    from the axis. *)
Theorem C47_longitude : forall a f c l ph h x, conv_new (A := realA) (MkEll (A := realA) a f) = Ok c -> 0 < a ->
  - (PI / 2) < ph < PI / 2 -> - PI < l <= PI -> - (a * (1 - f) ^ 2) < h ->
  geodetic_to_geocentric (A := realA) c (MkGeod (A := realA) l ph h) = Ok x ->
  elong (A := realA) (geocentric_to_geodetic (A := realA) c x) = l.
Proof. exact L_PEllipsoid.C47_longitude_pf. Qed.
Print Assumptions C47_longitude.

(** C47, exact arithmetic: exact inverse on the surface of every accepted
    ellipsoid, except closer to the axis than a / 10^16. *)
Theorem C47_surface : forall a f c l ph x, conv_new (A := realA) (MkEll (A := realA) a f) = Ok c -> 0 < a ->
  - (PI / 2) < ph < PI / 2 -> - PI < l <= PI ->
  geodetic_to_geocentric (A := realA) c (MkGeod (A := realA) l ph 0) = Ok x ->
  a ^ 2 / 10 ^ 32 < v0 (A := realA) x ^ 2 + v1 (A := realA) x ^ 2 ->
  geocentric_to_geodetic (A := realA) c x = MkGeod (A := realA) l ph 0.
Proof. exact L_PEllipsoid.C47_surface_pf. Qed.
Print Assumptions C47_surface.

(** C47, exact arithmetic: exact inverse for a sphere, at every height above
    its centre. *)
Theorem C47_sphere : forall a c l ph h x, conv_new (A := realA) (MkEll (A := realA) a 0) = Ok c -> 0 < a ->
  - (PI / 2) < ph < PI / 2 -> - PI < l <= PI -> - a < h ->
  geodetic_to_geocentric (A := realA) c (MkGeod (A := realA) l ph h) = Ok x ->
  a ^ 2 / 10 ^ 32 < v0 (A := realA) x ^ 2 + v1 (A := realA) x ^ 2 ->
  geocentric_to_geodetic (A := realA) c x = MkGeod (A := realA) l ph h.
Proof. exact L_PEllipsoid.C47_sphere_pf. Qed.
Print Assumptions C47_sphere.

(** C47, exact arithmetic: exact inverse on the equatorial plane of every
    accepted ellipsoid, at every height above the centre of curvature. *)
Theorem C47_equator : forall a f c l h x, conv_new (A := realA) (MkEll (A := realA) a f) = Ok c -> 0 < a ->
  - PI < l <= PI -> - (a * (1 - f) ^ 2) < h ->
  geodetic_to_geocentric (A := realA) c (MkGeod (A := realA) l 0 h) = Ok x ->
  a ^ 2 / 10 ^ 32 < v0 (A := realA) x ^ 2 + v1 (A := realA) x ^ 2 ->
  geocentric_to_geodetic (A := realA) c x = MkGeod (A := realA) l 0 h.
Proof. exact L_PEllipsoid.C47_equator_pf. Qed.
Print Assumptions C47_equator.

(** C47, exact arithmetic: at the poles of every accepted ellipsoid, at every
    height above the centre of curvature, latitude and height come back exactly
    (and longitude 0). *)
Theorem C47_poles : forall a f c l ph h x, conv_new (A := realA) (MkEll (A := realA) a f) = Ok c -> 0 < a ->
  ph = PI / 2 \/ ph = - (PI / 2) -> - PI < l <= PI -> - (a * (1 - f) ^ 2) < h ->
  geodetic_to_geocentric (A := realA) c (MkGeod (A := realA) l ph h) = Ok x ->
  geocentric_to_geodetic (A := realA) c x = MkGeod (A := realA) 0 ph h.
Proof. exact L_PEllipsoid.C47_poles_pf. Qed.
Print Assumptions C47_poles.

(** C47, exact arithmetic, flattening at most 0.006 (the Earth's is 0.0034), any
    height above -a/10, any latitude: latitude comes back to within
    5 f^4 (|h|/a)^3 / (1 + h/a)^4 + 125 f^5 (h/a)^2 / (1 + h/a)^3 + 2e-16 radian,
    and height to within the square of that times 1.01 a + |h|. *)
Theorem C47_tolerance : forall a f c l ph h x, conv_new (A := realA) (MkEll (A := realA) a f) = Ok c -> 0 < a ->
  f <= 0.006 -> - (PI / 2) <= ph <= PI / 2 -> - PI < l <= PI -> - (a / 10) <= h ->
  geodetic_to_geocentric (A := realA) c (MkGeod (A := realA) l ph h) = Ok x ->
  let g := geocentric_to_geodetic (A := realA) c x in
  let tol := 5 * f ^ 4 * Rabs (h / a) ^ 3 / (1 + h / a) ^ 4 + 125 * f ^ 5 * (h / a) ^ 2 / (1 + h / a) ^ 3 + 2 / 10 ^ 16 in
  Rabs (phi (A := realA) g - ph) <= tol /\
  Rabs (height (A := realA) g - h) <= (Rabs h + 1.01 * a) * tol ^ 2.
Proof. exact L_PEllipsoid.C47_tolerance_pf. Qed.
Print Assumptions C47_tolerance.

(** C47, exact arithmetic, WGS84 between 10 km below and 10 km above the
    ellipsoid: 4e-16 radian (3 nanometres) in latitude and 10^-23 m in height. *)
Theorem C47_wgs84 : forall c l ph h x, conv_new (A := realA) (MkEll (A := realA) 6378137 (1 / 298.257223563)) = Ok c ->
  - (PI / 2) <= ph <= PI / 2 -> - PI < l <= PI -> -10000 <= h <= 10000 ->
  geodetic_to_geocentric (A := realA) c (MkGeod (A := realA) l ph h) = Ok x ->
  let g := geocentric_to_geodetic (A := realA) c x in
  Rabs (phi (A := realA) g - ph) <= 4 / 10 ^ 16 /\ Rabs (height (A := realA) g - h) <= / 10 ^ 23.
Proof. exact L_PEllipsoid.C47_wgs84_pf. Qed.
Print Assumptions C47_wgs84.

(** C47, exact arithmetic, WGS84, every height from 600 km below the ellipsoid
    to infinity: 10^-10 radian in latitude (0.64 mm on the ground), and in height
    10^-20 of the distance. *)
Theorem C47_wgs84_everywhere : forall c l ph h x, conv_new (A := realA) (MkEll (A := realA) 6378137 (1 / 298.257223563)) = Ok c ->
  - (PI / 2) <= ph <= PI / 2 -> - PI < l <= PI -> -600000 <= h ->
  geodetic_to_geocentric (A := realA) c (MkGeod (A := realA) l ph h) = Ok x ->
  let g := geocentric_to_geodetic (A := realA) c x in
  Rabs (phi (A := realA) g - ph) <= / 10 ^ 10 /\ Rabs (height (A := realA) g - h) <= (Rabs h + 1.01 * 6378137) / 10 ^ 20.
Proof. exact L_PEllipsoid.C47_wgs84_everywhere_pf. Qed.
Print Assumptions C47_wgs84_everywhere.

(** C47 at a concrete place: 45 degrees south, 30 degrees west, on a sphere of
    radius 2 at height 1. *)
Example C47_example : forall c, conv_new (A := realA) (MkEll (A := realA) 2 0) = Ok c -> exists x,
  geodetic_to_geocentric (A := realA) c (MkGeod (A := realA) (- (PI / 6)) (- (PI / 4)) 1) = Ok x /\
  geocentric_to_geodetic (A := realA) c x = MkGeod (A := realA) (- (PI / 6)) (- (PI / 4)) 1.
Proof. exact L_PEllipsoid.C47_example_pf. Qed.

(** C48, binary64, whatever the libm and the converter: negating z negates the
    latitude bit for bit, and leaves longitude and height as they are; for z = 0
    (either sign) or NaN nothing at all changes. *)
Theorem C48_reflection_b64 : forall lm (c : EllipsoidConverter (b64A lm)) (x y z : b64),
  let g := geocentric_to_geodetic (A := b64A lm) c (V3 (A := b64A lm) x y z) in
  let g' := geocentric_to_geodetic (A := b64A lm) c (V3 (A := b64A lm) x y (Bopp z)) in
  elong (A := b64A lm) g' = elong (A := b64A lm) g /\ height (A := b64A lm) g' = height (A := b64A lm) g /\
  match z with
  | B754_zero _ | B754_nan => phi (A := b64A lm) g' = phi (A := b64A lm) g
  | _ => phi (A := b64A lm) g' = Bopp (phi (A := b64A lm) g)
  end.
Proof. exact L_PEllipsoid.C48_reflection_b64_pf. Qed.
Print Assumptions C48_reflection_b64.

(** C48, exact arithmetic: the same. *)
Theorem C48_reflection : forall (c : EllipsoidConverter realA) (x y z : R), z <> 0 ->
  let g := geocentric_to_geodetic (A := realA) c (V3 (A := realA) x y z) in
  geocentric_to_geodetic (A := realA) c (V3 (A := realA) x y (- z)) =
    MkGeod (A := realA) (elong (A := realA) g) (- phi (A := realA) g) (height (A := realA) g).
Proof. exact L_PEllipsoid.C48_reflection_pf. Qed.
Print Assumptions C48_reflection.

(** C48, exact arithmetic: turning about the polar axis by any angle changes
    neither latitude nor height, and (off the axis) adds the angle to the
    longitude, up to a whole number of turns. *)
Theorem C48_rotation : forall (c : EllipsoidConverter realA) (x y z t : R),
  let g := geocentric_to_geodetic (A := realA) c (V3 (A := realA) x y z) in
  let g' := geocentric_to_geodetic (A := realA) c
     (V3 (A := realA) (x * cos t - y * sin t) (x * sin t + y * cos t) z) in
  phi (A := realA) g' = phi (A := realA) g /\ height (A := realA) g' = height (A := realA) g /\
  (x ^ 2 + y ^ 2 <> 0 -> exists k : Z, elong (A := realA) g' = elong (A := realA) g + t + 2 * PI * IZR k).
Proof. exact L_PEllipsoid.C48_rotation_pf. Qed.
Print Assumptions C48_rotation.

(** C48, exact arithmetic: latitude in [-pi/2, pi/2], longitude in (-pi, pi],
    and off the axis x = p cos(longitude), y = p sin(longitude) with p > 0. *)
Theorem C48_range : forall (c : EllipsoidConverter realA) (x y z : R),
  let g := geocentric_to_geodetic (A := realA) c (V3 (A := realA) x y z) in
  - (PI / 2) <= phi (A := realA) g <= PI / 2 /\ - PI < elong (A := realA) g <= PI /\
  (x ^ 2 + y ^ 2 <> 0 -> exists p, 0 < p /\ x = p * cos (elong (A := realA) g) /\ y = p * sin (elong (A := realA) g)).
Proof. exact L_PEllipsoid.C48_range_pf. Qed.
Print Assumptions C48_range.

(** C48 on a concrete point of the unit sphere, south of the equator on the
    far meridian: (-1/2, 0, -sqrt 3 / 2) has longitude pi and latitude -pi/3. *)
Example C48_example : forall c, conv_new (A := realA) (MkEll (A := realA) 1 0) = Ok c ->
  geocentric_to_geodetic (A := realA) c (V3 (A := realA) (- (1 / 2)) 0 (- (sqrt 3 / 2))) = MkGeod (A := realA) PI (- (PI / 3)) 0.
Proof. exact L_PEllipsoid.C48_example_pf. Qed.

(** C49, exact arithmetic: [Geodetic360::from] never panics; longitude in
    [-180, 180), latitude in [-90, 90), a whole number of turns (half turns for
    latitude) from the input; the height is kept. *)
Theorem C49_range : forall p l ph h, exists lo la : R,
  geodetic_to_360 (A := realA) p (MkGeod (A := realA) l ph h) = Val (MkG360 (A := realA) lo la h) /\
  -180 <= lo < 180 /\ -90 <= la < 90 /\
  (exists k : Z, l = lo * (PI / 180) + 2 * PI * IZR k) /\
  (exists k : Z, ph = la * (PI / 180) + PI * IZR k).
Proof. exact L_PEllipsoid.C49_range_pf. Qed.
Print Assumptions C49_range.

(** C49, exact arithmetic: for -pi/2 <= phi < pi/2 (all latitudes but the north
    pole), converting back denotes the same point: the same latitude, and the same
    geocentric position on every ellipsoid. *)
Theorem C49_same_point : forall p l ph h d, - (PI / 2) <= ph < PI / 2 ->
  geodetic_to_360 (A := realA) p (MkGeod (A := realA) l ph h) = Val d ->
  phi (A := realA) (geodetic_of_360 (A := realA) d) = ph /\
  (exists k : Z, elong (A := realA) (geodetic_of_360 (A := realA) d) = l + 2 * PI * IZR k) /\
  forall c, geodetic_to_geocentric (A := realA) c (geodetic_of_360 (A := realA) d) =
            geodetic_to_geocentric (A := realA) c (MkGeod (A := realA) l ph h).
Proof. exact L_PEllipsoid.C49_same_point_pf. Qed.
Print Assumptions C49_same_point.

(** C49, refuted at the north pole: latitude pi/2 becomes -90 degrees, and the
    geocentric position of the result is the south pole; in exact arithmetic and in
    binary64 alike. *)
Theorem C49_north_pole_refuted :
  (forall p h, geodetic_to_360 (A := realA) p (MkGeod (A := realA) 0 (PI / 2) h) = Val (MkG360 (A := realA) 0 (-90) h)) /\
  (exists c d x y, conv_new (A := realA) (MkEll (A := realA) 1 0) = Ok c /\
     geodetic_to_360 (A := realA) Debug (MkGeod (A := realA) 0 (PI / 2) 0) = Val d /\
     geodetic_to_geocentric (A := realA) c (MkGeod (A := realA) 0 (PI / 2) 0) = Ok x /\
     geodetic_to_geocentric (A := realA) c (geodetic_of_360 (A := realA) d) = Ok y /\
     v2 (A := realA) x = 1 /\ v2 (A := realA) y = -1) /\
  (forall lm, lat_360 (A := b64A lm) (Fdiv (c_pi (b64A lm)) (Flit 2 0)) = Flit (-90) 0).
Proof. exact L_PEllipsoid.C49_north_pole_refuted_pf. Qed.
Print Assumptions C49_north_pole_refuted.

(** C49, binary64: for finite angles up to 2^1000 in size the result is in range
    (with 180 and 90 included) and the debug assertions hold. *)
Theorem C49_range_b64 : forall lm p (l ph h : b64), fin l = true -> fin ph = true ->
  Rabs (B2R l) <= bpow radix2 1000 -> Rabs (B2R ph) <= bpow radix2 1000 ->
  exists lo la : b64, geodetic_to_360 (A := b64A lm) p (MkGeod (A := b64A lm) l ph h) = Val (MkG360 (A := b64A lm) lo la h) /\
  fin lo = true /\ fin la = true /\ -180 <= B2R lo <= 180 /\ -90 <= B2R la <= 90.
Proof. exact L_PEllipsoid.C49_range_b64_pf. Qed.
Print Assumptions C49_range_b64.

(** C49, binary64: the upper end 180 is reached (just past the far meridian);
    NaN and infinite angles panic in a debug build. *)
Theorem C49_edges_b64 : forall lm,
  lon_360 (A := b64A lm) (Fof (- 7074237752028441) (-51)) = Flit 180 0 /\
  (forall l ph h : b64, fin l && fin ph = false -> geodetic_to_360 (A := b64A lm) Debug (MkGeod (A := b64A lm) l ph h) = Panic).
Proof. exact L_PEllipsoid.C49_edges_b64_pf. Qed.
Print Assumptions C49_edges_b64.

(** C49 on a concrete position: 200 degrees east, 45 degrees north is
    160 degrees west, 45 degrees north. *)
Example C49_example :
  geodetic_to_360 (A := realA) Debug (MkGeod (A := realA) (10 * PI / 9) (PI / 4) 7) = Val (MkG360 (A := realA) (-160) 45 7).
Proof. exact L_PEllipsoid.C49_example_pf. Qed.
