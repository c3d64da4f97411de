(** * Properties: GdAny

    Statements only; proofs are in L_PGdAny.v. *)

From Coq Require Import ZArith Reals Lra Lia Bool List Psatz.
From Flocq Require Import Core BinarySingleNaN.
From Verif Require Import Outcome Arith ArithR ArithF Spec_Float Spec_Accuracy M_Common M_Ellipsoid Spec_Matrix Spec_Ell.
Open Scope R_scope.
From Verif Require L_PGdAny.

(** C96, binary64: every finite radius from 1e-6 to 1e12 and flattening from 0 to 0.006 is
    accepted. *)
Theorem C96_accepted : forall lm (a f : b64), fin a = true -> fin f = true -> / 10 ^ 6 <= B2R a <= 10 ^ 12 -> 0 <= B2R f <= 0.006 ->
  exists c, conv_new (A := b64A lm) (MkEll (A := b64A lm) a f) = Ok c.
Proof. exact L_PGdAny.C96_accepted_pf. Qed.
Print Assumptions C96_accepted.

(** C96, binary64, any ellipsoid of flattening up to 0.006, every point from 0.9 to 1000
    equatorial radii from the centre: the computed latitude is within 1.8e-14 rad and the
    computed height within 3e-15 of the distance of what the same formulas give without
    rounding; so is the longitude, within 2^-51 rad, unless x^2 + y^2 underflows. *)
Theorem C96_accuracy : forall lm, good_libm lm -> forall c c' a f x y z,
  conv_new (A := b64A lm) (MkEll (A := b64A lm) a f) = Ok c -> conv_new (A := realA) (MkEll (A := realA) (B2R a) (B2R f)) = Ok c' ->
  fin a = true -> fin f = true -> / 10 ^ 6 <= B2R a <= 10 ^ 12 -> B2R f <= 0.006 ->
  fin x = true -> fin y = true -> fin z = true ->
  let r := sqrt (B2R x ^ 2 + B2R y ^ 2 + B2R z ^ 2) in 0.9 * B2R a <= r <= 1000 * B2R a ->
  let g := geocentric_to_geodetic (A := b64A lm) c (V3 (A := b64A lm) x y z) in
  let g' := geocentric_to_geodetic (A := realA) c' (V3 (A := realA) (B2R x) (B2R y) (B2R z)) in
  near (phi (A := b64A lm) g) (phi (A := realA) g') (1.8 / 10 ^ 14) /\
  near (height (A := b64A lm) g) (height (A := realA) g') (3 / 10 ^ 15 * r) /\
  (/ 10 ^ 300 <= B2R x ^ 2 + B2R y ^ 2 \/ B2R x = 0 /\ B2R y = 0 ->
   near_angle (elong (A := b64A lm) g) (elong (A := realA) g') (bpow radix2 (-51))).
Proof. exact L_PGdAny.C96_accuracy_pf. Qed.
Print Assumptions C96_accuracy.

(** C96, binary64: from the Cartesian coordinates of any place from a twelfth of the
    equatorial radius below to 990 radii above the ellipsoid, the computed latitude, height
    and longitude are those of the place, up to the truncation error of the formula (tol,
    which vanishes on the ellipsoid) and the rounding error. *)
Theorem C96_geodetic : forall lm, good_libm lm -> forall c a f x y z lo la h,
  conv_new (A := b64A lm) (MkEll (A := b64A lm) a f) = Ok c ->
  fin a = true -> fin f = true -> / 10 ^ 6 <= B2R a <= 10 ^ 12 -> B2R f <= 0.006 ->
  fin x = true -> fin y = true -> fin z = true ->
  - PI < lo <= PI -> - (PI / 2) <= la <= PI / 2 -> - (B2R a / 12) <= h <= 990 * B2R a ->
  ellipsoid_at (B2R a) (B2R f) lo la h = V3 (A := realA) (B2R x) (B2R y) (B2R z) ->
  let g := geocentric_to_geodetic (A := b64A lm) c (V3 (A := b64A lm) x y z) in
  let n := h / B2R a in
  let tol := 5 * B2R f ^ 4 * Rabs n ^ 3 / (1 + n) ^ 4 + 125 * B2R f ^ 5 * n ^ 2 / (1 + n) ^ 3 in
  near (phi (A := b64A lm) g) la (tol + 1.9 / 10 ^ 14) /\
  near (height (A := b64A lm) g) h ((Rabs h + 1.01 * B2R a) * (3.1 / 10 ^ 15)) /\
  (/ 10 ^ 300 <= B2R x ^ 2 + B2R y ^ 2 -> near_angle (elong (A := b64A lm) g) lo (bpow radix2 (-51))).
Proof. exact L_PGdAny.C96_geodetic_pf. Qed.
Print Assumptions C96_geodetic.

(** C96 at every height from a twelfth of the radius below to 990 radii above: latitude
    within 1.1e-9 rad, height within 3.1e-15 of the distance. *)
Theorem C96_everywhere : forall lm, good_libm lm -> forall c a f x y z lo la h,
  conv_new (A := b64A lm) (MkEll (A := b64A lm) a f) = Ok c ->
  fin a = true -> fin f = true -> / 10 ^ 6 <= B2R a <= 10 ^ 12 -> B2R f <= 0.006 ->
  fin x = true -> fin y = true -> fin z = true ->
  - PI < lo <= PI -> - (PI / 2) <= la <= PI / 2 -> - (B2R a / 12) <= h <= 990 * B2R a ->
  ellipsoid_at (B2R a) (B2R f) lo la h = V3 (A := realA) (B2R x) (B2R y) (B2R z) ->
  let g := geocentric_to_geodetic (A := b64A lm) c (V3 (A := b64A lm) x y z) in
  near (phi (A := b64A lm) g) la (1.1 / 10 ^ 9) /\
  near (height (A := b64A lm) g) h ((Rabs h + 1.01 * B2R a) * (3.1 / 10 ^ 15)).
Proof. exact L_PGdAny.C96_everywhere_pf. Qed.
Print Assumptions C96_everywhere.

(** C96 near the surface, up to a 600th of the radius above or below: latitude within
    2.2e-14 rad, height within 3.2e-15 of the radius. *)
Theorem C96_ground : forall lm, good_libm lm -> forall c a f x y z lo la h,
  conv_new (A := b64A lm) (MkEll (A := b64A lm) a f) = Ok c ->
  fin a = true -> fin f = true -> / 10 ^ 6 <= B2R a <= 10 ^ 12 -> B2R f <= 0.006 ->
  fin x = true -> fin y = true -> fin z = true ->
  - PI < lo <= PI -> - (PI / 2) <= la <= PI / 2 -> - (B2R a / 600) <= h <= B2R a / 600 ->
  ellipsoid_at (B2R a) (B2R f) lo la h = V3 (A := realA) (B2R x) (B2R y) (B2R z) ->
  let g := geocentric_to_geodetic (A := b64A lm) c (V3 (A := b64A lm) x y z) in
  near (phi (A := b64A lm) g) la (2.2 / 10 ^ 14) /\ near (height (A := b64A lm) g) h (3.2 / 10 ^ 15 * B2R a).
Proof. exact L_PGdAny.C96_ground_pf. Qed.
Print Assumptions C96_ground.

(** C96 on Mars (equatorial radius 3396190 m, flattening 0.00589): at the equator, 90
    degrees east, 1 km up: latitude 0, height 1000 m, longitude pi / 2; and on the axis
    3380 km south of the centre: latitude -pi / 2, height 3380 km less the semi-minor axis. *)
Example C96_example : forall lm, good_libm lm -> exists c,
  let a := Flit 3396190 0 in let f := Flit 589 (-5) in
  conv_new (A := b64A lm) (MkEll (A := b64A lm) a f) = Ok c /\
  (let g := geocentric_to_geodetic (A := b64A lm) c (V3 (A := b64A lm) (Flit 0 0) (Flit 3397190 0) (Flit 0 0)) in
   near (phi (A := b64A lm) g) 0 (2.2 / 10 ^ 14) /\ near (height (A := b64A lm) g) 1000 (1.1 / 10 ^ 8) /\
   near_angle (elong (A := b64A lm) g) (PI / 2) (bpow radix2 (-51))) /\
  (let g := geocentric_to_geodetic (A := b64A lm) c (V3 (A := b64A lm) (Flit 0 0) (Flit 0 0) (Flit (-3380000) 0)) in
   near (phi (A := b64A lm) g) (- (PI / 2)) (2.2 / 10 ^ 14) /\
   near (height (A := b64A lm) g) (3380000 - 3396190 * (1 - 0.00589)) (1.2 / 10 ^ 8)).
Proof. exact L_PGdAny.C96_example_pf. Qed.
