(** * Properties: AccGeo

    Statements only; proofs are in L_PAccGeo.v. *)

From Coq Require Import ZArith Reals Lra Lia Bool List.
From Flocq Require Import Core BinarySingleNaN.
From Verif Require Import Outcome Arith ArithR ArithF Spec_Float Spec_Accuracy M_Common M_Ellipsoid Spec_Matrix Spec_Sun Spec_Geo.
Import ListNotations.
Open Scope R_scope.
From Verif Require L_PAccGeo.

(** C70, exact arithmetic: the WGS84 converter computes the textbook position. *)
Theorem C70_exact : forall c lo la h, conv_new (A := realA) (WGS84 (A := realA)) = Ok c ->
  geodetic_to_geocentric (A := realA) c (MkGeod (A := realA) lo la h) = Ok (wgs84_at lo la h).
Proof. exact L_PAccGeo.C70_exact_pf. Qed.
Print Assumptions C70_exact.

(** C70, binary64: every longitude and latitude in radians, every height up to
    10000 km either way: each coordinate is within 3e-8 m. *)
Theorem C70_accuracy : forall lm, good_libm lm -> forall c lo la h,
  conv_new (A := b64A lm) (WGS84 (A := b64A lm)) = Ok c ->
  fin lo = true -> fin la = true -> fin h = true -> Rabs (B2R h) <= 10000000 ->
  exists v, geodetic_to_geocentric (A := b64A lm) c (MkGeod (A := b64A lm) lo la h) = Ok v /\
  let w := wgs84_at (B2R lo) (B2R la) (B2R h) in
  near (v0 (A := b64A lm) v) (coord w I0) (3 / 10 ^ 8) /\
  near (v1 (A := b64A lm) v) (coord w I1) (3 / 10 ^ 8) /\
  near (v2 (A := b64A lm) v) (coord w I2) (3 / 10 ^ 8).
Proof. exact L_PAccGeo.C70_accuracy_pf. Qed.
Print Assumptions C70_accuracy.

(** C70, binary64, from degrees: every longitude and latitude up to 360 degrees
    either way, every height up to 10000 km either way: each coordinate of the
    position is within 2e-7 m and each coordinate of the zenith within 5e-15. *)
Theorem C70_degrees : forall lm, good_libm lm -> forall c lo la h,
  conv_new (A := b64A lm) (WGS84 (A := b64A lm)) = Ok c ->
  fin lo = true -> fin la = true -> fin h = true ->
  Rabs (B2R lo) <= 360 -> Rabs (B2R la) <= 360 -> Rabs (B2R h) <= 10000000 ->
  let g := geodetic_of_360 (A := b64A lm) (MkG360 (A := b64A lm) lo la h) in
  let pos := MkG360 (A := realA) (B2R lo) (B2R la) (B2R h) in
  exists v, geodetic_to_geocentric (A := b64A lm) c g = Ok v /\
  forall i, near (vget (A := b64A lm) v i) (coord (wgs84_point pos) i) (2 / 10 ^ 7) /\
            near (vget (A := b64A lm) (zenith (A := b64A lm) g) i) (coord (zenith_of pos) i) (5 / 10 ^ 15).
Proof. exact L_PAccGeo.C70_degrees_pf. Qed.
Print Assumptions C70_degrees.

(** C70 at 90 degrees east on the equator, 1 km up: in binary64 y is within 2e-7 m
    of 6379137 m; the north pole is within 2e-7 m of the polar axis. *)
Example C70_example : forall lm, good_libm lm -> exists c v n,
  conv_new (A := b64A lm) (WGS84 (A := b64A lm)) = Ok c /\
  geodetic_to_geocentric (A := b64A lm) c (geodetic_of_360 (A := b64A lm) (MkG360 (A := b64A lm) (Flit 90 0) (Flit 0 0) (Flit 1000 0))) = Ok v /\
  near (v0 (A := b64A lm) v) 0 (2 / 10 ^ 7) /\ near (v1 (A := b64A lm) v) 6379137 (2 / 10 ^ 7) /\ near (v2 (A := b64A lm) v) 0 (2 / 10 ^ 7) /\
  geodetic_to_geocentric (A := b64A lm) c (geodetic_of_360 (A := b64A lm) (MkG360 (A := b64A lm) (Flit 0 0) (Flit 90 0) (Flit 0 0))) = Ok n /\
  near (v0 (A := b64A lm) n) 0 (2 / 10 ^ 7) /\ near (v1 (A := b64A lm) n) 0 (2 / 10 ^ 7) /\
  near (v2 (A := b64A lm) n) (6378137 * (1 - 1 / 298.257223563)) (2 / 10 ^ 7).
Proof. exact L_PAccGeo.C70_example_pf. Qed.
