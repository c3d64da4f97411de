(** * Properties: GeoAny

    Statements only; proofs are in L_PGeoAny.v. *)

From Coq Require Import ZArith Reals Lra Lia Bool List.
From Flocq Require Import Core BinarySingleNaN.
From Verif Require Import Outcome Arith ArithR ArithF Spec_Float Spec_Accuracy M_Common M_Ellipsoid Spec_Matrix Spec_Ell.
Import ListNotations.
Open Scope R_scope.
From Verif Require L_PGeoAny.

(** C70 on any ellipsoid of revolution with a flattening of at most 1/8 and a radius from 2^-400
    to 2^400, at any longitude and latitude and any height up to 2^400: each coordinate is
    within 5e-15 (a + |h|) of the exact position. *)
Theorem C70_any_ellipsoid : forall lm, good_libm lm -> forall c a f lo la h,
  conv_new (A := b64A lm) (MkEll (A := b64A lm) a f) = Ok c ->
  fin a = true -> fin f = true -> fin lo = true -> fin la = true -> fin h = true ->
  bpow radix2 (-400) <= B2R a <= bpow radix2 400 -> 0 <= B2R f <= 1 / 8 -> Rabs (B2R h) <= bpow radix2 400 ->
  exists v, geodetic_to_geocentric (A := b64A lm) c (MkGeod (A := b64A lm) lo la h) = Ok v /\
  forall i, near (vget (A := b64A lm) v i) (coord (ellipsoid_at (B2R a) (B2R f) (B2R lo) (B2R la) (B2R h)) i)
    (5 / 10 ^ 15 * (B2R a + Rabs (B2R h))).
Proof. exact L_PGeoAny.C70_any_ellipsoid_pf. Qed.
Print Assumptions C70_any_ellipsoid.

(** C70 for a Jupiter-like ellipsoid (71492 km, flattening 1/16), 100 km above the equator at
    longitude 0, in metres: within 4e-7 m. *)
Example C70_any_example : forall lm, good_libm lm -> exists c v,
  conv_new (A := b64A lm) (MkEll (A := b64A lm) (Flit 71492000 0) (Flit 625 (-4))) = Ok c /\
  geodetic_to_geocentric (A := b64A lm) c (MkGeod (A := b64A lm) (Flit 0 0) (Flit 0 0) (Flit 100000 0)) = Ok v /\
  near (v0 (A := b64A lm) v) 71592000 (4 / 10 ^ 7).
Proof. exact L_PGeoAny.C70_any_example_pf. Qed.
