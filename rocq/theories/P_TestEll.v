(** * Properties: TestEll

    Statements only; proofs are in L_PTestEll.v. *)

From Coq Require Import ZArith Reals Lra Lia Bool List Ascii String.
From Flocq Require Import Core BinarySingleNaN.
From Verif Require Import Outcome Arith ArithR ArithF Spec_Float M_Common M_Calendar M_DeltaAt M_Time M_Earth M_Frames M_Ellipsoid M_Display M_Tests Spec_Calendar Spec_Api Spec_Matrix Spec_Accuracy Spec_Sharp Spec_Tests.
Import ListNotations.
Open Scope R_scope.
From Verif Require L_PTestEll.

(** C75, binary64, WGS84, up to 10 km above or below the ellipsoid: from geodetic to
    geocentric and back, the height comes back within 14.2 nanometres, the latitude within
    1.1e-10 rad, at every place including the poles. *)
Theorem C75_ground_height : forall lm, good_libm lm -> forall c lo la h,
  conv_new (A := b64A lm) (WGS84 (A := b64A lm)) = Ok c -> fin lo = true -> fin la = true -> fin h = true ->
  - (PI / 2) <= B2R la <= PI / 2 -> -10000 <= B2R h <= 10000 ->
  exists v, geodetic_to_geocentric (A := b64A lm) c (MkGeod (A := b64A lm) lo la h) = Ok v /\
  let g := geocentric_to_geodetic (A := b64A lm) c v in
  near (phi (A := b64A lm) g) (B2R la) (1.1 / 10 ^ 10) /\ near (height (A := b64A lm) g) (B2R h) (1.42 / 10 ^ 8).
Proof. exact L_PTestEll.C75_ground_height_pf. Qed.
Print Assumptions C75_ground_height.

(** C75, binary64, WGS84, the longitude: with a libm whose sine and cosine have a small relative error,
    and whose atan2 returns the principal argument, a longitude from -pi to pi comes back within 1.1e-15 rad
    at every place up to 10 km above or below the ellipsoid: also at the poles, and with no turn added. *)
Theorem C75_longitude : forall lm, good_libm lm -> sharp_libm lm -> forall c lo la h v,
  conv_new (A := b64A lm) (WGS84 (A := b64A lm)) = Ok c -> fin lo = true -> fin la = true -> fin h = true ->
  - PI <= B2R lo <= PI -> - (PI / 2) <= B2R la <= PI / 2 -> -10000 <= B2R h <= 10000 ->
  geodetic_to_geocentric (A := b64A lm) c (MkGeod (A := b64A lm) lo la h) = Ok v ->
  near (elong (A := b64A lm) (geocentric_to_geodetic (A := b64A lm) c v)) (B2R lo) (1.1 / 10 ^ 15).
Proof. exact L_PTestEll.C75_longitude_pf. Qed.
Print Assumptions C75_longitude.

(** A libm that rounds to nearest satisfies both assumptions. *)
Example C75_longitude_example : exists lm, good_libm lm /\ sharp_libm lm.
Proof. exact L_PTestEll.C75_longitude_example_pf. Qed.

(** C101, the ellipsoid test.  Whatever numbers in [0, 1) fastrand draws, and however many, the
    WGS84 round trip test passes with any libm of the stated accuracy. *)
Theorem C101_ellipsoid : forall lm, good_libm lm -> sharp_libm lm ->
  forall draws, Forall drawn3 draws -> test_ellipsoid (A := b64A lm) draws = Val tt.
Proof. exact L_PTestEll.C101_ellipsoid_pf. Qed.
Print Assumptions C101_ellipsoid.

(** One draw: 90 degrees east, 45 degrees south, 2.5 km up.  A libm that returns 0 for every angle fails there. *)
Example C101_ellipsoid_example :
  (forall lm, good_libm lm -> sharp_libm lm -> test_ellipsoid (A := b64A lm) [(Flit 75 (-2), Flit 5 (-1), Flit 25 (-2))] = Val tt) /\
  let zero := {| lm_sin := fun _ => Flit 0 0; lm_cos := fun _ => Flit 1 0; lm_acos := fun _ => Flit 0 0;
                 lm_atan := fun _ => Flit 0 0; lm_atan2 := fun _ _ => Flit 0 0 |} in
  test_ellipsoid (A := b64A zero) [(Flit 75 (-2), Flit 5 (-1), Flit 25 (-2))] = Panic.
Proof. exact L_PTestEll.C101_ellipsoid_example_pf. Qed.
