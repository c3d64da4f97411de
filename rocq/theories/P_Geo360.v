(** * Properties: Geo360

    Statements only; proofs are in L_PGeo360.v. *)

From Coq Require Import ZArith Reals Lra Lia Bool List.
From Flocq Require Import Core BinarySingleNaN.
From Verif Require Import Outcome Arith ArithR ArithF Spec_Float Spec_Accuracy M_Common M_Ellipsoid.
Import ListNotations.
Open Scope R_scope.
From Verif Require L_PGeo360.

(** C49, binary64: for every longitude up to 7 rad either way and every latitude
    between the poles except the two largest numbers below pi/2, the degrees are
    within 3.4e-13 of the true longitude (up to whole turns) and within 1.4e-13 of
    the true latitude, and converting back gives the angles within 1e-14 rad (up
    to whole turns) and 4e-15 rad. *)
Theorem C49_accuracy_b64_partial : forall lm p (l ph h : b64), fin l = true -> fin ph = true ->
  Rabs (B2R l) <= 7 -> - (PI / 2) <= B2R ph <= 7074237752028438 / 2 ^ 52 ->
  exists lo la : b64, geodetic_to_360 (A := b64A lm) p (MkGeod (A := b64A lm) l ph h) = Val (MkG360 (A := b64A lm) lo la h) /\
  (exists k : Z, near lo (B2R l * (180 / PI) + 360 * IZR k) (34 / 10 ^ 14)) /\
  near la (B2R ph * (180 / PI)) (14 / 10 ^ 14) /\
  let g := geodetic_of_360 (A := b64A lm) (MkG360 (A := b64A lm) lo la h) in
  near_angle (elong (A := b64A lm) g) (B2R l) (1 / 10 ^ 14) /\ near (phi (A := b64A lm) g) (B2R ph) (4 / 10 ^ 15).
Proof. exact L_PGeo360.C49_accuracy_b64_partial_pf. Qed.
Print Assumptions C49_accuracy_b64_partial.

(** C49, binary64: the two numbers left out do wrap: each becomes -90 degrees; the
    next one down becomes a latitude just below 90 degrees. *)
Theorem C49_north_pole_b64_refuted : forall lm,
  lat_360 (A := b64A lm) (Fof 7074237752028440 (-52)) = Flit (-90) 0 /\
  lat_360 (A := b64A lm) (Fof 7074237752028439 (-52)) = Flit (-90) 0 /\
  lat_360 (A := b64A lm) (Fof 7074237752028438 (-52)) = Fof 6333186975989758 (-46).
Proof. exact L_PGeo360.C49_north_pole_b64_refuted_pf. Qed.
Print Assumptions C49_north_pole_b64_refuted.

(** C49, binary64, at -3 rad of longitude and 1 rad of latitude. *)
Example C49_b64_example : forall lm p, exists lo la : b64,
  geodetic_to_360 (A := b64A lm) p (MkGeod (A := b64A lm) (Flit (-3) 0) (Flit 1 0) (Flit 7 0)) = Val (MkG360 (A := b64A lm) lo la (Flit 7 0)) /\
  near la (180 / PI) (14 / 10 ^ 14).
Proof. exact L_PGeo360.C49_b64_example_pf. Qed.
