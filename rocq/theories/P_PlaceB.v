(** * Properties: PlaceB

    Statements only; proofs are in L_PPlaceB.v. *)

From Coq Require Import ZArith Reals Lra Lia Bool List Psatz.
From Flocq Require Import Core BinarySingleNaN.
From Verif Require Import Outcome Arith ArithR ArithF M_Common M_Calendar M_Time M_Ellipsoid M_Locator M_Frames M_Earth M_SunAngle Spec_Calendar Spec_Api Spec_Accuracy Spec_Matrix Spec_Sun Spec_SunAcc Spec_Almanac.
Open Scope R_scope.
From Verif Require L_PPlaceB.

(** C94 in binary64: for the usual inputs at two places of latitude at least 25
    degrees, north or south, the two binary64 zenith angles are finite, differ by
    at most the angle between the verticals and add up to at least that angle,
    within 0.2 microradians. *)
Theorem C94_moving_b64 : forall lm, good_libm lm -> forall p g h m s lo la ht lo' la' ht' ds,
  usual_inputs g h m s lo la ht ds -> usual_inputs g h m s lo' la' ht' ds -> 25 <= Rabs (B2R la) <= 90 -> 25 <= Rabs (B2R la') <= 90 ->
  exists c r c' r', sun_new (A := b64A lm) p (parF lm g h m s lo la ht) = Val c /\ sun_compute (A := b64A lm) c ds = Val r /\
  sun_new (A := b64A lm) p (parF lm g h m s lo' la' ht') = Val c' /\ sun_compute (A := b64A lm) c' ds = Val r' /\
  is_finite (sr_sza (A := b64A lm) r) = true /\ is_finite (sr_sza (A := b64A lm) r') = true /\
  let moved := acos (sprod (zenith_of (MkG360 (A := realA) (B2R lo) (B2R la) (B2R ht))) (zenith_of (MkG360 (A := realA) (B2R lo') (B2R la') (B2R ht')))) in
  Rabs (B2R (sr_sza (A := b64A lm) r) - B2R (sr_sza (A := b64A lm) r')) <= moved + 2 / 10 ^ 7 /\
  moved <= B2R (sr_sza (A := b64A lm) r) + B2R (sr_sza (A := b64A lm) r') + 2 / 10 ^ 7.
Proof. exact L_PPlaceB.C94_moving_b64_pf. Qed.
Print Assumptions C94_moving_b64.

(** C94 in binary64, antipodes: at opposite latitudes and longitudes 180 degrees
    apart the two zenith angles add up to pi within 0.2 microradians. *)
Theorem C94_antipodes_b64 : forall lm, good_libm lm -> forall p g h m s lo la ht lo' la' ht' ds,
  usual_inputs g h m s lo la ht ds -> usual_inputs g h m s lo' la' ht' ds -> 25 <= Rabs (B2R la) <= 90 ->
  B2R la' = - B2R la -> B2R lo' = B2R lo + 180 ->
  exists c r c' r', sun_new (A := b64A lm) p (parF lm g h m s lo la ht) = Val c /\ sun_compute (A := b64A lm) c ds = Val r /\
  sun_new (A := b64A lm) p (parF lm g h m s lo' la' ht') = Val c' /\ sun_compute (A := b64A lm) c' ds = Val r' /\
  Rabs (B2R (sr_sza (A := b64A lm) r) + B2R (sr_sza (A := b64A lm) r') - PI) <= 2 / 10 ^ 7.
Proof. exact L_PPlaceB.C94_antipodes_b64_pf. Qed.
Print Assumptions C94_antipodes_b64.

(** C94 in binary64 at 45 degrees north and its antipodes at noon UT of 2000
    January 1. *)
Example C94_b64_example : forall lm, good_libm lm -> forall p, exists c r c' r',
  sun_new (A := b64A lm) p (parF lm (MkDate 2000 1 1) 12 0 (Flit 0 0) (Flit 0 0) (Flit 45 0) (Flit 0 0)) = Val c /\ sun_compute (A := b64A lm) c (Flit 0 0) = Val r /\
  sun_new (A := b64A lm) p (parF lm (MkDate 2000 1 1) 12 0 (Flit 0 0) (Flit 180 0) (Flit (-45) 0) (Flit 0 0)) = Val c' /\ sun_compute (A := b64A lm) c' (Flit 0 0) = Val r' /\
  Rabs (B2R (sr_sza (A := b64A lm) r) + B2R (sr_sza (A := b64A lm) r') - PI) <= 2 / 10 ^ 7.
Proof. exact L_PPlaceB.C94_b64_example_pf. Qed.
