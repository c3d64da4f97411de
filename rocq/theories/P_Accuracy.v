(** * Properties: Accuracy

    Statements only; proofs are in L_PAccuracy.v. *)

From Coq Require Import ZArith Reals Lra Lia Bool List.
From Flocq Require Import Core BinarySingleNaN.
From Verif Require Import Outcome Arith ArithR ArithF Spec_Float Spec_Accuracy M_Common M_Time M_Earth M_Locator M_Frames Spec_Matrix Spec_Frames Spec_Series.
Import ListNotations.
Open Scope R_scope.
From Verif Require L_PAccuracy.

(** The literals for pi, for a turn and for an arc second are within one unit in
    the last place of the true values. *)
Theorem C64_constants : forall lm,
  near (c_pi (b64A lm)) PI (3.5 / 10 ^ 16) /\
  near (c_two_pi (b64A lm)) (2 * PI) (7 / 10 ^ 16) /\
  near (c_as2r (b64A lm)) (PI / 648000) (5.4 / 10 ^ 22).
Proof. exact L_PAccuracy.C64_constants_pf. Qed.
Print Assumptions C64_constants.

(** A libm of the accuracy assumed below exists, so theorems under that assumption
    are not empty. *)
Theorem C64_libm_exists : exists lm, good_libm lm.
Proof. exact L_PAccuracy.C64_libm_exists_pf. Qed.
Print Assumptions C64_libm_exists.

(** The Earth rotation angle of any two-part date is within 1.6e-10 rad (33
    micro-arcseconds) of the exact one, whatever the split of the date. *)
Theorem C64_era_accuracy : forall lm (a b : b64), fin a = true -> fin b = true ->
  Rabs (B2R a) <= 4194304 -> Rabs (B2R b) <= 4194304 ->
  near_angle (rotation_angle (A := b64A lm) (MkUT1 (A := b64A lm) a b))
    (era_of (MkUT1 (A := realA) (B2R a) (B2R b))) (1.6 / 10 ^ 10).
Proof. exact L_PAccuracy.C64_era_accuracy_pf. Qed.
Print Assumptions C64_era_accuracy.

(** With the date split as a modified Julian date, the error is below 7e-12 rad
    (1.5 micro-arcseconds). *)
Theorem C64_era_accuracy_mjd : forall lm (a b : b64), fin a = true -> fin b = true ->
  B2R a = 2400000.5 -> Rabs (B2R b) <= 100000 ->
  near_angle (rotation_angle (A := b64A lm) (MkUT1 (A := b64A lm) a b))
    (era_of (MkUT1 (A := realA) (B2R a) (B2R b))) (7 / 10 ^ 12).
Proof. exact L_PAccuracy.C64_era_accuracy_mjd_pf. Qed.
Print Assumptions C64_era_accuracy_mjd.

(** C64 at the date of the test of the IAU SOFA routine (2400000.5, 54388): the
    program is within 2e-15 rad of the published value. *)
Example C64_example : forall lm,
  near (rotation_angle (A := b64A lm) (MkUT1 (A := b64A lm) (Flit 24000005 (-1)) (Flit 54388 0)))
    0.4022837240028158102 (2 / 10 ^ 15).
Proof. exact L_PAccuracy.C64_example_pf. Qed.

(** The binary64 nutation never panics and is within 5.3e-14 rad (1.1e-8 arcseconds)
    in longitude and 2.5e-14 rad in obliquity of the IAU 2000B series, for every
    split of every date within 11 000 years of J2000. *)
Theorem C65_nutation_accuracy : forall lm, good_libm lm -> forall a b : b64, fin a = true -> fin b = true ->
  Rabs (B2R a) <= 4194304 -> Rabs (B2R b) <= 4194304 ->
  let t := centuries (MkTT (A := realA) (B2R a) (B2R b)) in
  exists dpsi deps : b64, nutation (A := b64A lm) (MkTT (A := b64A lm) a b) = Val (dpsi, deps) /\
    near dpsi (nut_dpsi t) (5.3 / 10 ^ 14) /\ near deps (nut_deps t) (2.5 / 10 ^ 14).
Proof. exact L_PAccuracy.C65_nutation_accuracy_pf. Qed.
Print Assumptions C65_nutation_accuracy.

(** With the date split as a modified Julian date between 1585 and 2132 the errors
    are below 6.7e-16 and 2.9e-16 rad. *)
Theorem C65_nutation_accuracy_mjd : forall lm, good_libm lm -> forall a b : b64, fin a = true -> fin b = true ->
  B2R a = 2400000.5 -> Rabs (B2R b) <= 100000 ->
  let t := centuries (MkTT (A := realA) (B2R a) (B2R b)) in
  exists dpsi deps : b64, nutation (A := b64A lm) (MkTT (A := b64A lm) a b) = Val (dpsi, deps) /\
    near dpsi (nut_dpsi t) (6.7 / 10 ^ 16) /\ near deps (nut_deps t) (2.9 / 10 ^ 16).
Proof. exact L_PAccuracy.C65_nutation_accuracy_mjd_pf. Qed.
Print Assumptions C65_nutation_accuracy_mjd.

(** C65 at TT 2400000.5 + 53736 (1 January 2006), for every libm of that accuracy. *)
Example C65_example : forall lm, good_libm lm -> exists dpsi deps : b64,
  nutation (A := b64A lm) (MkTT (A := b64A lm) (Flit 24000005 (-1)) (Flit 53736 0)) = Val (dpsi, deps) /\
  near dpsi (nut_dpsi (2191.5 / 36525)) (6.7 / 10 ^ 16) /\ near deps (nut_deps (2191.5 / 36525)) (2.9 / 10 ^ 16).
Proof. exact L_PAccuracy.C65_example_pf. Qed.

(** The binary64 CIO locator is within 2e-12 rad of the IAU 2000A series minus xy/2
    for every split of every date with parts up to 2^22 days. *)
Theorem C66_cio_accuracy : forall lm, good_libm lm -> forall a b x y : b64,
  fin a = true -> fin b = true -> fin x = true -> fin y = true ->
  Rabs (B2R a) <= 4194304 -> Rabs (B2R b) <= 4194304 -> Rabs (B2R x) <= 1 -> Rabs (B2R y) <= 1 ->
  exists s : b64, cio (A := b64A lm) (MkTT (A := b64A lm) a b) x y = Val s /\
    near s (cio_sxy2 (centuries (MkTT (A := realA) (B2R a) (B2R b))) - B2R x * B2R y / 2) (2 / 10 ^ 12).
Proof. exact L_PAccuracy.C66_cio_accuracy_pf. Qed.
Print Assumptions C66_cio_accuracy.

(** With the date split as a modified Julian date between 1585 and 2132 the error
    is below 1.7e-16 rad. *)
Theorem C66_cio_accuracy_mjd : forall lm, good_libm lm -> forall a b x y : b64,
  fin a = true -> fin b = true -> fin x = true -> fin y = true ->
  B2R a = 2400000.5 -> Rabs (B2R b) <= 100000 -> Rabs (B2R x) <= 1 -> Rabs (B2R y) <= 1 ->
  exists s : b64, cio (A := b64A lm) (MkTT (A := b64A lm) a b) x y = Val s /\
    near s (cio_sxy2 (centuries (MkTT (A := realA) (B2R a) (B2R b))) - B2R x * B2R y / 2) (1.7 / 10 ^ 16).
Proof. exact L_PAccuracy.C66_cio_accuracy_mjd_pf. Qed.
Print Assumptions C66_cio_accuracy_mjd.

(** C66 at TT 2400000.5 + 53736 (1 January 2006) with the pole at the origin. *)
Example C66_example : forall lm, good_libm lm -> exists s : b64,
  cio (A := b64A lm) (MkTT (A := b64A lm) (Flit 24000005 (-1)) (Flit 53736 0)) (Flit 0 0) (Flit 0 0) = Val s /\
  near s (cio_sxy2 (2191.5 / 36525)) (1.7 / 10 ^ 16).
Proof. exact L_PAccuracy.C66_example_pf. Qed.
