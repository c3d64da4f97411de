(** * Properties: Published

    Statements only; proofs are in L_PPublished.v. *)

From Coq Require Import ZArith Reals Lra Lia List.
From Flocq Require Import Core BinarySingleNaN.
From Verif Require Import Outcome Arith ArithR ArithF Spec_Float Spec_Accuracy M_Common M_Time M_Frames M_Locator T_Nut T_Cio Spec_Matrix Spec_Frames Spec_Series Spec_Published.
Import ListNotations.
Open Scope R_scope.
From Verif Require L_PPublished.

(** C98.  In exact arithmetic, nutation returns the IAU 2000B nutation, the 77 terms written out. *)
Theorem C98_nutation : forall d, nutation (A := realA) d = Val (dpsi_2000b (centuries d), deps_2000b (centuries d)).
Proof. exact L_PPublished.C98_nutation_pf. Qed.
Print Assumptions C98_nutation.

(** C98.  The same in binary64, with the date split as a modified Julian date between 1585 and
    2132: within 6.7e-16 and 2.9e-16 rad. *)
Theorem C98_nutation_b64 : forall lm, good_libm lm -> forall a b : b64, fin a = true -> fin b = true ->
  B2R a = 2400000.5 -> Rabs (B2R b) <= 100000 ->
  let t := centuries (MkTT (A := realA) (B2R a) (B2R b)) in
  exists dpsi deps : b64, nutation (A := b64A lm) (MkTT (A := b64A lm) a b) = Val (dpsi, deps) /\
    near dpsi (dpsi_2000b t) (6.7 / 10 ^ 16) /\ near deps (deps_2000b t) (2.9 / 10 ^ 16).
Proof. exact L_PPublished.C98_nutation_b64_pf. Qed.
Print Assumptions C98_nutation_b64.

(** C98.  In exact arithmetic, the locator is the published series, written out, minus xy/2. *)
Theorem C98_locator : forall d x y, cio (A := realA) d x y = Val (s00_sxy2 (centuries d) - x * y / 2).
Proof. exact L_PPublished.C98_locator_pf. Qed.
Print Assumptions C98_locator.

(** C98.  The same in binary64, with the date split as a modified Julian date between 1585 and
    2132: within 1.7e-16 rad. *)
Theorem C98_locator_b64 : forall lm, good_libm lm -> forall a b x y : b64,
  fin a = true -> fin b = true -> fin x = true -> fin y = true ->
  B2R a = 2400000.5 -> Rabs (B2R b) <= 100000 -> Rabs (B2R x) <= 1 -> Rabs (B2R y) <= 1 ->
  exists s : b64, cio (A := b64A lm) (MkTT (A := b64A lm) a b) x y = Val s /\
    near s (s00_sxy2 (centuries (MkTT (A := realA) (B2R a) (B2R b))) - B2R x * B2R y / 2) (1.7 / 10 ^ 16).
Proof. exact L_PPublished.C98_locator_b64_pf. Qed.
Print Assumptions C98_locator_b64.

(** C98 at J2000.0, where only the constant coefficients count: the angle of the first term is
    the longitude of the node, 450160.398036 arcseconds, and the
    numbers of terms are 77 and 66. *)
Example C98_example :
  nutation (A := realA) (MkTT (A := realA) 2451545 0) = Val (dpsi_2000b 0, deps_2000b 0) /\
  angle5 0 (nth 0 iau2000b (Row5 0 0 0 0 0 0 0 0 0 0 0)) = arcsec 450160.398036 /\
  angle5 0 (nth 76 iau2000b (Row5 0 0 0 0 0 0 0 0 0 0 0)) = arcsec (485868.249036 + 1287104.79305 + 2 * 335779.526232 - 2 * 1072260.70369 + 2 * 450160.398036) /\
  length iau2000b = 77%nat /\ length (s00_0 ++ s00_1 ++ s00_2 ++ s00_3 ++ s00_4) = 66%nat.
Proof. exact L_PPublished.C98_example_pf. Qed.
