(** * Properties: Fund

    Statements only; proofs are in L_PFund.v. *)

From Coq Require Import ZArith Reals Lra Lia Bool List.
From Flocq Require Import Core BinarySingleNaN.
From Verif Require Import Outcome Arith ArithR ArithF Spec_Float Spec_Accuracy M_Common M_Time M_Earth M_Fundargs M_Locator M_Frames
  Spec_Matrix Spec_Frames Spec_Series.
Import ListNotations.
Open Scope R_scope.
From Verif Require L_PFund.

(** C50 in binary64, for any libm: within a century of J2000.0 the arguments are the IERS
    polynomials, up to whole turns, within 2.9e-12 rad for the lunar ones (l, F, D),
    3e-13 for l' and the longitude of the Earth, 4.6e-13 for that of Venus, 1.5e-14 for the
    node and 1e-17 for the precession. *)
Theorem C50_accuracy_b64_partial : forall lm (t : b64), fin t = true -> Rabs (B2R t) <= 1 ->
  near_angle (l03 (A := b64A lm) t) (iers_l (B2R t)) (2.9 / 10 ^ 12) /\
  near_angle (lp03 (A := b64A lm) t) (iers_lp (B2R t)) (3 / 10 ^ 13) /\
  near_angle (f03 (A := b64A lm) t) (iers_f (B2R t)) (2.9 / 10 ^ 12) /\
  near_angle (d03 (A := b64A lm) t) (iers_d (B2R t)) (2.9 / 10 ^ 12) /\
  near_angle (om03 (A := b64A lm) t) (iers_om (B2R t)) (1.5 / 10 ^ 14) /\
  near_angle (ve03 (A := b64A lm) t) (iers_ve (B2R t)) (4.6 / 10 ^ 13) /\
  near_angle (e03 (A := b64A lm) t) (iers_e (B2R t)) (3 / 10 ^ 13) /\
  near_angle (pa03 (A := b64A lm) t) (iers_pa (B2R t)) (1 / 10 ^ 17).
Proof. exact L_PFund.C50_accuracy_b64_partial_pf. Qed.
Print Assumptions C50_accuracy_b64_partial.

(** C50 in binary64 within ten centuries of J2000.0. *)
Theorem C50_accuracy_b64_far_partial : forall lm (t : b64), fin t = true -> Rabs (B2R t) <= 10 ->
  near_angle (l03 (A := b64A lm) t) (iers_l (B2R t)) (2.9 / 10 ^ 11) /\
  near_angle (lp03 (A := b64A lm) t) (iers_lp (B2R t)) (3 / 10 ^ 12) /\
  near_angle (f03 (A := b64A lm) t) (iers_f (B2R t)) (2.9 / 10 ^ 11) /\
  near_angle (d03 (A := b64A lm) t) (iers_d (B2R t)) (2.9 / 10 ^ 11) /\
  near_angle (om03 (A := b64A lm) t) (iers_om (B2R t)) (1.5 / 10 ^ 13) /\
  near_angle (ve03 (A := b64A lm) t) (iers_ve (B2R t)) (4.6 / 10 ^ 12) /\
  near_angle (e03 (A := b64A lm) t) (iers_e (B2R t)) (3 / 10 ^ 12) /\
  near_angle (pa03 (A := b64A lm) t) (iers_pa (B2R t)) (1 / 10 ^ 16).
Proof. exact L_PFund.C50_accuracy_b64_far_partial_pf. Qed.
Print Assumptions C50_accuracy_b64_far_partial.

(** C50 at t = 1/2 (the year 2050): the longitude of the node, for any libm. *)
Example C50_b64_example : forall lm,
  near_angle (om03 (A := b64A lm) (Flit 5 (-1))) (arcsec (450160.398036 - 6962890.5431 / 2 + 7.4722 / 4 + 0.007702 / 8 - 0.00005939 / 16)) (1.5 / 10 ^ 14).
Proof. exact L_PFund.C50_b64_example_pf. Qed.

(** Exact arithmetic: the IAU 1980 mean obliquity and the IAU 2000 corrections to the
    precession rates times the time elapsed. *)
Theorem C81_obliquity_exact : forall d,
  mean_obliquity (A := realA) d = eps_1980 (centuries d) /\
  precession_rate (A := realA) d = (arcsec (- 0.29965 * centuries d), arcsec (- 0.02524 * centuries d)).
Proof. exact L_PFund.C81_obliquity_exact_pf. Qed.
Print Assumptions C81_obliquity_exact.

(** In binary64, for every split of the date with parts up to 2^22 days and any libm, the
    mean obliquity is within 6e-16 rad and the corrections within 3.2e-19 and 2.7e-20 rad. *)
Theorem C81_obliquity_b64 : forall lm (a b : b64), fin a = true -> fin b = true ->
  Rabs (B2R a) <= 4194304 -> Rabs (B2R b) <= 4194304 ->
  let t := centuries (MkTT (A := realA) (B2R a) (B2R b)) in
  near (mean_obliquity (A := b64A lm) (MkTT (A := b64A lm) a b)) (eps_1980 t) (6 / 10 ^ 16) /\
  near (fst (precession_rate (A := b64A lm) (MkTT (A := b64A lm) a b))) (arcsec (- 0.29965 * t)) (3.2 / 10 ^ 19) /\
  near (snd (precession_rate (A := b64A lm) (MkTT (A := b64A lm) a b))) (arcsec (- 0.02524 * t)) (2.7 / 10 ^ 20).
Proof. exact L_PFund.C81_obliquity_b64_pf. Qed.
Print Assumptions C81_obliquity_b64.

(** With the date split as a modified Julian date between 1585 and 2132: 1.9e-16, 4.3e-21
    and 3.6e-22 rad. *)
Theorem C81_obliquity_b64_mjd : forall lm (a b : b64), fin a = true -> fin b = true ->
  B2R a = 2400000.5 -> Rabs (B2R b) <= 100000 ->
  let t := centuries (MkTT (A := realA) (B2R a) (B2R b)) in
  near (mean_obliquity (A := b64A lm) (MkTT (A := b64A lm) a b)) (eps_1980 t) (1.9 / 10 ^ 16) /\
  near (fst (precession_rate (A := b64A lm) (MkTT (A := b64A lm) a b))) (arcsec (- 0.29965 * t)) (4.3 / 10 ^ 21) /\
  near (snd (precession_rate (A := b64A lm) (MkTT (A := b64A lm) a b))) (arcsec (- 0.02524 * t)) (3.6 / 10 ^ 22).
Proof. exact L_PFund.C81_obliquity_b64_mjd_pf. Qed.
Print Assumptions C81_obliquity_b64_mjd.

(** At J2000.0 the mean obliquity is 84381.448 arcseconds, exactly in exact arithmetic and
    within 1.9e-16 rad in binary64. *)
Example C81_example : mean_obliquity (A := realA) (MkTT (A := realA) 2451545 0) = arcsec 84381.448 /\
  forall lm, near (mean_obliquity (A := b64A lm) (MkTT (A := b64A lm) (Flit 24000005 (-1)) (Flit 515445 (-1)))) (arcsec 84381.448) (1.9 / 10 ^ 16).
Proof. exact L_PFund.C81_example_pf. Qed.
