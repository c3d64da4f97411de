(** * Properties: RefFrames

    Statements only; proofs are in L_PRefFrames.v. *)

From Coq Require Import ZArith Reals Lra Lia Bool List.
From Flocq Require Import Core BinarySingleNaN.
From Verif Require Import Outcome Arith ArithR ArithF Spec_Float Spec_Accuracy M_Common M_Time M_Earth M_Locator M_Frames Spec_Matrix Spec_Frames Spec_Series Spec_C2t Spec_RefFrames.
Import ListNotations.
Open Scope R_scope.
From Verif Require L_PRefFrames.

(** In exact arithmetic the program gives the published values of the IAU SOFA tests
    at TT = UT1 = 2400000.5 + 53736: the nutation angles to 6.8e-16 and 3e-16 rad, the
    locator to 1.8e-16 rad, the two rotation matrices to 2.1e-13 and 1.46e-11. *)
Theorem C106_exact :
  let d := MkTT (A := realA) 2400000.5 53736 in let u := MkUT1 (A := realA) 2400000.5 53736 in
  (exists dpsi deps, nutation (A := realA) d = Val (dpsi, deps) /\ Rabs (dpsi - ref_dpsi) <= 6.8 / 10 ^ 16 /\ Rabs (deps - ref_deps) <= 3 / 10 ^ 16) /\
  (exists s, cio (A := realA) d (B2R ref_x) (B2R ref_y) = Val s /\ Rabs (s - ref_s) <= 1.8 / 10 ^ 16) /\
  (exists q, celestial_to_intermediate (A := realA) d = Val q /\ forall i j, Rabs (entry q i j - ref_c2i i j) <= 2.1 / 10 ^ 13) /\
  (exists m, celestial_to_terrestrial (A := realA) d u (B2R ref_xp) (B2R ref_yp) = Val m /\ forall i j, Rabs (entry m i j - ref_c2t i j) <= 1.46 / 10 ^ 11).
Proof. exact L_PRefFrames.C106_exact_pf. Qed.
Print Assumptions C106_exact.

(** The binary64 program gives the published values with every good libm: the nutation
    angles to 1.4e-15 and 6e-16 rad, the locator to 3.5e-16 rad, the two matrices to
    4.1e-13 and 3e-11. *)
Theorem C106_b64 : forall lm, good_libm lm ->
  let d := MkTT (A := b64A lm) (Flit 24000005 (-1)) (Flit 53736 0) in let u := MkUT1 (A := b64A lm) (Flit 24000005 (-1)) (Flit 53736 0) in
  (exists dpsi deps : b64, nutation (A := b64A lm) d = Val (dpsi, deps) /\ near dpsi ref_dpsi (1.4 / 10 ^ 15) /\ near deps ref_deps (6 / 10 ^ 16)) /\
  (exists s : b64, cio (A := b64A lm) d ref_x ref_y = Val s /\ near s ref_s (3.5 / 10 ^ 16)) /\
  (exists q, celestial_to_intermediate (A := b64A lm) d = Val q /\ forall i j, near (mget (A := b64A lm) q i j) (ref_c2i i j) (4.1 / 10 ^ 13)) /\
  (exists m, celestial_to_terrestrial (A := b64A lm) d u ref_xp ref_yp = Val m /\ forall i j, near (mget (A := b64A lm) m i j) (ref_c2t i j) (3 / 10 ^ 11)).
Proof. exact L_PRefFrames.C106_b64_pf. Qed.
Print Assumptions C106_b64.

(** Nutation at the reference date in exact arithmetic is -1.98686 arcseconds in
    longitude and 8.38095 arcseconds in obliquity, to 10 microarcseconds. *)
Example C106_example : exists dpsi deps, nutation (A := realA) (MkTT (A := realA) 2400000.5 53736) = Val (dpsi, deps) /\
  Rabs (dpsi + 1.98686 * (PI / 648000)) <= 0.00001 * (PI / 648000) /\ Rabs (deps - 8.38095 * (PI / 648000)) <= 0.00001 * (PI / 648000).
Proof. exact L_PRefFrames.C106_example_pf. Qed.
