(** * Properties: AccC2t

    Statements only; proofs are in L_PAccC2t.v. *)

From Coq Require Import ZArith Reals Lra Lia Bool List.
From Flocq Require Import Core BinarySingleNaN.
From Verif Require Import Outcome Arith ArithR ArithF Spec_Float Spec_Accuracy M_Common M_Time M_Earth M_Frames Spec_Matrix Spec_Frames Spec_Series Spec_C2t.
Import ListNotations.
Open Scope R_scope.
From Verif Require L_PAccC2t.

(** In exact arithmetic the matrices are those of the IERS Conventions with the pole,
    the CIO locator and the Earth rotation angle of the date, within 50 centuries of
    J2000. *)
Theorem C69_exact : forall d, Rabs (centuries d) <= 50 ->
  celestial_to_intermediate (A := realA) d = Val (C2I (centuries d)) /\
  forall u xp yp, celestial_to_terrestrial (A := realA) d u xp yp = Val (C2T (centuries d) (era_of u) xp yp).
Proof. exact L_PAccC2t.C69_exact_pf. Qed.
Print Assumptions C69_exact.

(** The celestial-to-intermediate matrix of a given pole within half the unit radius
    is within 1.8e-14 of the exact one, also where the squares underflow. *)
Theorem C69_pole_matrix_accuracy : forall lm, good_libm lm -> forall x y s : b64, fin x = true -> fin y = true -> fin s = true ->
  B2R x * B2R x + B2R y * B2R y <= 1 / 4 -> Rabs (B2R s) <= 1 ->
  exists m, c2i_from_xys (A := b64A lm) x y s = Val m /\
  forall i j, near (mget (A := b64A lm) m i j) (entry (Q_matrix (B2R x) (B2R y) (B2R s)) i j) (1.8 / 10 ^ 14).
Proof. exact L_PAccC2t.C69_pole_matrix_accuracy_pf. Qed.
Print Assumptions C69_pole_matrix_accuracy.

(** For every split with parts up to 2^22 days of every date within 10 centuries of
    J2000, the binary64 celestial-to-intermediate matrix is within 8.7e-13 of the
    exact one, entry by entry, and the celestial-to-terrestrial matrix within 3.3e-10,
    for every finite pole position. *)
Theorem C69_terrestrial_accuracy : forall lm, good_libm lm -> forall a b : b64, fin a = true -> fin b = true ->
  Rabs (B2R a) <= 4194304 -> Rabs (B2R b) <= 4194304 ->
  let t := centuries (MkTT (A := realA) (B2R a) (B2R b)) in
  Rabs t <= 10 ->
  (exists q, celestial_to_intermediate (A := b64A lm) (MkTT (A := b64A lm) a b) = Val q /\
     forall i j, near (mget (A := b64A lm) q i j) (entry (C2I t) i j) (8.7 / 10 ^ 13)) /\
  forall u1 u2 xp yp : b64, fin u1 = true -> fin u2 = true -> fin xp = true -> fin yp = true ->
  Rabs (B2R u1) <= 4194304 -> Rabs (B2R u2) <= 4194304 ->
  exists m, celestial_to_terrestrial (A := b64A lm) (MkTT (A := b64A lm) a b) (MkUT1 (A := b64A lm) u1 u2) xp yp = Val m /\
    forall i j, near (mget (A := b64A lm) m i j)
      (entry (C2T t (era_of (MkUT1 (A := realA) (B2R u1) (B2R u2))) (B2R xp) (B2R yp)) i j) (3.3 / 10 ^ 10).
Proof. exact L_PAccC2t.C69_terrestrial_accuracy_pf. Qed.
Print Assumptions C69_terrestrial_accuracy.

(** With both dates split as modified Julian dates between 1585 and 2132 the errors are
    below 2e-13 and 1.45e-11 (0.1 mm at the surface of the Earth). *)
Theorem C69_terrestrial_accuracy_mjd : forall lm, good_libm lm -> forall a b : b64, fin a = true -> fin b = true ->
  B2R a = 2400000.5 -> Rabs (B2R b) <= 100000 ->
  let t := centuries (MkTT (A := realA) (B2R a) (B2R b)) in
  (exists q, celestial_to_intermediate (A := b64A lm) (MkTT (A := b64A lm) a b) = Val q /\
     forall i j, near (mget (A := b64A lm) q i j) (entry (C2I t) i j) (2 / 10 ^ 13)) /\
  forall u1 u2 xp yp : b64, fin u1 = true -> fin u2 = true -> fin xp = true -> fin yp = true ->
  B2R u1 = 2400000.5 -> Rabs (B2R u2) <= 100000 ->
  exists m, celestial_to_terrestrial (A := b64A lm) (MkTT (A := b64A lm) a b) (MkUT1 (A := b64A lm) u1 u2) xp yp = Val m /\
    forall i j, near (mget (A := b64A lm) m i j)
      (entry (C2T t (era_of (MkUT1 (A := realA) (B2R u1) (B2R u2))) (B2R xp) (B2R yp)) i j) (1.45 / 10 ^ 11).
Proof. exact L_PAccC2t.C69_terrestrial_accuracy_mjd_pf. Qed.
Print Assumptions C69_terrestrial_accuracy_mjd.

(** C69 at TT = UT1 = 2400000.5 + 53736 with the pole on the axis. *)
Example C69_example : forall lm, good_libm lm -> exists m,
  celestial_to_terrestrial (A := b64A lm) (MkTT (A := b64A lm) (Flit 24000005 (-1)) (Flit 53736 0))
    (MkUT1 (A := b64A lm) (Flit 24000005 (-1)) (Flit 53736 0)) (Flit 0 0) (Flit 0 0) = Val m /\
  near (mget (A := b64A lm) m I0 I0)
    (entry (C2T (2191.5 / 36525) (era_of (MkUT1 (A := realA) 2400000.5 53736)) 0 0) I0 I0) (1.45 / 10 ^ 11).
Proof. exact L_PAccC2t.C69_example_pf. Qed.
