(** * Properties: AccFrames

    Statements only; proofs are in L_PAccFrames.v. *)

From Coq Require Import ZArith Reals Lra Lia Bool List.
From Flocq Require Import Core BinarySingleNaN.
From Verif Require Import Outcome Arith ArithR ArithF Spec_Float Spec_Accuracy M_Common M_Time M_Earth M_Frames Spec_Matrix Spec_Frames Spec_Series.
Import ListNotations.
Open Scope R_scope.
From Verif Require L_PAccFrames.

(** For every split of every date with parts up to 2^22 days, every entry of the
    binary64 bias-precession-nutation matrix is within 2.4e-13 of the exact product of
    the nutation, precession and bias matrices, and its rows are orthonormal to 5e-13. *)
Theorem C68_precession_nutation_accuracy : forall lm, good_libm lm -> forall a b : b64, fin a = true -> fin b = true ->
  Rabs (B2R a) <= 4194304 -> Rabs (B2R b) <= 4194304 ->
  let t := centuries (MkTT (A := realA) (B2R a) (B2R b)) in
  exists m, precession_nutation (A := b64A lm) (MkTT (A := b64A lm) a b) = Val m /\
  (forall i j, near (mget (A := b64A lm) m i j)
    (entry (product [N_matrix (eps_A t) (nut_dpsi t) (nut_deps t); P_matrix t; B_matrix]) i j) (2.4 / 10 ^ 13)) /\
  (forall i j, Rabs (B2R (mget (A := b64A lm) m i I0) * B2R (mget (A := b64A lm) m j I0)
    + B2R (mget (A := b64A lm) m i I1) * B2R (mget (A := b64A lm) m j I1)
    + B2R (mget (A := b64A lm) m i I2) * B2R (mget (A := b64A lm) m j I2) - kron i j) <= 5 / 10 ^ 13).
Proof. exact L_PAccFrames.C68_precession_nutation_accuracy_pf. Qed.
Print Assumptions C68_precession_nutation_accuracy.

(** With the date split as a modified Julian date between 1585 and 2132 the entries are
    within 5e-14 and the rows orthonormal to 1.1e-13. *)
Theorem C68_precession_nutation_accuracy_mjd : forall lm, good_libm lm -> forall a b : b64, fin a = true -> fin b = true ->
  B2R a = 2400000.5 -> Rabs (B2R b) <= 100000 ->
  let t := centuries (MkTT (A := realA) (B2R a) (B2R b)) in
  exists m, precession_nutation (A := b64A lm) (MkTT (A := b64A lm) a b) = Val m /\
  (forall i j, near (mget (A := b64A lm) m i j)
    (entry (product [N_matrix (eps_A t) (nut_dpsi t) (nut_deps t); P_matrix t; B_matrix]) i j) (5 / 10 ^ 14)) /\
  (forall i j, Rabs (B2R (mget (A := b64A lm) m i I0) * B2R (mget (A := b64A lm) m j I0)
    + B2R (mget (A := b64A lm) m i I1) * B2R (mget (A := b64A lm) m j I1)
    + B2R (mget (A := b64A lm) m i I2) * B2R (mget (A := b64A lm) m j I2) - kron i j) <= 1.1 / 10 ^ 13).
Proof. exact L_PAccFrames.C68_precession_nutation_accuracy_mjd_pf. Qed.
Print Assumptions C68_precession_nutation_accuracy_mjd.

(** The three matrices of bias_and_precession, for every split with parts up to 2^22
    days. *)
Theorem C68_bias_precession_accuracy : forall lm, good_libm lm -> forall a b : b64, fin a = true -> fin b = true ->
  Rabs (B2R a) <= 4194304 -> Rabs (B2R b) <= 4194304 ->
  let t := centuries (MkTT (A := realA) (B2R a) (B2R b)) in
  exists rb rp rbp, bias_and_precession (A := b64A lm) (MkTT (A := b64A lm) a b) = Val (rb, rp, rbp) /\
  forall i j, near (mget (A := b64A lm) rb i j) (entry B_matrix i j) (1.2 / 10 ^ 14) /\
    near (mget (A := b64A lm) rp i j) (entry (P_matrix t) i j) (4 / 10 ^ 14) /\
    near (mget (A := b64A lm) rbp i j) (entry (product [P_matrix t; B_matrix]) i j) (5.5 / 10 ^ 14).
Proof. exact L_PAccFrames.C68_bias_precession_accuracy_pf. Qed.
Print Assumptions C68_bias_precession_accuracy.

(** The polar motion matrix, for all finite pole coordinates. *)
Theorem C68_polar_motion_accuracy : forall lm, good_libm lm -> forall xp yp sp : b64, fin xp = true -> fin yp = true -> fin sp = true ->
  exists m, polar_motion_matrix (A := b64A lm) xp yp sp = Val m /\
  forall i j, near (mget (A := b64A lm) m i j) (entry (W_matrix (B2R xp) (B2R yp) (B2R sp)) i j) (1.2 / 10 ^ 14).
Proof. exact L_PAccFrames.C68_polar_motion_accuracy_pf. Qed.
Print Assumptions C68_polar_motion_accuracy.

(** C68 at TT 2400000.5 + 53736: the pole coordinate x. *)
Example C68_example : forall lm, good_libm lm -> exists m,
  precession_nutation (A := b64A lm) (MkTT (A := b64A lm) (Flit 24000005 (-1)) (Flit 53736 0)) = Val m /\
  let t := 2191.5 / 36525 in
  near (mget (A := b64A lm) m I2 I0)
    (entry (product [N_matrix (eps_A t) (nut_dpsi t) (nut_deps t); P_matrix t; B_matrix]) I2 I0) (5 / 10 ^ 14).
Proof. exact L_PAccFrames.C68_example_pf. Qed.
