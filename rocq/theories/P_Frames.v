(** * Properties: Frames

    Statements only; proofs are in L_PFrames.v. *)

From Coq Require Import ZArith Reals Lra Lia Bool List.
From Flocq Require Import Core.
From Verif Require Import Outcome Arith ArithR M_Common M_Time M_Earth M_Locator M_Frames Spec_Matrix Spec_Frames.
Import ListNotations.
Open Scope R_scope.
From Verif Require L_PFrames.

(** C37.  The matrices are the textbook products of elementary rotations:
    polar motion, nutation, bias, precession, and celestial-to-terrestrial. *)
Theorem C37_matrix_products :
  (forall xp yp sp, polar_motion_matrix (A := realA) xp yp sp = Val (W_matrix xp yp sp)) /\
  (forall e dpsi deps, nutation_matrix (A := realA) e dpsi deps = Val (N_matrix e dpsi deps)) /\
  (forall d, bias_and_precession (A := realA) d =
     Val (B_matrix, P_matrix (centuries d), product [P_matrix (centuries d); B_matrix])) /\
  (forall d dpsi deps, exists pn, pn_from_tt_with_nutation (A := realA) d dpsi deps = Val pn /\
     pn_epsa (A := realA) pn = eps_A (centuries d) /\
     pn_rbpn (A := realA) pn = product [N_matrix (eps_A (centuries d)) dpsi deps; P_matrix (centuries d); B_matrix]) /\
  (forall q era w, c2t_from_cio (A := realA) q era w = Val (product [w; R3 era; q])).
Proof. exact L_PFrames.C37_matrix_products_pf. Qed.
Print Assumptions C37_matrix_products.

(** C37.  celestial_to_terrestrial is W(xp,yp,0) R3(ERA) Q with Q the
    celestial-to-intermediate matrix of the date. *)
Theorem C37_celestial_to_terrestrial : forall d u xp yp q,
  celestial_to_intermediate (A := realA) d = Val q ->
  celestial_to_terrestrial (A := realA) d u xp yp =
    Val (product [W_matrix xp yp 0; R3 (rotation_angle (A := realA) u); q]).
Proof. exact L_PFrames.C37_celestial_to_terrestrial_pf. Qed.
Print Assumptions C37_celestial_to_terrestrial.

(** C37.  Degenerate arguments give the identity. *)
Theorem C37_degenerate :
  (forall e, nutation_matrix (A := realA) e 0 0 = Val unit3) /\
  polar_motion_matrix (A := realA) 0 0 0 = Val unit3 /\
  (forall d1 d2, d1 + d2 = 2451545 -> exists rb,
     bias_and_precession (A := realA) (MkTT (A := realA) d1 d2) = Val (rb, unit3, rb)).
Proof. exact L_PFrames.C37_degenerate_pf. Qed.
Print Assumptions C37_degenerate.

(** A pole displaced by a quarter turn in x, another in y: the matrices are
    R2(-xp) and R1(-yp) as in the IERS Conventions. *)
Example C37_example :
  polar_motion_matrix (A := realA) (PI / 2) 0 0 =
    Val (M3 (A := realA) (V3 (A := realA) 0 0 1) (V3 (A := realA) 0 1 0) (V3 (A := realA) (-1) 0 0)) /\
  polar_motion_matrix (A := realA) 0 (PI / 2) 0 =
    Val (M3 (A := realA) (V3 (A := realA) 1 0 0) (V3 (A := realA) 0 0 (-1)) (V3 (A := realA) 0 1 0)).
Proof. exact L_PFrames.C37_example_pf. Qed.

(** C35.  Every frame matrix is a proper rotation, for all dates, angles and
    pole coordinates. *)
Theorem C35_frames_proper :
  (forall xp yp sp, exists m, polar_motion_matrix (A := realA) xp yp sp = Val m /\ proper m) /\
  (forall e dpsi deps, exists m, nutation_matrix (A := realA) e dpsi deps = Val m /\ proper m) /\
  (forall d, exists rb rp rbp, bias_and_precession (A := realA) d = Val (rb, rp, rbp) /\ proper rb /\ proper rp /\ proper rbp) /\
  (forall d, exists m, precession_nutation (A := realA) d = Val m /\ proper m) /\
  (forall x y s, exists m, c2i_from_xys (A := realA) x y s = Val m /\ proper m) /\
  (forall d, exists m, celestial_to_intermediate (A := realA) d = Val m /\ proper m) /\
  (forall d u xp yp, exists m, celestial_to_terrestrial (A := realA) d u xp yp = Val m /\ proper m).
Proof. exact L_PFrames.C35_frames_proper_pf. Qed.
Print Assumptions C35_frames_proper.

(** A polar motion of a quarter turn about x is a proper rotation, a reflection is not. *)
Example C35_example :
  (exists m, polar_motion_matrix (A := realA) 0 (PI / 2) 0 = Val m /\ proper m /\ entry m I1 I2 = -1) /\
  ~ proper (M3 (A := realA) (V3 (A := realA) 1 0 0) (V3 (A := realA) 0 1 0) (V3 (A := realA) 0 0 (-1))).
Proof. exact L_PFrames.C35_example_pf. Qed.

(** C36.  For a pole inside the unit disc the matrix is the one of the IERS
    Conventions, and its third row is the pole. *)
Theorem C36_pole_matrix : forall x y s, x * x + y * y < 1 ->
  c2i_from_xys (A := realA) x y s = Val (Q_matrix x y s) /\
  entry (Q_matrix x y s) I2 I0 = x /\ entry (Q_matrix x y s) I2 I1 = y /\
  entry (Q_matrix x y s) I2 I2 = R_sqrt.sqrt (1 - (x * x + y * y)).
Proof. exact L_PFrames.C36_pole_matrix_pf. Qed.
Print Assumptions C36_pole_matrix.

(** A pole displaced along x by 3/5 and s = 0. *)
Example C36_example : c2i_from_xys (A := realA) (3/5) 0 0 =
  Val (M3 (A := realA) (V3 (A := realA) (4/5) 0 (-3/5)) (V3 (A := realA) 0 1 0) (V3 (A := realA) (3/5) 0 (4/5))).
Proof. exact L_PFrames.C36_example_pf. Qed.

(** C38.  Within 50 Julian centuries of J2000.0 the pole is inside the unit disc
    (and in the northern hemisphere), so the square root and the division of
    celestial_to_intermediate are those of positive numbers. *)
Theorem C38_pole_inside : forall d, Rabs (centuries d) <= 50 ->
  exists m, precession_nutation (A := realA) d = Val m /\
  let x := entry m I2 I0 in let y := entry m I2 I1 in
  0 < entry m I2 I2 /\ x * x + y * y < 1.
Proof. exact L_PFrames.C38_pole_inside_pf. Qed.
Print Assumptions C38_pole_inside.

(** C38.  Within 10 centuries it is within a quarter of the unit radius. *)
Theorem C38_pole_near : forall d, Rabs (centuries d) <= 10 ->
  exists m, precession_nutation (A := realA) d = Val m /\
  let x := entry m I2 I0 in let y := entry m I2 I1 in x * x + y * y <= 1 / 16.
Proof. exact L_PFrames.C38_pole_near_pf. Qed.
Print Assumptions C38_pole_near.

(** C38.  Hence the celestial-to-intermediate matrix has the pole of the
    precession-nutation matrix as its third row. *)
Theorem C38_intermediate_pole : forall d, Rabs (centuries d) <= 50 ->
  exists m q, precession_nutation (A := realA) d = Val m /\ celestial_to_intermediate (A := realA) d = Val q /\
  forall j, entry q I2 j = entry m I2 j.
Proof. exact L_PFrames.C38_intermediate_pole_pf. Qed.
Print Assumptions C38_intermediate_pole.

(** The interval of C38 reaches from 3001 BC to AD 6999. *)
Example C38_example : centuries (MkTT (A := realA) 625295 0) = -50 /\ centuries (MkTT (A := realA) 4277795 0) = 50 /\
  exists m, precession_nutation (A := realA) (MkTT (A := realA) 625295 0) = Val m /\ 0 < entry m I2 I2.
Proof. exact L_PFrames.C38_example_pf. Qed.
