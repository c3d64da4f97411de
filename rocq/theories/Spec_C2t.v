(** * The celestial-to-terrestrial matrix from end to end

    From the papers: the pole is the third row of nutation x precession x bias, the
    CIO locator is the IAU 2000 series minus xy/2, and the matrix is polar motion
    times Earth rotation times the celestial-to-intermediate matrix. *)

From Coq Require Import Reals List.
From Verif Require Import Arith ArithR M_Common M_Time Spec_Matrix Spec_Frames Spec_Series.
Import ListNotations.
Open Scope R_scope.

Definition NPB (t : R) : mat3 realA := product [N_matrix (eps_A t) (nut_dpsi t) (nut_deps t); P_matrix t; B_matrix].
Definition pole_x (t : R) : R := entry (NPB t) I2 I0.
Definition pole_y (t : R) : R := entry (NPB t) I2 I1.
Definition cio_s (t : R) : R := cio_sxy2 t - pole_x t * pole_y t / 2.
Definition C2I (t : R) : mat3 realA := Q_matrix (pole_x t) (pole_y t) (cio_s t).
Definition C2T (t era xp yp : R) : mat3 realA := product [W_matrix xp yp 0; R3 era; C2I t].
