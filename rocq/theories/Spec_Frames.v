(** * IAU 1980/2000 precession-nutation quantities, written out from the papers

    Polynomials in Julian centuries since J2000.0, in arcseconds. *)

From Coq Require Import Reals.
From Verif Require Import Arith ArithR M_Common M_Time Spec_Matrix.
Open Scope R_scope.

Definition arcsec (x : R) : R := x * (PI / 648000).

(** Julian centuries of the total date since J2000.0 *)
Definition centuries (d : TT realA) : R := (tt_1 (A := realA) d + tt_2 (A := realA) d - 2451545) / 36525.

(** Lieske et al. 1977 precession with the IAU 2000 corrections to the rates. *)
Definition psi_A (t : R) : R := arcsec (5038.7784 * t - 1.07259 * t ^ 2 - 0.001147 * t ^ 3 - 0.29965 * t).
Definition omega_A (t : R) : R := arcsec (84381.448 + 0.05127 * t ^ 2 - 0.007726 * t ^ 3 - 0.02524 * t).
Definition chi_A (t : R) : R := arcsec (10.5526 * t - 2.38064 * t ^ 2 - 0.001125 * t ^ 3).
Definition eps_0 : R := arcsec 84381.448.
(** Mean obliquity of date, IAU 1980. *)
Definition eps_1980 (t : R) : R := arcsec (84381.448 - 46.8150 * t - 0.00059 * t ^ 2 + 0.001813 * t ^ 3).
(** The same with the IAU 2000 correction to the rate. *)
Definition eps_A (t : R) : R := eps_1980 t + arcsec (- 0.02524 * t).

(** Earth rotation angle in radians, not reduced (IAU 2000). *)
Definition era_of (u : UT1 realA) : R :=
  2 * PI * (0.7790572732640 + 1.00273781191135448 * (ut1_1 (A := realA) u + ut1_2 (A := realA) u - 2451545)).

(** Product of a list of matrices, left to right. *)
Fixpoint product (l : list (mat3 realA)) : mat3 realA :=
  match l with
  | nil => unit3
  | cons m l' => mul3 m (product l')
  end.

Definition R1 (t : R) : mat3 realA := rot3 I0 t.
Definition R2 (t : R) : mat3 realA := rot3 I1 t.
Definition R3 (t : R) : mat3 realA := rot3 I2 t.

Import List.ListNotations.
(** Frame bias: the corrections of longitude, obliquity and right ascension. *)
Definition B_matrix : mat3 realA :=
  product [R1 (arcsec 0.0068192); R2 (arcsec (-0.041775) * sin eps_0); R3 (arcsec (-0.0146))]%list.
Definition P_matrix (t : R) : mat3 realA :=
  product [R3 (chi_A t); R1 (- omega_A t); R3 (- psi_A t); R1 eps_0]%list.
Definition N_matrix (e dpsi deps : R) : mat3 realA :=
  product [R1 (- (e + deps)); R3 (- dpsi); R1 e]%list.
Definition W_matrix (xp yp sp : R) : mat3 realA := product [R1 (- yp); R2 (- xp); R3 sp]%list.

(** The celestial-to-intermediate matrix of the IERS Conventions (2010), eq. 5.6
    and 5.10, with the pole at (x,y). *)
Definition Q_matrix (x y s : R) : mat3 realA :=
  let z := R_sqrt.sqrt (1 - (x * x + y * y)) in
  let a := / (1 + z) in
  mul3 (R3 (- s))
    (M3 (A := realA) (V3 (A := realA) (1 - a * x * x) (- a * x * y) (- x))
                     (V3 (A := realA) (- a * x * y) (1 - a * y * y) (- y))
                     (V3 (A := realA) x y z)).
