(** * Properties: Pole

    Statements only; proofs are in L_PPole.v. *)

From Coq Require Import ZArith Reals Lra Lia Bool List.
From Flocq Require Import Core.
From Verif Require Import Outcome Arith ArithR M_Common M_Time M_Frames T_Nut Spec_Matrix Spec_Frames Spec_Series Spec_Sun Spec_Pole.
Import ListNotations.
Open Scope R_scope.
From Verif Require L_PPole.

(** C85.  Within a century of J2000.0 the nutation is that of the four largest
    terms in the textbooks, within 0.55 and 0.15 arcseconds. *)
Theorem C85_nutation : forall d, Rabs (centuries d) <= 1 -> exists dpsi deps, nutation (A := realA) d = Val (dpsi, deps) /\
  Rabs (dpsi - arcsec (low_dpsi (centuries d))) <= arcsec 0.55 /\ Rabs (deps - arcsec (low_deps (centuries d))) <= arcsec 0.15.
Proof. exact L_PPole.C85_nutation_pf. Qed.
Print Assumptions C85_nutation.

(** C86.  Within a century of J2000.0 the pole of precession_nutation is that of
    the leading terms of the IERS series within an arcsecond. *)
Theorem C86_pole : forall d, Rabs (centuries d) <= 1 -> exists m, precession_nutation (A := realA) d = Val m /\
  Rabs (entry m I2 I0 - arcsec (low_x (centuries d))) <= arcsec 1 /\ Rabs (entry m I2 I1 - arcsec (low_y (centuries d))) <= arcsec 1.
Proof. exact L_PPole.C86_pole_pf. Qed.
Print Assumptions C86_pole.

(** When the node is at 90 degrees (662 days after J2000.0)
    the nutation in longitude is near its minimum. *)
Example C85_example : let d := MkTT (A := realA) 2451545 (36525 * (35.04452 / 1934.136261)) in
  node (centuries d) = PI / 2 /\ exists dpsi deps, nutation (A := realA) d = Val (dpsi, deps) /\ arcsec (-19.3) <= dpsi <= arcsec (-15.1) /\ Rabs deps <= arcsec 0.91.
Proof. exact L_PPole.C85_example_pf. Qed.

(** A century after J2000.0 the pole has moved by 2004 arcseconds less the nutation. *)
Example C86_example : let d := MkTT (A := realA) 2451545 36525 in centuries d = 1 /\ exists m, precession_nutation (A := realA) d = Val m /\
  arcsec 1995 <= entry m I2 I0 <= arcsec 2012 /\ arcsec (-34) <= entry m I2 I1 <= arcsec (-11).
Proof. exact L_PPole.C86_example_pf. Qed.
