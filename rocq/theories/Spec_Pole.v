(** * Nutation and pole to low precision, from textbooks

    Independent of the tables of the source.  T is in Julian centuries of TT
    since J2000.0. *)

From Coq Require Import Reals.
From Verif Require Import Arith ArithR M_Common M_Time Spec_Frames Spec_Sun.
Open Scope R_scope.

(** Longitude of the ascending node of the Moon, mean longitudes of the Sun and
    of the Moon (J. Meeus, Astronomical Algorithms, chapter 22). *)
Definition node (t : R) : R := degrees (125.04452 - 1934.136261 * t).
Definition sun_long (t : R) : R := degrees (280.4665 + 36000.7698 * t).
Definition moon_long (t : R) : R := degrees (218.3165 + 481267.8813 * t).

(** The four largest terms of the nutation, in arcseconds. *)
Definition low_dpsi (t : R) : R :=
  - 17.20 * sin (node t) - 1.32 * sin (2 * sun_long t) - 0.23 * sin (2 * moon_long t) + 0.21 * sin (2 * node t).
Definition low_deps (t : R) : R :=
  9.20 * cos (node t) + 0.57 * cos (2 * sun_long t) + 0.10 * cos (2 * moon_long t) - 0.09 * cos (2 * node t).

(** Coordinates of the celestial intermediate pole in arcseconds: precession
    polynomial and two largest periodic terms (IERS Conventions, section 5.5.4). *)
Definition low_x (t : R) : R :=
  2004.191898 * t - 0.4297829 * t ^ 2 - 0.19861834 * t ^ 3 - 6.844318 * sin (node t) - 0.523908 * sin (2 * sun_long t).
Definition low_y (t : R) : R :=
  - 22.4072747 * t ^ 2 + 0.00190059 * t ^ 3 + 9.205236 * cos (node t) + 0.573033 * cos (2 * sun_long t).

(** s + XY/2 in arcseconds, where s is the CIO locator: polynomial and two largest
    terms (IERS Conventions 2003, table 5.2c). *)
Definition low_s (t : R) : R :=
  0.000094 + 0.003808 * t - 0.000120 * t ^ 2 - 0.072574 * t ^ 3 - 0.002641 * sin (node t) - 0.000064 * sin (2 * node t).
