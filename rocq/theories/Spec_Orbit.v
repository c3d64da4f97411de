(** * The Earth's orbit as an ellipse with the published mean elements of J2000.0

    Written without reference to the series of the source.  Elements of the
    Earth-Moon barycentre referred to the ecliptic and equinox of J2000.0:
    semi-major axis 1.000001018 AU, eccentricity 0.0167086, longitude of the
    perihelion 102.93735 degrees; the mean longitude is that of the IERS
    Conventions. *)

From Coq Require Import ZArith List Reals.
From Verif Require Import Arith ArithR M_Common M_Time Spec_Matrix Spec_Frames Spec_Series.
Open Scope R_scope.

Definition orbit_a : R := 1.000001018.
Definition orbit_e : R := 0.0167086.
Definition orbit_peri : R := 1.796595647.

(** Mean anomaly, t in Julian years since J2000.0. *)
Definition mean_anomaly (t : R) : R := iers_e (t / 100) - orbit_peri.

(** Kepler's equation: [u] is the eccentric anomaly at time [t]. *)
Definition kepler (u t : R) : Prop := u - orbit_e * sin u = mean_anomaly t.

(** Position in the plane of the orbit, first axis towards the perihelion. *)
Definition orbit_xi (u : R) : R := orbit_a * (cos u - orbit_e).
Definition orbit_eta (u : R) : R := orbit_a * R_sqrt.sqrt (1 - orbit_e * orbit_e) * sin u.

(** Position in the ecliptic, first axis towards the equinox. *)
Definition orbit_x (u : R) : R := cos orbit_peri * orbit_xi u - sin orbit_peri * orbit_eta u.
Definition orbit_y (u : R) : R := sin orbit_peri * orbit_xi u + cos orbit_peri * orbit_eta u.

(** Obliquity of the ecliptic of J2000.0. *)
Definition orbit_obl : R := arcsec 84381.409.

(** Equatorial coordinates. *)
Definition orbit_pos (u : R) (i : idx) : R :=
  match i with
  | I0 => orbit_x u
  | I1 => cos orbit_obl * orbit_y u
  | I2 => sin orbit_obl * orbit_y u
  end.
