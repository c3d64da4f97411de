(** * Newton's law of gravitation for the Earth

    Units: astronomical unit and day.  Nothing here refers to the series of the
    source; the masses and the mean distance of the Moon are the published ones. *)

From Coq Require Import Reals.
From Verif Require Import Arith ArithR M_Common Spec_Matrix Spec_Frames Spec_Series Spec_Orbit.
Open Scope R_scope.

(** Gauss's constant, the square root of the attraction of the Sun at 1 AU. *)
Definition gauss : R := 0.01720209895.

Definition length3 (r : idx -> R) : R := R_sqrt.sqrt (r I0 * r I0 + r I1 * r I1 + r I2 * r I2).

(** Acceleration by the Sun of a body at [r] from it. *)
Definition sun_pull (r : idx -> R) (i : idx) : R := - (gauss * gauss) * r i / length3 r ^ 3.

(** Acceleration by the Moon at its mean distance (384400 km) and mean longitude,
    in the plane of the ecliptic of J2000.0; the Sun is 332946 times as heavy as the Earth
    and the Earth 81.3 times as heavy as the Moon.  [t] in Julian centuries. *)
Definition moon_longitude (t : R) : R := iers_f t + iers_om t - iers_pa t.
Definition moon_distance : R := 384400 / 149597870.7.
Definition moon_size : R := gauss * gauss / (332946 * 81.3) / (moon_distance * moon_distance).
Definition moon_pull (t : R) (i : idx) : R :=
  moon_size * match i with
  | I0 => cos (moon_longitude t)
  | I1 => cos orbit_obl * sin (moon_longitude t)
  | I2 => sin orbit_obl * sin (moon_longitude t)
  end.
