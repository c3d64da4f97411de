(** * The Sun to low precision, from the Astronomical Almanac

    The low-precision formulas for the Sun of the Astronomical Almanac (page C5)
    and the mean sidereal time of J. Meeus, Astronomical Algorithms, eq. 12.4.
    [n] is the number of days of Universal Time since 2000 January 1, 12h.
    Independent of the source: equinox and ecliptic of date instead of the
    intermediate origin, an equation of the centre instead of series. *)

From Coq Require Import ZArith Reals.
From Verif Require Import Spec_Sun.
Open Scope R_scope.

(** Mean longitude, mean anomaly, ecliptic longitude of the Sun; obliquity of the
    ecliptic. *)
Definition alm_mean_long (n : R) : R := degrees (280.460 + 0.9856474 * n).
Definition alm_anomaly (n : R) : R := degrees (357.528 + 0.9856003 * n).
Definition alm_long (n : R) : R :=
  alm_mean_long n + degrees (1.915 * sin (alm_anomaly n) + 0.020 * sin (2 * alm_anomaly n)).
Definition alm_obliquity (n : R) : R := degrees (23.439 - 0.0000004 * n).

(** Mean sidereal time at Greenwich. *)
Definition alm_gmst (n : R) : R :=
  degrees (280.46061837 + 360.98564736629 * n + 0.000387933 * (n / 36525) ^ 2 - (n / 36525) ^ 3 / 38710000).

(** Cosine of the zenith distance of the Sun at latitude [la] and east longitude
    [lo] in degrees: sin phi sin delta + cos phi cos delta cos H, where
    sin delta = sin eps sin lambda, cos delta cos alpha = cos lambda,
    cos delta sin alpha = cos eps sin lambda and H = sidereal time + lo - alpha. *)
Definition alm_cos_zenith (n la lo : R) : R :=
  let phi := degrees la in
  let theta := alm_gmst n + degrees lo in
  let l := alm_long n in
  let e := alm_obliquity n in
  sin phi * (sin e * sin l) + cos phi * (cos l * cos theta + cos e * sin l * sin theta).

(** Days since 2000 January 1, 12h of the instant [sec] seconds after 0h of the day
    with Modified Julian Date [k]. *)
Definition ut_days (k : Z) (sec : R) : R := IZR k - 51544.5 + sec / 86400.
