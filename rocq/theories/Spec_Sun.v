(** * Vocabulary of the Sun angle properties *)

From Coq Require Import ZArith Reals List.
From Flocq Require Import Core BinarySingleNaN.
From Verif Require Import Arith ArithR ArithF M_Common M_Calendar M_Ellipsoid Spec_Matrix.
Import ListNotations.
Open Scope R_scope.

Definition degrees (x : R) : R := x * (PI / 180).

(** Unit vector to the zenith of a place given in degrees, in the frame with z
    to the north pole and x to longitude 0 on the equator. *)
Definition zenith_of (pos : Geodetic360 realA) : vec3 realA :=
  let la := degrees (lat (A := realA) pos) in
  let lo := degrees (lon (A := realA) pos) in
  V3 (A := realA) (cos la * cos lo) (cos la * sin lo) (sin la).

(** WGS84 position of a place given in degrees and metres: equatorial radius
    6378137 m, inverse flattening 298.257223563; N is the radius of curvature in
    the prime vertical. *)
Definition wgs84_point (pos : Geodetic360 realA) : vec3 realA :=
  let la := degrees (lat (A := realA) pos) in
  let lo := degrees (lon (A := realA) pos) in
  let h := height360 (A := realA) pos in
  let w := 1 - 1 / 298.257223563 in
  let N := 6378137 / R_sqrt.sqrt (cos la ^ 2 + w ^ 2 * sin la ^ 2) in
  V3 (A := realA) ((N + h) * cos la * cos lo) ((N + h) * cos la * sin lo) ((w ^ 2 * N + h) * sin la).

(** Geocentric vector to the Sun in metres, from the heliocentric Earth in AU. *)
Definition sun_of (earth : vec3 realA) : vec3 realA :=
  V3 (A := realA) (- 149597870700 * coord earth I0) (- 149597870700 * coord earth I1)
                  (- 149597870700 * coord earth I2).

Definition length3 (v : vec3 realA) : R := R_sqrt.sqrt (sprod v v).

(** Seconds since midnight shown by a clock. *)
Definition clock (x : HMS realA) : R :=
  3600 * IZR (hour x) + 60 * IZR (minute x) + second (A := realA) x.

(** d0, d0 + step, d0 + 2 step, ... : n values *)
Definition progression (d0 step : R) (n : nat) : list R :=
  map (fun k => d0 + INR k * step) (seq 0 n).

(** The same accumulated in binary64: k additions of [step] starting from d0. *)
Definition running_sum (d0 step : b64) (k : nat) : b64 := Nat.iter k (fun x => Fadd x step) d0.
