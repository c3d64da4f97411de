(** * Position on an ellipsoid of revolution *)

From Coq Require Import Reals.
From Verif Require Import Arith ArithR M_Common.
Open Scope R_scope.

(** Geocentric position of longitude [lo], geodetic latitude [la] (radians) and height [h]
    above the ellipsoid of equatorial radius [a] and flattening [f]; N is the radius of
    curvature in the prime vertical. *)
Definition ellipsoid_at (a f lo la h : R) : vec3 realA :=
  let w := 1 - f in
  let N := a / R_sqrt.sqrt (cos la ^ 2 + w ^ 2 * sin la ^ 2) in
  V3 (A := realA) ((N + h) * cos la * cos lo) ((N + h) * cos la * sin lo) ((w ^ 2 * N + h) * sin la).
