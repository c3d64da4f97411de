(** * Vocabulary of the WGS84 accuracy property *)

From Coq Require Import Reals.
From Verif Require Import Arith ArithR M_Common.
Open Scope R_scope.

(** WGS84 position of a longitude and latitude in radians and a height in metres:
    equatorial radius 6378137 m, inverse flattening 298.257223563; N is the radius
    of curvature in the prime vertical. *)
Definition wgs84_at (lo la h : R) : vec3 realA :=
  let w := 1 - 1 / 298.257223563 in
  let N := 6378137 / R_sqrt.sqrt (cos la ^ 2 + w ^ 2 * sin la ^ 2) in
  V3 (A := realA) ((N + h) * cos la * cos lo) ((N + h) * cos la * sin lo) ((w ^ 2 * N + h) * sin la).
