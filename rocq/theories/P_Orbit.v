(** * Properties: Orbit

    Statements only; proofs are in L_POrbit.v. *)

From Coq Require Import ZArith Reals Lra Lia Bool List.
From Flocq Require Import Core.
From Verif Require Import Outcome Arith ArithR M_Common M_Time M_Earth Spec_Matrix Spec_Frames Spec_Series Spec_Orbit.
Import ListNotations.
Open Scope R_scope.
From Verif Require L_POrbit.

(** C82.  From 1900 to 2100 the heliocentric position of the Earth is that of
    an ellipse with the published mean elements, solved by Kepler's equation,
    within 0.00065 AU in each equatorial coordinate. *)
Theorem C82_kepler : forall d, Rabs (years d) <= 100 -> exists r u, earth_pos_vel (A := realA) d = Val r /\ kepler u (years d) /\
  forall i, Rabs (coord (pv_p (A := realA) (heliocentric (A := realA) r)) i - orbit_pos u i) <= 0.00065.
Proof. exact L_POrbit.C82_kepler_pf. Qed.
Print Assumptions C82_kepler.

(** C43.  Earth-Sun distance, 1900-2100, within 0.0012 AU of the range of the
    ellipse. *)
Theorem C43_distance_range : forall d, Rabs (years d) <= 100 -> exists r, earth_pos_vel (A := realA) d = Val r /\
  let p := pv_p (A := realA) (heliocentric (A := realA) r) in
  0.982 <= R_sqrt.sqrt (sprod p p) <= 1.018.
Proof. exact L_POrbit.C43_distance_range_pf. Qed.
Print Assumptions C43_distance_range.

(** C82.  The distance is a(1 - e cos u) within 0.00113 AU, and the sine of the
    declination of the Sun is at most 0.399 (declination below 23.52 degrees). *)
Theorem C82_distance_declination : forall d, Rabs (years d) <= 100 -> exists r u, earth_pos_vel (A := realA) d = Val r /\ kepler u (years d) /\
  let p := pv_p (A := realA) (heliocentric (A := realA) r) in
  let dist := R_sqrt.sqrt (sprod p p) in
  Rabs (dist - orbit_a * (1 - orbit_e * cos u)) <= 0.00113 /\ Rabs (coord p I2) <= 0.399 * dist.
Proof. exact L_POrbit.C82_distance_declination_pf. Qed.
Print Assumptions C82_distance_declination.

(** The perihelion of early January 2000: there the eccentric anomaly is 0 and
    the distance from the Sun is 0.98329 AU. *)
Example C82_example : kepler 0 ((1.796595647 - 1.753470314) / 6.283075849991) /\
  Rabs (orbit_a * (1 - orbit_e * cos 0) - 0.983292) <= 0.000001 /\
  Rabs ((1.796595647 - 1.753470314) / 6.283075849991 * 365.25 - 2.507) <= 0.001.
Proof. exact L_POrbit.C82_example_pf. Qed.

(** C83.  From 1900 to 2100 the Earth's speed, relative to the Sun as well as
    to the barycentre, lies between 0.0168 and 0.0176 AU per day (29.1 and
    30.5 km/s). *)
Theorem C83_speed : forall d, Rabs (years d) <= 100 -> exists r, earth_pos_vel (A := realA) d = Val r /\
  let v := pv_v (A := realA) (heliocentric (A := realA) r) in
  let w := pv_v (A := realA) (barycentric (A := realA) r) in
  0.0168 <= R_sqrt.sqrt (sprod v v) <= 0.0176 /\ 0.0168 <= R_sqrt.sqrt (sprod w w) <= 0.0176.
Proof. exact L_POrbit.C83_speed_pf. Qed.
Print Assumptions C83_speed.

(** The mean speed, one circumference of radius 1 AU in a Julian year, lies in
    that range; a speed 5 percent off does not. *)
Example C83_example : 0.0168 <= 2 * PI / 365.25 <= 0.0176 /\ 1.05 * (2 * PI / 365.25) > 0.0176 /\ 0.95 * (2 * PI / 365.25) < 0.0168.
Proof. exact L_POrbit.C83_example_pf. Qed.

(** C84.  The Sun stays within 0.016 AU (3.5 solar radii) of the barycentre
    and moves relative to it by at most 0.000015 AU per day. *)
Theorem C84_barycentre : forall d, Rabs (years d) <= 100 -> exists r, earth_pos_vel (A := realA) d = Val r /\
  let s i := coord (pv_p (A := realA) (barycentric (A := realA) r)) i - coord (pv_p (A := realA) (heliocentric (A := realA) r)) i in
  let w i := coord (pv_v (A := realA) (barycentric (A := realA) r)) i - coord (pv_v (A := realA) (heliocentric (A := realA) r)) i in
  R_sqrt.sqrt (s I0 * s I0 + s I1 * s I1 + s I2 * s I2) <= 0.016 /\
  R_sqrt.sqrt (w I0 * w I0 + w I1 * w I1 + w I2 * w I2) <= 0.000015.
Proof. exact L_POrbit.C84_barycentre_pf. Qed.
Print Assumptions C84_barycentre.

(** J2000.0. *)
Example C84_example : let d := MkTDB (A := realA) 2451545 0 in years d = 0 /\ exists r, earth_pos_vel (A := realA) d = Val r /\
  Rabs (coord (pv_p (A := realA) (barycentric (A := realA) r)) I2 - coord (pv_p (A := realA) (heliocentric (A := realA) r)) I2) <= 0.016.
Proof. exact L_POrbit.C84_example_pf. Qed.
