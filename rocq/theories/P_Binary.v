(** * Properties: Binary

    Statements only; proofs are in L_PBinary.v. *)

From Coq Require Import ZArith Reals Lra Lia Bool List.
From Flocq Require Import Core BinarySingleNaN.
From Verif Require Import Outcome Arith ArithR ArithF Spec_Float Spec_Accuracy M_Common M_Time M_Earth M_Frames M_Ellipsoid Spec_Matrix Spec_Frames Spec_Series Spec_Orbit Spec_Pole.
From Verif Require Spec_C2t.
Import ListNotations.
Open Scope R_scope.
From Verif Require L_PBinary.

(** C82 in binary64: the same ellipse, within 0.00066 AU in each coordinate, for every
    split of the date with parts up to 2^22 days; the distance within 0.00114 AU of that
    on the ellipse, and the declination below 23.53 degrees. *)
Theorem C82_kepler_b64 : forall lm, good_libm lm -> forall a b : b64, fin a = true -> fin b = true ->
  Rabs (B2R a) <= 4194304 -> Rabs (B2R b) <= 4194304 ->
  let t := years (MkTDB (A := realA) (B2R a) (B2R b)) in Rabs t <= 100 ->
  exists r u, earth_pos_vel (A := b64A lm) (MkTDB (A := b64A lm) a b) = Val r /\ kepler u t /\
  let p := pv_p (A := b64A lm) (heliocentric (A := b64A lm) r) in
  (forall i, near (vget (A := b64A lm) p i) (orbit_pos u i) 0.00066) /\
  let x i := B2R (vget (A := b64A lm) p i) in
  let dist := R_sqrt.sqrt (x I0 * x I0 + x I1 * x I1 + x I2 * x I2) in
  Rabs (dist - orbit_a * (1 - orbit_e * cos u)) <= 0.00114 /\ Rabs (x I2) <= 0.3991 * dist.
Proof. exact L_PBinary.C82_kepler_b64_pf. Qed.
Print Assumptions C82_kepler_b64.

(** C43 in binary64: the distance from the Sun, 1900-2100, every split. *)
Theorem C43_distance_b64 : forall lm, good_libm lm -> forall a b : b64, fin a = true -> fin b = true ->
  Rabs (B2R a) <= 4194304 -> Rabs (B2R b) <= 4194304 -> Rabs (years (MkTDB (A := realA) (B2R a) (B2R b))) <= 100 ->
  exists r, earth_pos_vel (A := b64A lm) (MkTDB (A := b64A lm) a b) = Val r /\
  let p := pv_p (A := b64A lm) (heliocentric (A := b64A lm) r) in
  (forall i, fin (vget (A := b64A lm) p i) = true) /\
  let x i := B2R (vget (A := b64A lm) p i) in
  0.982 <= R_sqrt.sqrt (x I0 * x I0 + x I1 * x I1 + x I2 * x I2) <= 1.018.
Proof. exact L_PBinary.C43_distance_b64_pf. Qed.
Print Assumptions C43_distance_b64.

(** C83 in binary64: the speed of the Earth relative to the Sun and to the barycentre. *)
Theorem C83_speed_b64 : forall lm, good_libm lm -> forall a b : b64, fin a = true -> fin b = true ->
  Rabs (B2R a) <= 4194304 -> Rabs (B2R b) <= 4194304 -> Rabs (years (MkTDB (A := realA) (B2R a) (B2R b))) <= 100 ->
  exists r, earth_pos_vel (A := b64A lm) (MkTDB (A := b64A lm) a b) = Val r /\
  let hv := pv_v (A := b64A lm) (heliocentric (A := b64A lm) r) in
  let bv := pv_v (A := b64A lm) (barycentric (A := b64A lm) r) in
  (forall i, fin (vget (A := b64A lm) hv i) = true /\ fin (vget (A := b64A lm) bv i) = true) /\
  let v i := B2R (vget (A := b64A lm) hv i) in
  let w i := B2R (vget (A := b64A lm) bv i) in
  0.01679 <= R_sqrt.sqrt (v I0 * v I0 + v I1 * v I1 + v I2 * v I2) <= 0.01761 /\
  0.01679 <= R_sqrt.sqrt (w I0 * w I0 + w I1 * w I1 + w I2 * w I2) <= 0.01761.
Proof. exact L_PBinary.C83_speed_b64_pf. Qed.
Print Assumptions C83_speed_b64.

(** C84 in binary64: the Sun stays near the barycentre and moves slowly. *)
Theorem C84_barycentre_b64 : forall lm, good_libm lm -> forall a b : b64, fin a = true -> fin b = true ->
  Rabs (B2R a) <= 4194304 -> Rabs (B2R b) <= 4194304 -> Rabs (years (MkTDB (A := realA) (B2R a) (B2R b))) <= 100 ->
  exists r, earth_pos_vel (A := b64A lm) (MkTDB (A := b64A lm) a b) = Val r /\
  let hp i := B2R (vget (A := b64A lm) (pv_p (A := b64A lm) (heliocentric (A := b64A lm) r)) i) in
  let bp i := B2R (vget (A := b64A lm) (pv_p (A := b64A lm) (barycentric (A := b64A lm) r)) i) in
  let hv i := B2R (vget (A := b64A lm) (pv_v (A := b64A lm) (heliocentric (A := b64A lm) r)) i) in
  let bv i := B2R (vget (A := b64A lm) (pv_v (A := b64A lm) (barycentric (A := b64A lm) r)) i) in
  let s i := bp i - hp i in let w i := bv i - hv i in
  R_sqrt.sqrt (s I0 * s I0 + s I1 * s I1 + s I2 * s I2) <= 0.01601 /\
  R_sqrt.sqrt (w I0 * w I0 + w I1 * w I1 + w I2 * w I2) <= 0.00001501.
Proof. exact L_PBinary.C84_barycentre_b64_pf. Qed.
Print Assumptions C84_barycentre_b64.

(** C58 and C85 in binary64, for every split of the date with parts up to 2^22 days. *)
Theorem C85_nutation_b64 : forall lm, good_libm lm -> forall a b : b64, fin a = true -> fin b = true ->
  Rabs (B2R a) <= 4194304 -> Rabs (B2R b) <= 4194304 ->
  let t := centuries (MkTT (A := realA) (B2R a) (B2R b)) in Rabs t <= 1 ->
  exists dpsi deps, nutation (A := b64A lm) (MkTT (A := b64A lm) a b) = Val (dpsi, deps) /\
  near dpsi (arcsec (low_dpsi t)) (arcsec 0.551) /\ near deps (arcsec (low_deps t)) (arcsec 0.151).
Proof. exact L_PBinary.C85_nutation_b64_pf. Qed.
Print Assumptions C85_nutation_b64.

(** C58 in binary64: nutation below 20 and 11 arcseconds, mean obliquity between 23.4 and
    23.5 degrees, within a century of J2000.0. *)
Theorem C58_magnitudes_b64 : forall lm, good_libm lm -> forall a b : b64, fin a = true -> fin b = true ->
  Rabs (B2R a) <= 4194304 -> Rabs (B2R b) <= 4194304 ->
  let t := centuries (MkTT (A := realA) (B2R a) (B2R b)) in Rabs t <= 1 ->
  exists dpsi deps, nutation (A := b64A lm) (MkTT (A := b64A lm) a b) = Val (dpsi, deps) /\ fin dpsi = true /\ fin deps = true /\
  Rabs (B2R dpsi) < arcsec 20 /\ Rabs (B2R deps) < arcsec 11 /\
  fin (mean_obliquity (A := b64A lm) (MkTT (A := b64A lm) a b)) = true /\
  23.4 * (PI / 180) < B2R (mean_obliquity (A := b64A lm) (MkTT (A := b64A lm) a b)) < 23.5 * (PI / 180).
Proof. exact L_PBinary.C58_magnitudes_b64_pf. Qed.
Print Assumptions C58_magnitudes_b64.

(** C86 in binary64. *)
Theorem C86_pole_b64 : forall lm, good_libm lm -> forall a b : b64, fin a = true -> fin b = true ->
  Rabs (B2R a) <= 4194304 -> Rabs (B2R b) <= 4194304 ->
  let t := centuries (MkTT (A := realA) (B2R a) (B2R b)) in Rabs t <= 1 ->
  exists m, precession_nutation (A := b64A lm) (MkTT (A := b64A lm) a b) = Val m /\
  near (mget (A := b64A lm) m I2 I0) (arcsec (low_x t)) (arcsec 1.001) /\ near (mget (A := b64A lm) m I2 I1) (arcsec (low_y t)) (arcsec 1.001).
Proof. exact L_PBinary.C86_pole_b64_pf. Qed.
Print Assumptions C86_pole_b64.

(** C38 in binary64: within 50 Julian centuries of J2000.0 the computed pole is inside the
    unit disc and in the northern hemisphere. *)
Theorem C38_pole_inside_b64 : forall lm, good_libm lm -> forall a b : b64, fin a = true -> fin b = true ->
  Rabs (B2R a) <= 4194304 -> Rabs (B2R b) <= 4194304 ->
  Rabs (centuries (MkTT (A := realA) (B2R a) (B2R b))) <= 50 ->
  exists m, precession_nutation (A := b64A lm) (MkTT (A := b64A lm) a b) = Val m /\ (forall i j, fin (mget (A := b64A lm) m i j) = true) /\
  let x := B2R (mget (A := b64A lm) m I2 I0) in let y := B2R (mget (A := b64A lm) m I2 I1) in
  0 < B2R (mget (A := b64A lm) m I2 I2) /\ x * x + y * y < 1.
Proof. exact L_PBinary.C38_pole_inside_b64_pf. Qed.
Print Assumptions C38_pole_inside_b64.

(** C46 in binary64: with sine and cosine accurate to 2^-52 the conversion of a finite
    latitude never fails on an accepted ellipsoid, whatever the longitude and height. *)
Theorem C46_never_fails_b64 : forall lm, good_libm lm -> forall (a f : b64) c (lo la h : b64), is_nan a = false -> is_nan f = false ->
  conv_new (A := b64A lm) (MkEll (A := b64A lm) a f) = Ok c -> fin la = true ->
  exists v, geodetic_to_geocentric (A := b64A lm) c (MkGeod (A := b64A lm) lo la h) = Ok v.
Proof. exact L_PBinary.C46_never_fails_b64_pf. Qed.
Print Assumptions C46_never_fails_b64.

(** C46 with a flattening that is not a number: [new] accepts it, and every conversion
    then fails, with any libm. *)
Theorem C46_nan_flattening_b64 : forall lm, exists c,
  conv_new (A := b64A lm) (MkEll (A := b64A lm) (Flit 6378137 0) B754_nan) = Ok c /\
  forall g, geodetic_to_geocentric (A := b64A lm) c g = Err BadCoordinates.
Proof. exact L_PBinary.C46_nan_flattening_b64_pf. Qed.
Print Assumptions C46_nan_flattening_b64.

(** C46 on the flattest accepted ellipsoid, f = 1 - 2^-53, near a pole and far away. *)
Example C46_b64_example : forall lm, good_libm lm -> exists c v,
  conv_new (A := b64A lm) (MkEll (A := b64A lm) (Flit 1 0) (Fof (2 ^ 53 - 1) (-53))) = Ok c /\
  geodetic_to_geocentric (A := b64A lm) c (MkGeod (A := b64A lm) (Flit 0 0) (Flit 15707963267948966 (-16)) (Flit 1 300)) = Ok v.
Proof. exact L_PBinary.C46_b64_example_pf. Qed.

(** C82, C83 and C58 on 2005 February 10 (TDB or TT 2400000.5 + 53411). *)
Example C82_b64_example : forall lm, good_libm lm -> exists r dpsi deps,
  earth_pos_vel (A := b64A lm) (MkTDB (A := b64A lm) (Flit 24000005 (-1)) (Flit 53411 0)) = Val r /\
  (let x i := B2R (vget (A := b64A lm) (pv_p (A := b64A lm) (heliocentric (A := b64A lm) r)) i) in
   0.982 <= R_sqrt.sqrt (x I0 * x I0 + x I1 * x I1 + x I2 * x I2) <= 1.018) /\
  nutation (A := b64A lm) (MkTT (A := b64A lm) (Flit 24000005 (-1)) (Flit 53411 0)) = Val (dpsi, deps) /\
  near dpsi (arcsec (low_dpsi (1866.5 / 36525))) (arcsec 0.551).
Proof. exact L_PBinary.C82_b64_example_pf. Qed.
