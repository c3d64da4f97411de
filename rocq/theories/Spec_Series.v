(** * Fundamental arguments of the IERS Conventions (2003), in radians *)

From Coq Require Import ZArith List Reals.
From Verif Require Import Arith ArithR M_Common M_Time T_Epv00 T_Nut T_Cio Spec_Matrix Spec_Frames.
Import ListNotations.
Open Scope R_scope.

(** Delaunay variables: polynomials in Julian centuries, arcseconds. *)
Definition iers_l (t : R) : R :=
  arcsec (485868.249036 + 1717915923.2178 * t + 31.8792 * t ^ 2 + 0.051635 * t ^ 3 - 0.00024470 * t ^ 4).
Definition iers_lp (t : R) : R :=
  arcsec (1287104.793048 + 129596581.0481 * t - 0.5532 * t ^ 2 + 0.000136 * t ^ 3 - 0.00001149 * t ^ 4).
Definition iers_f (t : R) : R :=
  arcsec (335779.526232 + 1739527262.8478 * t - 12.7512 * t ^ 2 - 0.001037 * t ^ 3 + 0.00000417 * t ^ 4).
Definition iers_d (t : R) : R :=
  arcsec (1072260.703692 + 1602961601.2090 * t - 6.3706 * t ^ 2 + 0.006593 * t ^ 3 - 0.00003169 * t ^ 4).
Definition iers_om (t : R) : R :=
  arcsec (450160.398036 - 6962890.5431 * t + 7.4722 * t ^ 2 + 0.007702 * t ^ 3 - 0.00005939 * t ^ 4).
(** Planetary longitudes and general precession, radians. *)
Definition iers_ve (t : R) : R := 3.176146697 + 1021.3285546211 * t.
Definition iers_e (t : R) : R := 1.753470314 + 628.3075849991 * t.
Definition iers_pa (t : R) : R := 0.024381750 * t + 0.00000538691 * t ^ 2.

(** Equal up to a whole number of turns. *)
Definition same_angle (x y : R) : Prop := exists k : Z, x = y + IZR k * (2 * PI).

(** Julian years of a TDB date since J2000.0, and two splits of one date. *)
Definition years (d : TDB realA) : R := (tdb_1 (A := realA) d + tdb_2 (A := realA) d - 2451545) / 365.25.

(** ** Sums over tables

    Only the table data of the source are used here; the tables are read as
    "all rows", without the separately declared term counts. *)

Definition dec (d : Z * Z) : R := IZR (fst d) * powerRZ 10 (snd d).

(** f 0 + ... + f (n-1) *)
Fixpoint sumn (n : nat) (f : nat -> R) : R :=
  match n with O => 0 | S m => sumn m f + f m end.

(** Trigonometric sum of table [tab] (amplitudes, phases, frequencies) for component k. *)
Definition cell (tab : list (list (list (Z * Z)))) (q j k : nat) : R := dec (nth k (nth j (nth q tab []) []) (0, 0)%Z).
Definition trig (tab : list (list (list (Z * Z)))) (k : nat) (t : R) : R :=
  sumn (length (nth 0 tab [])) (fun j => cell tab 0 j k * cos (cell tab 1 j k + cell tab 2 j k * t)).

(** Ecliptic coordinates of the Earth (AU), t in Julian years. *)
Definition helio_ecl (k : nat) (t : R) : R := trig E0 k t + t * trig E1 k t + t ^ 2 * trig E2 k t.
Definition sun_ecl (k : nat) (t : R) : R := trig S0 k t + t * trig S1 k t + t ^ 2 * trig S2 k t.
Definition bary_ecl (k : nat) (t : R) : R := helio_ecl k t + sun_ecl k t.

(** Orientation of the ecliptic series relative to ICRF. *)
Definition icrf (f : nat -> R) (i : idx) : R :=
  match i with
  | I0 => f 0%nat + 0.000000211284 * f 1%nat - 0.000000091603 * f 2%nat
  | I1 => - 0.000000230286 * f 0%nat + 0.917482137087 * f 1%nat - 0.397776982902 * f 2%nat
  | I2 => 0.397776982902 * f 1%nat + 0.917482137087 * f 2%nat
  end.

(** Sum of products of a row of integers with angles. *)
Fixpoint combo (row : list Z) (fa : list R) : R :=
  match row, fa with
  | n :: row', x :: fa' => IZR n * x + combo row' fa'
  | _, _ => 0
  end.

(** IAU 2000B luni-solar nutation: Delaunay arguments are linear in t, and
    coefficients are in units of 0.1 microarcsecond. *)
Definition nut_angles (t : R) : list R :=
  [arcsec (485868.249036 + 1717915923.2178 * t); arcsec (1287104.79305 + 129596581.0481 * t);
   arcsec (335779.526232 + 1739527262.8478 * t); arcsec (1072260.70369 + 1602961601.2090 * t);
   arcsec (450160.398036 - 6962890.5431 * t)].
Definition nut_coef (i q : nat) : R := dec (nth q (nth i CLS []) (0, 0)%Z).
Definition nut_dpsi (t : R) : R :=
  arcsec (sumn (length NALS) (fun i => let a := combo (nth i NALS []) (nut_angles t) in
    (nut_coef i 0 + nut_coef i 1 * t) * sin a + nut_coef i 2 * cos a) / 10000000 - 0.000135).
Definition nut_deps (t : R) : R :=
  arcsec (sumn (length NALS) (fun i => let a := combo (nth i NALS []) (nut_angles t) in
    (nut_coef i 3 + nut_coef i 4 * t) * cos a + nut_coef i 5 * sin a) / 10000000 + 0.000388).

(** CIO locator: s + xy/2 in radians. *)
Definition cio_angles (t : R) : list R :=
  [iers_l t; iers_lp t; iers_f t; iers_d t; iers_om t; iers_ve t; iers_e t; iers_pa t].
Definition cio_coef (k i q : nat) : R := dec (nth q (nth i (nth k SSS []) []) (0, 0)%Z).
Definition cio_order (k : nat) (t : R) : R :=
  dec (nth k SP (0, 0)%Z) +
  sumn (length (nth k KSS [])) (fun i => let a := combo (nth i (nth k KSS []) []) (cio_angles t) in
    cio_coef k i 0 * sin a + cio_coef k i 1 * cos a).
Definition cio_sxy2 (t : R) : R := arcsec (sumn 6 (fun k => cio_order k t * t ^ k)).
