(** * Model of crates/tofas/src/earth.rs *)

From Coq Require Import ZArith Bool List.
From Verif Require Import Outcome Arith M_Common M_Time T_Epv00.
Import ListNotations.
Open Scope Z_scope.
Open Scope outcome_scope.

(** earth.rs:16-46: numbers of terms per component *)
Definition NE0 : list nat := [501; 501; 137]%nat.
Definition NE1 : list nat := [79; 80; 12]%nat.
Definition NE2 : list nat := [5; 5; 3]%nat.
Definition NS0 : list nat := [212; 213; 69]%nat.
Definition NS1 : list nat := [50; 50; 14]%nat.
Definition NS2 : list nat := [9; 9; 2]%nat.

(** Type of the tables of epv00_data.rs: [q][j][k] with q = 0 amplitude,
    1 phase, 2 frequency; j = term; k = component. *)
Definition table : Type := list (list (list (Z * Z))).

(** earth.rs:61-64 *)
Inductive EarthPosVelWarning : Type := DateOutOfRange.

Section Earth.
Context {A : arith}.
Local Notation num := (num A).
Local Notation lit := (lit A).
Local Open Scope num_scope.

(** earth.rs:6 *)
Definition AUM : num := lit 1495978707 2.

(** earth.rs:8-14 *)
Definition AM12 : num := lit 211284 (-12).
Definition AM13 : num := - lit 91603 (-12).
Definition AM21 : num := - lit 230286 (-12).
Definition AM22 : num := lit 917482137087 (-12).
Definition AM23 : num := - lit 397776982902 (-12).
Definition AM32 : num := lit 397776982902 (-12).
Definition AM33 : num := lit 917482137087 (-12).

(** earth.rs:48-59 *)
Record PosVel : Type := MkPosVel { pv_p : vec3 A; pv_v : vec3 A }.
Record EarthPosVel : Type := MkEPV {
  heliocentric : PosVel;
  barycentric : PosVel;
  warning : option EarthPosVelWarning }.

(** [tab[q][j][k]] *)
Definition tab_get (tab : table) (q j k : nat) : outcome num :=
  b <- index tab q;;
  r <- index b j;;
  d <- index r k;;
  Val (lit (fst d) (snd d)).

(** earth.rs:93-100 and 130-137: T^0 terms.  The state is (xyz, xyzd). *)
Definition terms0 (tab : table) (n k : nat) (t : num) (st : num * num)
  : outcome (num * num) :=
  for_each (seq 0 n) st (fun '(xyz, xyzd) j =>
    a <- tab_get tab 0 j k;;
    b <- tab_get tab 1 j k;;
    c <- tab_get tab 2 j k;;
    let p := b + c * t in
    Val (xyz + a * ncos A p, xyzd - a * c * nsin A p)).

(** earth.rs:103-112 and 140-149: T^1 terms *)
Definition terms1 (tab : table) (n k : nat) (t : num) (st : num * num)
  : outcome (num * num) :=
  for_each (seq 0 n) st (fun '(xyz, xyzd) j =>
    a <- tab_get tab 0 j k;;
    b <- tab_get tab 1 j k;;
    c <- tab_get tab 2 j k;;
    let ct := c * t in
    let p := b + ct in
    let cp := ncos A p in
    Val (xyz + a * t * cp, xyzd + a * (cp - ct * nsin A p))).

(** earth.rs:115-124 and 152-161: T^2 terms *)
Definition terms2 (tab : table) (n k : nat) (t t2 : num) (st : num * num)
  : outcome (num * num) :=
  for_each (seq 0 n) st (fun '(xyz, xyzd) j =>
    a <- tab_get tab 0 j k;;
    b <- tab_get tab 1 j k;;
    c <- tab_get tab 2 j k;;
    let ct := c * t in
    let p := b + ct in
    let cp := ncos A p in
    Val (xyz + a * t2 * cp, xyzd + a * t * (lit 2 0 * cp - ct * nsin A p))).

(** earth.rs:88-165: one iteration of the loop over components; returns
    (ph[k], vh[k], pb[k], vb[k]) *)
Definition epv_component (k : nat) (t : num) : outcome (num * num * (num * num)) :=
  let t2 := t * t in
  ne0 <- index NE0 k;;
  ne1 <- index NE1 k;;
  ne2 <- index NE2 k;;
  ns0 <- index NS0 k;;
  ns1 <- index NS1 k;;
  ns2 <- index NS2 k;;
  st <- terms0 E0 ne0 k t (lit 0 0, lit 0 0);;
  st <- terms1 E1 ne1 k t st;;
  st <- terms2 E2 ne2 k t t2 st;;
  let ph := fst st in
  let vh := snd st / DJY in
  st <- terms0 S0 ns0 k t st;;
  st <- terms1 S1 ns1 k t st;;
  st <- terms2 S2 ns2 k t t2 st;;
  let pb := fst st in
  let vb := snd st / DJY in
  Val (ph, vh, (pb, vb)).

(** earth.rs:172-195: ecliptic to ICRF *)
Definition ecl_to_icrf (x y z : num) : vec3 A :=
  V3 (x + AM12 * y + AM13 * z)
     (AM21 * x + AM22 * y + AM23 * z)
     (AM32 * y + AM33 * z).

(** earth.rs:74: Julian years since J2000.0 *)
Definition epv_years (d : TDB A) : num := ((tdb_1 d - DJ00) + tdb_2 d) / DJY.

(** earth.rs:73-202 [From<TDB> for EarthPosVel] *)
Definition earth_pos_vel (d : TDB A) : outcome EarthPosVel :=
  let t := epv_years d in
  let warning := if nabs A t <? lit 100 0 then None else Some DateOutOfRange in
  '(ph0, vh0, (pb0, vb0)) <- epv_component 0 t;;
  '(ph1, vh1, (pb1, vb1)) <- epv_component 1 t;;
  '(ph2, vh2, (pb2, vb2)) <- epv_component 2 t;;
  Val {| heliocentric := MkPosVel (ecl_to_icrf ph0 ph1 ph2) (ecl_to_icrf vh0 vh1 vh2);
         barycentric := MkPosVel (ecl_to_icrf pb0 pb1 pb2) (ecl_to_icrf vb0 vb1 vb2);
         warning := warning |}.

(** earth.rs:208-214 [rotation_angle] *)
Definition rotation_angle (u : UT1 A) : num :=
  let dj1 := ut1_1 u in
  let dj2 := ut1_2 u in
  let '(d1, d2) := if dj1 <? dj2 then (dj1, dj2) else (dj2, dj1) in
  let t := d1 + (d2 - DJ00) in
  let f := (d1 %% lit 1 0) + (d2 %% lit 1 0) in
  anp (c_two_pi A * (f + lit 7790572732640 (-13) + lit 273781191135448 (-17) * t)).

(** earth.rs:221-226 [polar_motion_matrix] *)
Definition polar_motion_matrix (xp yp sp : num) : outcome (mat3 A) :=
  rx <- rotation 0 (- yp);;
  ry <- rotation 1 (- xp);;
  rz <- rotation 2 sp;;
  Val (mcompose (mcompose (mcompose midentity rx) ry) rz).

End Earth.
Arguments PosVel : clear implicits.
Arguments EarthPosVel : clear implicits.
