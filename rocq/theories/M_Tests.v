(** * Model of the randomised and fixed tests of crates/tofas/src/tests.rs

    A test function panics or returns; what it prints is left out.  The random
    numbers of fastrand::f64 are arguments, a loop over random draws is a
    loop over a list of them.  Of the tests that compare with the tables of
    test_data.rs to one EPSILON, the two that do not call libm are in
    M_TestTables.v, and four of matrices made of elementary rotations in M_TestRot.v,
    M_TestBp.v and M_TestCio.v; whether those that call libm pass depends on its last
    bit, and the other five are not modelled. *)

From Coq Require Import ZArith Bool List Ascii String.
From Flocq Require Import Core BinarySingleNaN.
From Verif Require Import Outcome Arith ArithF M_Common M_Calendar M_DeltaAt M_Time M_Earth M_Frames M_Ellipsoid M_Display.
Import ListNotations.
Open Scope Z_scope.
Open Scope outcome_scope.

(** [Result::unwrap], [Option::unwrap], [assert!] *)
Definition unwrap {X E : Type} (r : result X E) : outcome X := match r with Ok x => Val x | Err _ => Panic end.
Definition unwrap_some {X : Type} (o : option X) : outcome X := match o with Some x => Val x | None => Panic end.
Definition assert (b : bool) : outcome unit := if b then Val tt else Panic.

(** [for x in ... { body }] *)
Fixpoint each {X : Type} (body : X -> outcome unit) (l : list X) : outcome unit :=
  match l with
  | [] => Val tt
  | x :: l' => _ <- body x;; each body l'
  end.

Section Tests.
Context {A : arith}.
Local Notation num := (num A).
Local Notation lit := (lit A).
Local Open Scope num_scope.

(** common.rs:22, f64::EPSILON = 2^-52 *)
Definition EPSILON : num := lit 2220446049250313080847263336181640625 (-52).

(** common.rs:17 [floor] *)
Definition nfloor (x : num) : num := let t := ntrunc A x in if x <? t then t - lit 1 0 else t.

(** tests.rs:164-178 *)
Definition compare_matrices (a b : mat3 A) (tol : num) : outcome unit :=
  each (fun i => each (fun j =>
    let e := nabs A (mget a i j - mget b i j) in
    if e >? tol then Panic else Val tt) idx_all) idx_all.

(** tests.rs:180-185 *)
Definition compare_numbers (a b tol : num) : outcome unit :=
  let e := nabs A (a - b) in
  if e >? tol then Panic else Val tt.

(** tests.rs:19-38, one pass of the loop *)
Definition ellipsoid_pass (ec : EllipsoidConverter A) (u : num * num * num) : outcome unit :=
  let '(u0, u1, u2) := u in
  let elong0 := (- lit 180 0 + lit 360 0 * u0) * DEGREE in
  let phi0 := (- lit 90 0 + lit 90 0 * u1) * DEGREE in
  let height0 := lit 10000 0 * u2 in
  let gd := MkGeod elong0 phi0 height0 in
  gc <- unwrap (geodetic_to_geocentric ec gd);;
  let gd_bis := geocentric_to_geodetic ec gc in
  let e := nabs A (elong gd - elong gd_bis) + nabs A (phi gd - phi gd_bis) + nabs A (height gd - height gd_bis) in
  if e >? nsqrt A EPSILON then Panic else Val tt.

(** tests.rs:16-39 *)
Definition test_ellipsoid (draws : list (num * num * num)) : outcome unit :=
  ec <- unwrap (conv_new WGS84);; each (ellipsoid_pass ec) draws.

(** tests.rs:55-70, one known conversion with the fraction of day *)
Definition known_fraction (p : profile) (k : num * Z * Z * Z * num) : outcome unit :=
  let '(dj1, y, m, d, f1) := k in
  gd1 <- date_new y m d;; gd1 <- unwrap gd1;;
  r <- from_julian p dj1 (lit 0 0);; _ <- unwrap r;;
  '(dj2a, dj2b) <- to_julian p gd1;;
  let dj2 := dj2a + dj2b + f1 in
  let e := nabs A (dj1 - dj2) in
  if e >=? nsqrt A EPSILON then Panic else Val tt.

(** tests.rs:72-109, one known conversion with the time *)
Definition known_time (p : profile) (k : num * Z * Z * Z * Z * Z * num) : outcome unit :=
  let tol := nsqrt A EPSILON in
  let '(jd0, y, mo, d, h, mi, s) := k in
  gd1 <- date_new y mo d;; gd1 <- unwrap gd1;;
  let hms1 := hms_new h mi s in
  let fd1 := hms_to_fraction hms1 in
  '(jd1, jd2) <- to_julian p gd1;;
  let jd := jd1 + jd2 + fd1 in
  let e := nabs A (jd - jd0) in
  _ <- (if e >=? tol then Panic else Val tt);;
  r <- from_julian p jd1 (jd2 + fd1);; r <- unwrap r;;
  let '(gd2, fd2) := r in
  hms2 <- unwrap (hms_from_fraction fd2);;
  _ <- assert ((year gd1 =? year gd2)%Z && (month gd1 =? month gd2)%Z && (day gd1 =? day gd2)%Z);;
  if negb (hour hms1 =? hour hms2)%Z || negb (minute hms1 =? minute hms2)%Z
     || (nabs A (second hms1 - second hms2) >=? lit 100 0 * tol)
  then Panic else Val tt.

(** tests.rs:111-127, one pass of the loop *)
Definition calendar_pass (p : profile) (u : num * num) : outcome unit :=
  let '(u1, f1) := u in
  let dj1a := nfloor (DJ_MIN + (MJD_ZERO + lit 36500 0) * u1) + lit 5 (-1) in
  let dj1 := dj1a + f1 in
  r <- from_julian p dj1a f1;; r <- unwrap r;;
  let '(gd, f2) := r in
  '(dj2a, dj2b) <- to_julian p gd;;
  let dj2 := dj2a + dj2b + f2 in
  let e := nabs A (dj1 - dj2) in
  if e >=? nsqrt A EPSILON then Panic else Val tt.

(** tests.rs:52-128 *)
Definition test_calendar (p : profile) (draws : list (num * num)) : outcome unit :=
  _ <- each (known_fraction p) [(lit 243611631 (-2), 1957, 10, 4, lit 81 (-2))%Z];;
  _ <- each (known_time p) [
    (lit 246062350 (-2), 2024, 11, 9, 0, 0, lit 0 0);
    (lit 2433282623611111 (-9), 1950, 1, 1, 2, 58, lit 0 0)]%Z;;
  each (calendar_pass p) draws.

(** tests.rs:131-162; the first three numbers of a pass are printed only *)
Definition test_earth : outcome unit :=
  each (fun ihour : Z =>
    let tt := MkTT DJ00 (of_int A 0 + of_int A ihour / lit 24 0) in
    let tdb := tdb_from_tt tt (lit 0 0) in
    let ut1 := ut1_from_tt tt (lit 0 0) in
    epv <- earth_pos_vel tdb;;
    _ <- assert (match warning epv with None => true | Some _ => false end);;
    c2t <- celestial_to_terrestrial tt ut1 (lit 0 0) (lit 0 0);;
    let sun := vneg (pv_p (barycentric epv)) in
    let sun_e := mapply c2t sun in
    Val Datatypes.tt) (map Z.of_nat (seq 0 24)).

(** tests.rs:197-214, one pass of the loop *)
Definition rotation_pass (u : num * num * num) : outcome unit :=
  let '(u0, u1, u2) := u in
  let theta0 := u0 * c_two_pi A in
  let theta1 := u1 * c_two_pi A in
  let theta2 := u2 * c_two_pi A in
  rot0 <- rotation 0 theta0;;
  rot1 <- rotation 0 theta1;;
  rot2 <- rotation 0 theta2;;
  let a := mcompose rot0 (mcompose rot1 rot2) in
  irot0 <- rotation 0 (- theta0);;
  irot1 <- rotation 0 (- theta1);;
  irot2 <- rotation 0 (- theta2);;
  let ia := mcompose irot2 (mcompose irot1 irot0) in
  let id1 := mcompose a ia in
  let id2 := midentity in
  compare_matrices id1 id2 (nsqrt A EPSILON).

Definition test_rotation (draws : list (num * num * num)) : outcome unit := each rotation_pass draws.

(** tests.rs:324-335, one pass of the loop *)
Definition hms_pass (f1 : num) : outcome unit :=
  hms <- unwrap (hms_from_fraction f1);;
  _ <- assert (hour hms <? 24)%Z;;
  _ <- assert (minute hms <? 60)%Z;;
  _ <- assert ((lit 0 0 <=? second hms) && (second hms <? lit 60 0));;
  let f2 := hms_to_fraction hms in
  compare_numbers f1 f2 EPSILON.

Definition test_hms (draws : list num) : outcome unit := each hms_pass draws.

(** tests.rs:338-344 *)
Definition test_delta_at (p : profile) : outcome unit :=
  gd <- date_new 2007 4 5;; gd <- unwrap gd;;
  r <- delta_at p gd (lit 5 (-1));; r <- unwrap r;; dat <- unwrap_some r;;
  compare_numbers dat (lit 33 0) EPSILON.

End Tests.

(** tests.rs:42-49 *)
Definition test_geodetic_display (tie : Z -> bool) {lm : libm} (p : profile) : outcome unit :=
  let A := b64A lm in
  let gd := MkGeod (mul A (lit A 123456789 (-6)) DEGREE) (mul A (lit A 22654321 (-6)) DEGREE) (lit A 33333333 (-3)) in
  s <- display_geodetic tie p gd;;
  assert (String.eqb s "+22.654321,+123.456789,+33333.33").
