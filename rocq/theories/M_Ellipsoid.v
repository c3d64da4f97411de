(** * Model of crates/tofas/src/ellipsoid.rs (without Display, see M_Display.v) *)

From Coq Require Import ZArith Bool List.
From Verif Require Import Outcome Arith M_Common.
Open Scope Z_scope.
Open Scope outcome_scope.

(** ellipsoid.rs:107-112 *)
Inductive EllipsoidError : Type :=
  InvalidRadius | InvalidFlattening | BadEccentricity | BadCoordinates.

Section Ellipsoid.
Context {A : arith}.
Local Notation num := (num A).
Local Notation lit := (lit A).
Local Open Scope num_scope.

(** ellipsoid.rs:4-11 *)
Record Ellipsoid : Type := MkEll { el_a : num; el_f : num }.

(** ellipsoid.rs:15-18 *)
Definition WGS84 : Ellipsoid := MkEll (lit 6378137 0) (lit 1 0 / lit 298257223563 (-9)).

(** ellipsoid.rs:20-30, 68-79 *)
Record Geodetic360 : Type := MkG360 { lon : num; lat : num; height360 : num }.
Record Geodetic : Type := MkGeod { elong : num; phi : num; height : num }.

(** ellipsoid.rs:32-46 [From<Geodetic360> for Geodetic] *)
Definition geodetic_of_360 (g : Geodetic360) : Geodetic :=
  MkGeod (lon g * DEGREE) (lat g * DEGREE) (height360 g).

(** ellipsoid.rs:56-57: the normalised angles *)
Definition lon_360 (elong : num) : num :=
  rem_euclid (elong / DEGREE + lit 180 0) (lit 360 0) - lit 180 0.
Definition lat_360 (phi : num) : num :=
  rem_euclid (phi / DEGREE + lit 90 0) (lit 180 0) - lit 90 0.

(** ellipsoid.rs:48-66 [From<Geodetic> for Geodetic360], with the two
    debug_assert! (active in debug builds only) *)
Definition geodetic_to_360 (p : profile) (g : Geodetic) : outcome Geodetic360 :=
  let lo := lon_360 (elong g) in
  let la := lat_360 (phi g) in
  let ok := ((- lit 180 0) <=? lo) && (lo <=? lit 180 0) &&
            ((- lit 90 0) <=? la) && (la <=? lit 90 0) in
  match p, ok with
  | Debug, false => Panic
  | _, _ => Val (MkG360 lo la (height g))
  end.

(** ellipsoid.rs:99-104 [zenith] *)
Definition zenith (g : Geodetic) : vec3 A :=
  V3 (ncos A (phi g) * ncos A (elong g))
     (ncos A (phi g) * nsin A (elong g))
     (nsin A (phi g)).

(** ellipsoid.rs:114-122 *)
Record EllipsoidConverter : Type := MkConv {
  cv_el : Ellipsoid;
  cv_aeps2 : num;
  cv_e2 : num;
  cv_e4t : num;
  cv_ec2 : num;
  cv_ec : num;
  cv_b : num }.

(** ellipsoid.rs:125-154 [EllipsoidConverter::new] *)
Definition conv_new (el : Ellipsoid) : result EllipsoidConverter EllipsoidError :=
  let a := el_a el in
  let f := el_f el in
  if (f <? lit 0 0) || (f >=? lit 1 0) then Err InvalidFlattening
  else if a <? lit 0 0 then Err InvalidRadius
  else
    let aeps2 := a * a * lit 1 (-32) in
    let e2 := (lit 2 0 - f) * f in
    let e4t := e2 * e2 * lit 15 (-1) in
    let ec2 := lit 1 0 - e2 in
    if ec2 <=? lit 0 0 then Err BadEccentricity
    else
      let ec := nsqrt A ec2 in
      let b := a * ec in
      Ok {| cv_el := el; cv_aeps2 := aeps2; cv_e2 := e2; cv_e4t := e4t;
            cv_ec2 := ec2; cv_ec := ec; cv_b := b |}.

(** ellipsoid.rs:157-159 [ellipsoid] *)
Definition conv_ellipsoid (c : EllipsoidConverter) : Ellipsoid := cv_el c.

(** ellipsoid.rs:180-197: the Halley step; returns (s1, cc) *)
Definition gc2gd_step (c : EllipsoidConverter) (p absz : num) : num * num :=
  let a := el_a (cv_el c) in
  let e2 := cv_e2 c in
  let ec := cv_ec c in
  let s0 := absz / a in
  let pn := p / a in
  let zc := ec * s0 in
  let c0 := ec * pn in
  let c02 := c0 * c0 in
  let c03 := c02 * c0 in
  let s02 := s0 * s0 in
  let s03 := s02 * s0 in
  let a02 := c02 + s02 in
  let a0 := nsqrt A a02 in
  let a03 := a02 * a0 in
  let d0 := zc * a03 + e2 * s03 in
  let f0 := pn * a03 - e2 * c03 in
  let b0 := cv_e4t c * s02 * c02 * pn * (a0 - ec) in
  let s1 := d0 * f0 - b0 * s0 in
  let cc := ec * (f0 * f0 - b0 * c0) in
  (s1, cc).

(** ellipsoid.rs:177-207: latitude (unsigned) and height *)
Definition gc2gd_phi_height (c : EllipsoidConverter) (p2 absz : num) : num * num :=
  if p2 >? cv_aeps2 c then
    let a := el_a (cv_el c) in
    let p := nsqrt A p2 in
    let '(s1, cc) := gc2gd_step c p absz in
    let phi := natan A (s1 / cc) in
    let s12 := s1 * s1 in
    let cc2 := cc * cc in
    let height := (p * cc + absz * s1 - a * nsqrt A (cv_ec2 c * s12 + cc2))
                  / nsqrt A (s12 + cc2) in
    (phi, height)
  else (c_pi A / lit 2 0, absz - cv_b c).

(** ellipsoid.rs:164-212 [geocentric_to_geodetic] *)
Definition geocentric_to_geodetic (c : EllipsoidConverter) (xyz : vec3 A) : Geodetic :=
  let x := v0 xyz in
  let y := v1 xyz in
  let z := v2 xyz in
  let p2 := sq x + sq y in
  let elong := if p2 >? lit 0 0 then natan2 A y x else lit 0 0 in
  let absz := nabs A z in
  let '(phi, height) := gc2gd_phi_height c p2 absz in
  let phi := if z <? lit 0 0 then - phi else phi in
  MkGeod elong phi height.

(** ellipsoid.rs:217-238 [geodetic_to_geocentric] *)
Definition geodetic_to_geocentric (c : EllipsoidConverter) (gd : Geodetic)
  : result (vec3 A) EllipsoidError :=
  let a := el_a (cv_el c) in
  let f := el_f (cv_el c) in
  let sp := nsin A (phi gd) in
  let cp := ncos A (phi gd) in
  let w := lit 1 0 - f in
  let w := w * w in
  let d := cp * cp + w * sp * sp in
  if d >? lit 0 0 then
    let ac := a / nsqrt A d in
    let wac := w * ac in
    let r := (ac + height gd) * cp in
    Ok (V3 (r * ncos A (elong gd)) (r * nsin A (elong gd)) ((wac + height gd) * sp))
  else Err BadCoordinates.

End Ellipsoid.
Arguments Ellipsoid : clear implicits.
Arguments Geodetic360 : clear implicits.
Arguments Geodetic : clear implicits.
Arguments EllipsoidConverter : clear implicits.
