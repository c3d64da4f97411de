(** * Model of crates/tofas_extras/src/sun_angle.rs and of the scan loop of
      crates/tofas_extras/examples/sun_angle_tool.rs *)

From Coq Require Import ZArith Bool List.
From Verif Require Import Outcome Arith M_Common M_Calendar M_Time M_DeltaAt
  M_Earth M_Frames M_Ellipsoid.
Import ListNotations.
Open Scope Z_scope.
Open Scope outcome_scope.

Section SunAngle.
Context {A : arith}.
Local Notation num := (num A).
Local Notation lit := (lit A).
Local Open Scope num_scope.

(** sun_angle.rs:13-18 *)
Record SunAngleParameters : Type := MkSAP {
  sp_date : GregorianDate; sp_time : HMS A; sp_position : Geodetic360 A }.

(** sun_angle.rs:20-40 [Default] *)
Definition sun_default : SunAngleParameters :=
  MkSAP (MkDate 2007 4 5) (MkHMS 0 0 (lit 0 0))
        (MkG360 (- lit 120 0) (lit 0 0) (lit 0 0)).

(** sun_angle.rs:42-53 *)
Record SunAngleCalculator : Type := MkSAC {
  sc_jd0 : num; sc_jd1_date : num; sc_dat : num; sc_fr : num; sc_dut1 : num;
  sc_dtr : num; sc_xp : num; sc_yp : num; sc_p : vec3 A; sc_zen : vec3 A }.

(** sun_angle.rs:61-76 *)
Record SunAngleResult : Type := MkSAR {
  sr_jd0 : num; sr_jd1 : num; sr_delta_s : num; sr_p : vec3 A; sr_utc : UTC A;
  sr_dat : num; sr_tai : TAI A; sr_tt : TT A; sr_ut1 : UT1 A; sr_era : num;
  sr_earth : vec3 A; sr_sun_e : vec3 A; sr_sza : num }.

(** sun_angle.rs:113-150 [SunAngleCalculator::new] *)
Definition sun_new (p : profile) (par : SunAngleParameters)
  : outcome SunAngleCalculator :=
  let dtr := lit 0 0 in
  let xp := lit 349282 (-7) * c_as2r A in
  let yp := lit 4833163 (-7) * c_as2r A in
  let dut1 := - lit 72073685 (-9) in
  let fr := hms_to_fraction (sp_time par) in
  '(jd0, jd1_date) <- to_julian p (sp_date par);;
  r <- delta_at p (sp_date par) fr;;
  o <- expect r;;
  let dat := match o with Some d => d | None => lit 0 0 end in
  wgs84 <- expect (conv_new (A := A) WGS84);;
  let p_gd := geodetic_of_360 (sp_position par) in
  pos <- expect (geodetic_to_geocentric wgs84 p_gd);;
  let zen := zenith p_gd in
  Val {| sc_jd0 := jd0; sc_jd1_date := jd1_date; sc_dat := dat; sc_fr := fr;
         sc_dut1 := dut1; sc_dtr := dtr; sc_xp := xp; sc_yp := yp;
         sc_p := pos; sc_zen := zen |}.

(** sun_angle.rs:152-203 [SunAngleCalculator::compute] *)
Definition sun_compute (c : SunAngleCalculator) (delta_s : num)
  : outcome SunAngleResult :=
  let fr := sc_fr c + delta_s / lit 86400 0 in
  let jd0 := sc_jd0 c in
  let jd1 := sc_jd1_date c + fr in
  let utc := MkUTC jd0 jd1 in
  let tai := tai_from_utc utc (sc_dat c) in
  let tt := tt_from_tai tai in
  let ut1 := MkUT1 jd0 (jd1 + sc_dut1 c / lit 86400 0) in
  let era := rotation_angle ut1 in
  let tdb := tdb_from_tt tt (sc_dtr c) in
  epv <- earth_pos_vel tdb;;
  c2t <- celestial_to_terrestrial tt ut1 (sc_xp c) (sc_yp c);;
  let earth := pv_p (heliocentric epv) in
  let sun := vscale (vneg earth) AUM in
  let sun_e := mapply (mtranspose c2t) sun in
  let sza := vangle (sc_zen c) sun_e in
  Val {| sr_jd0 := jd0; sr_jd1 := jd1; sr_delta_s := delta_s; sr_p := sc_p c;
         sr_utc := utc; sr_dat := sc_dat c; sr_tai := tai; sr_tt := tt;
         sr_ut1 := ut1; sr_era := era; sr_earth := earth; sr_sun_e := sun_e;
         sr_sza := sza |}.

(** sun_angle_tool.rs:53-68: the offsets at which the tool calls [compute], in
    order, for at most [fuel] iterations.  [None] means that the loop had not
    ended after [fuel] iterations. *)
Fixpoint scan_offsets (fuel : nat) (scan : bool) (delta delta1 step : num)
  : option (list num) :=
  if delta <=? delta1 then
    match fuel with
    | O => None
    | S fuel' =>
        if negb scan then Some [delta]
        else option_map (cons delta) (scan_offsets fuel' scan (delta + step) delta1 step)
    end
  else Some [].

End SunAngle.
Arguments SunAngleParameters : clear implicits.
Arguments SunAngleCalculator : clear implicits.
Arguments SunAngleResult : clear implicits.
