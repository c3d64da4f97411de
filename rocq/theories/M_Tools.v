(** * Model of the two command-line tools

    crates/tofas_extras/examples/sun_angle_tool.rs and julian_tool.rs.  The
    command line is given after pico-args has parsed it: one option per
    flag, [None] when the flag is absent, and [extra] when arguments are left over.
    The output is a list of lines.  A tool that panics is modelled as [Panic],
    without the lines it had already printed. *)

From Coq Require Import ZArith Ascii String List Bool.
From Flocq Require Import Core BinarySingleNaN.
From Verif Require Import Outcome Arith ArithF M_Common M_Calendar M_Time M_Ellipsoid M_SunAngle M_Display.
Import ListNotations.
Open Scope string_scope.
Open Scope Z_scope.
Open Scope outcome_scope.

Inductive tool_error : Type := BadArguments | BadDate (e : CalendarError).

(** Lines printed, and how [main] returns: [None] for Ok(()). *)
Definition tool_output : Type := (list string * option tool_error)%type.

Section Tools.
Variable tie : Z -> bool.
(** [{}] on an f64: the shortest decimal that reads back as the same number; left
    open. *)
Variable show : b64 -> string.
Context {lm : libm}.
Local Notation A := (b64A lm).

Definition opt {X : Type} (o : option X) (d : X) : X := match o with Some x => x | None => d end.

(** julian_tool.rs:6-22 *)
Definition tool_gregorian (p : profile) (year month day hour minute : option Z) (second : option b64)
  : outcome tool_output :=
  match year, month, day with
  | Some y, Some m, Some d =>
      r <- date_new y m d;;
      match r with
      | Err e => Val ([], Some (BadDate e))
      | Ok gd =>
          let hms := hms_new (A := A) (opt hour 12) (opt minute 0) (opt second (lit A 0 0)) in
          let fd := hms_to_fraction hms in
          '(jd1, jd2) <- to_julian (A := A) p gd;;
          Val ([ "Gregorian date: " ++ display_date gd;
                 "Time: " ++ display_hms tie hms;
                 "Julian date: " ++ fmt_float tie false 0 6 (add A (add A jd1 jd2) fd);
                 "Fraction of day: " ++ fmt_float tie false 0 6 fd ], None)
      end
  | _, _, _ => Val ([], Some BadArguments)
  end.

(** julian_tool.rs:24-37 *)
Definition tool_julian (p : profile) (jd jd2 : option b64) (extra : bool) : outcome tool_output :=
  match jd with
  | None => Val ([], Some BadArguments)
  | Some jd1 =>
      let jd2 := opt jd2 (lit A 0 0) in
      if extra then Val ([], Some BadArguments)
      else
        let l1 := "Julian date: " ++ fmt_float tie false 18 14 (add A jd1 jd2) in
        r <- from_julian (A := A) p jd1 jd2;;
        match r with
        | Err e => Val ([l1], Some (BadDate e))
        | Ok (gd, fod) =>
            let l2 := "Gregorian date: " ++ display_date gd in
            let l3 := "Fraction of day: " ++ show fod in
            match hms_from_fraction (A := A) fod with
            | Err e => Val ([l1; l2; l3], Some (BadDate e))
            | Ok hms => Val ([l1; l2; l3; "Time: " ++ display_hms tie hms], None)
            end
        end
  end.

(** sun_angle_tool.rs:17-31: the flags *)
Record sun_flags : Type := MkFlags {
  f_year : option Z; f_month : option Z; f_day : option Z;
  f_hour : option Z; f_min : option Z; f_sec : option b64;
  f_lat : option b64; f_lon : option b64; f_height : option b64;
  f_delta0 : option b64; f_delta1 : option b64; f_step : option b64;
  f_scan : bool; f_extra : bool }.

Definition no_flags : sun_flags :=
  MkFlags None None None None None None None None None None None None false false.

(** sun_angle_tool.rs:39-45 *)
Definition flag_parameters (a : sun_flags) (date : GregorianDate) : SunAngleParameters A :=
  MkSAP (A := A) date
    (MkHMS (A := A) (opt (f_hour a) 0) (opt (f_min a) 0) (opt (f_sec a) (lit A 0 0)))
    (MkG360 (A := A) (opt (f_lon a) (neg A (lit A 120 0))) (opt (f_lat a) (lit A 0 0)) (opt (f_height a) (lit A 0 0))).

(** sun_angle_tool.rs:53-68 the body of the loop, for each offset *)
Fixpoint tool_lines (scan : bool) (par : SunAngleParameters A) (c : SunAngleCalculator A) (ds : list b64)
  : outcome (list string) :=
  match ds with
  | [] => Val []
  | d :: ds' =>
      r <- sun_compute (A := A) c d;;
      l <- tool_lines scan par c ds';;
      Val ((if scan then [""] else []) ++ display_bundle tie par r ++ l)%list
  end.

(** sun_angle_tool.rs:14-71 [main]; [None]: still running after [fuel] iterations *)
Definition sun_tool (fuel : nat) (p : profile) (a : sun_flags) : outcome (option tool_output) :=
  let delta0 := opt (f_delta0 a) (neg A (lit A 600 0)) in
  let delta1 := opt (f_delta1 a) (lit A 600 0) in
  let step := opt (f_step a) (lit A 60 0) in
  if f_extra a then Val (Some ([], Some BadArguments))
  else
    r <- date_new (opt (f_year a) 2007) (opt (f_month a) 4) (opt (f_day a) 5);;
    match r with
    | Err e => Val (Some ([], Some (BadDate e)))
    | Ok date =>
        let par := flag_parameters a date in
        c <- sun_new (A := A) p par;;
        let header := if f_scan a
          then [ "Will scan from " ++ fmt_float tie true 13 6 delta0 ++ "s to " ++ fmt_float tie true 13 6 delta1
                 ++ "s in steps of " ++ fmt_float tie false 13 6 step ]
          else [] in
        match scan_offsets (A := A) fuel (f_scan a) delta0 delta1 step with
        | None => Val None
        | Some ds => l <- tool_lines (f_scan a) par c ds;; Val (Some ((header ++ l)%list, None))
        end
    end.

End Tools.
