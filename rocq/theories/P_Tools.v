(** * Properties: Tools

    Statements only; proofs are in L_PTools.v. *)

From Coq Require Import ZArith Ascii String Reals Lra Lia Bool List Psatz.
From Flocq Require Import Core BinarySingleNaN.
From Verif Require Import Outcome Arith ArithR ArithF Spec_Float Spec_Accuracy M_Common M_Calendar M_Time M_DeltaAt M_Earth M_Frames M_Ellipsoid M_SunAngle M_Display M_Tools.
From Verif Require Import Spec_Calendar Spec_Api Spec_Matrix Spec_Frames Spec_Series Spec_Sun Spec_SunAcc Spec_Display Spec_Tools.
Import ListNotations.
Open Scope string_scope.
Open Scope R_scope.
From Verif Require L_PTools.

(** C76: without --scan the tool prints the report of the exact calculation for the requested
    date, time and place, at the time plus --delta0. *)
Theorem C76_report : forall tie lm, good_libm lm -> forall fuel p a g h m s lo la ht d0 d1 st,
  flags_say a g h m s lo la ht d0 d1 st -> usual_inputs g h m s lo la ht d0 -> Bsign s = false ->
  fin d1 = true -> B2R d0 <= B2R d1 -> f_scan a = false -> f_extra a = false -> (1 <= fuel)%nat ->
  exists lines c r, sun_tool tie (lm := lm) fuel p a = Val (Some (lines, None)) /\
    sun_new (A := realA) p (parR g h m s lo la ht) = Val c /\ sun_compute (A := realA) c (B2R d0) = Val r /\
    report lines (parR g h m s lo la ht) r.
Proof. exact L_PTools.C76_report_pf. Qed.
Print Assumptions C76_report.

(** C76: with --scan the tool prints a line with the interval and the step and then,
    each after an empty line, the reports for the offsets delta0, delta0 + step, ... in order,
    accumulated in binary64, as far as delta1. *)
Theorem C76_scan : forall tie lm, good_libm lm -> forall p a g h m s lo la ht d0 d1 st,
  flags_say a g h m s lo la ht d0 d1 st -> usual_inputs g h m s lo la ht d0 -> Bsign s = false ->
  fin d1 = true -> Rabs (B2R d1) <= 31104000 -> fin st = true -> / 10 ^ 7 <= B2R st <= 10 ^ 9 ->
  f_scan a = true -> f_extra a = false ->
  exists c blocks header x y z, sun_new (A := realA) p (parR g h m s lo la ht) = Val c /\
    (forall fuel, (length blocks <= fuel)%nat ->
       sun_tool tie (lm := lm) fuel p a = Val (Some (header :: concat (map (cons "") blocks), None))) /\
    header = "Will scan from " ++ x ++ "s to " ++ y ++ "s in steps of " ++ z /\
    shows 6 x (B2R d0) 0 /\ shows 6 y (B2R d1) 0 /\ shows 6 z (B2R st) 0 /\
    (forall k b, nth_error blocks k = Some b -> exists ds r, 
       Rabs (ds - (B2R d0 + INR k * B2R st)) <= INR k * (bpow radix2 (-52) * (31104000 + B2R st)) /\ ds <= B2R d1 /\
       sun_compute (A := realA) c ds = Val r /\ report b (parR g h m s lo la ht) r) /\
    (exists ds, let n := length blocks in
       Rabs (ds - (B2R d0 + INR n * B2R st)) <= INR n * (bpow radix2 (-52) * (31104000 + B2R st)) /\ B2R d1 < ds).
Proof. exact L_PTools.C76_scan_pf. Qed.
Print Assumptions C76_scan.

(** C76: leftover arguments and dates that are not in the calendar are reported as errors,
    whatever the other flags, before anything is printed. *)
Theorem C76_errors : forall tie lm fuel p a g h m s lo la ht d0 d1 st, flags_say a g h m s lo la ht d0 d1 st ->
  (f_extra a = true -> sun_tool tie (lm := lm) fuel p a = Val (Some ([], Some BadArguments))) /\
  (f_extra a = false -> ((-4799 <= year g)%Z /\ valid_civil (of_date g) -> False) ->
     exists e, sun_tool tie (lm := lm) fuel p a = Val (Some ([], Some (BadDate e))) /\
       (e = BadYear <-> (year g < -4799)%Z) /\ (e = BadMonth <-> (-4799 <= year g)%Z /\ ~ (1 <= month g <= 12)%Z) /\
       (e = BadDay <-> (-4799 <= year g)%Z /\ (1 <= month g <= 12)%Z /\ ~ (1 <= day g <= month_length (year g) (month g))%Z)).
Proof. exact L_PTools.C76_errors_pf. Qed.
Print Assumptions C76_errors.

(** C77, refuted: without --delta0 the tool reports for ten minutes before the requested
    time. *)
Theorem C77_requested_time_refuted : forall tie lm, good_libm lm -> forall p,
  exists lines, sun_tool tie (lm := lm) 1 p no_flags = Val (Some (lines, None)) /\
  nth_error lines 1 = Some "Time:                00:00:00.000000   -600.000000s".
Proof. exact L_PTools.C77_requested_time_refuted_pf. Qed.
Print Assumptions C77_requested_time_refuted.

(** C77, partial: with --delta0 0 the report is for the requested time. *)
Theorem C77_requested_time_partial : forall tie lm, good_libm lm -> forall fuel p a g h m s lo la ht d0 d1 st,
  flags_say a g h m s lo la ht d0 d1 st -> usual_inputs g h m s lo la ht d0 -> Bsign s = false ->
  B2R d0 = 0 -> fin d1 = true -> 0 <= B2R d1 -> f_scan a = false -> f_extra a = false -> (1 <= fuel)%nat ->
  exists lines c r, sun_tool tie (lm := lm) fuel p a = Val (Some (lines, None)) /\
    sun_new (A := realA) p (parR g h m s lo la ht) = Val c /\ sun_compute (A := realA) c 0 = Val r /\
    report lines (parR g h m s lo la ht) r.
Proof. exact L_PTools.C77_requested_time_partial_pf. Qed.
Print Assumptions C77_requested_time_partial.

(** C78, refuted: an hour out of range is not reported as an error, the tool panics. *)
Theorem C78_bad_time_refuted : forall tie lm fuel p,
  sun_tool tie (lm := lm) fuel p (MkFlags None None None (Some 25%Z) None None None None None None None None false false) = Panic.
Proof. exact L_PTools.C78_bad_time_refuted_pf. Qed.
Print Assumptions C78_bad_time_refuted.

(** C78, partial: in the usual range there is no panic; with delta0 > delta1 and without --scan the tool prints
    nothing and succeeds. *)
Theorem C78_silent_partial : forall tie lm, good_libm lm -> forall fuel p a g h m s lo la ht d0 d1 st,
  flags_say a g h m s lo la ht d0 d1 st -> usual_inputs g h m s lo la ht d0 -> fin d1 = true -> B2R d1 < B2R d0 ->
  f_scan a = false -> f_extra a = false -> sun_tool tie (lm := lm) fuel p a = Val (Some ([], None)).
Proof. exact L_PTools.C78_silent_partial_pf. Qed.
Print Assumptions C78_silent_partial.

(** C79: `gregorian` prints the date, the time, the Julian date and the fraction of day. *)
Theorem C79_gregorian : forall tie lm p y mo d ho mi se h m s,
  (0 <= y <= 9999)%Z -> valid_civil (y, mo, d) -> given ho 12%Z h -> given mi 0%Z m -> given se (Flit 0 0) s ->
  (0 <= h < 24)%Z -> (0 <= m < 60)%Z -> fin s = true -> Bsign s = false -> 0 <= B2R s < 60 ->
  exists ds ts js fs n, tool_gregorian tie (lm := lm) p (Some y) (Some mo) (Some d) ho mi se =
    Val (["Gregorian date: " ++ ds; "Time: " ++ ts; "Julian date: " ++ js; "Fraction of day: " ++ fs], None) /\
  shows_date ds (MkDate y mo d) /\ shows_clock ts h m (B2R s) 0 /\ day_count mjd_epoch (y, mo, d) n /\
  shows 6 js (2400000.5 + IZR n + (3600 * IZR h + 60 * IZR m + B2R s) / 86400) (5 / 10 ^ 10) /\
  shows 6 fs ((3600 * IZR h + 60 * IZR m + B2R s) / 86400) (1 / 10 ^ 15).
Proof. exact L_PTools.C79_gregorian_pf. Qed.
Print Assumptions C79_gregorian.

(** C79: the errors of `gregorian`. *)
Theorem C79_errors : forall tie lm p y mo d ho mi se,
  (y = None \/ mo = None \/ d = None -> tool_gregorian tie (lm := lm) p y mo d ho mi se = Val ([], Some BadArguments)) /\
  (forall y' mo' d', y = Some y' -> mo = Some mo' -> d = Some d' -> ~ ((-4799 <= y')%Z /\ valid_civil (y', mo', d')) ->
     exists e, tool_gregorian tie (lm := lm) p y mo d ho mi se = Val ([], Some (BadDate e)) /\
       (e = BadYear <-> (y' < -4799)%Z) /\ (e = BadMonth <-> (-4799 <= y')%Z /\ ~ (1 <= mo' <= 12)%Z) /\
       (e = BadDay <-> (-4799 <= y')%Z /\ (1 <= mo' <= 12)%Z /\ ~ (1 <= d' <= month_length y' mo')%Z)).
Proof. exact L_PTools.C79_errors_pf. Qed.
Print Assumptions C79_errors.

(** C80: `julian` prints the sum, the date and the time of day of the instant. *)
Theorem C80_julian_partial : forall tie show lm p x y o2, given o2 (Flit 0 0) y -> fin x = true -> fin y = true ->
  Rabs (B2R x) <= 2251799813685248 -> Rabs (B2R y) <= 2251799813685248 -> 1721060 <= B2R x + B2R y <= 5373484 ->
  exists js ds ts g f n h m s,
    tool_julian tie show (lm := lm) p (Some x) o2 false =
      Val (["Julian date: " ++ js; "Gregorian date: " ++ ds; "Fraction of day: " ++ show f; "Time: " ++ ts], None) /\
    shows 14 js (B2R x + B2R y) (bpow radix2 (-31)) /\
    valid_civil (of_date g) /\ shows_date ds g /\ day_count mjd_epoch (of_date g) n /\
    fin f = true /\ 0 <= B2R f <= 1 /\
    Rabs (2400000.5 + IZR n + B2R f - (B2R x + B2R y)) <= bpow radix2 (-53) * (Rabs (Rmin (B2R x) (B2R y)) + 3) /\
    shows_clock ts h m s 0 /\ (0 <= h <= 24)%Z /\ (0 <= m < 60)%Z /\ 0 <= s < 60 /\
    Rabs ((3600 * IZR h + 60 * IZR m + s) / 86400 - B2R f) <= / 10 ^ 16.
Proof. exact L_PTools.C80_julian_partial_pf. Qed.
Print Assumptions C80_julian_partial.

(** C80: instants out of range are reported as errors after the sum has been printed. *)
Theorem C80_rejects : forall tie show lm p x y o2, given o2 (Flit 0 0) y -> fin x = true -> fin y = true ->
  ~ (fin (Fadd x y) = true /\ -32000 <= B2R (Fadd x y) <= 1000000000) ->
  exists js, tool_julian tie show (lm := lm) p (Some x) o2 false = Val (["Julian date: " ++ js], Some (BadDate BadJulian)).
Proof. exact L_PTools.C80_rejects_pf. Qed.
Print Assumptions C80_rejects.

(** C80, refuted: the time can be 24:00:00 of the day before, and a Julian date
    that is not a number has a date and a time. *)
Theorem C80_times_refuted : forall tie show lm p,
  (exists l f, tool_julian tie show (lm := lm) p (Some (Fof 2451545 0)) (Some (Fof (2 ^ 53 - 1) (-54))) false =
     Val ([l; "Gregorian date: 2000-01-01"; "Fraction of day: " ++ show f; "Time: 24:00:00.000000"], None)) /\
  (exists f t, tool_julian tie show (lm := lm) p (Some B754_nan) None false =
     Val (["Julian date:                NaN"; "Gregorian date: -4713-11-25"; "Fraction of day: " ++ show f; "Time: " ++ t], None)).
Proof. exact L_PTools.C80_times_refuted_pf. Qed.
Print Assumptions C80_times_refuted.

(** C76 to C80 on a concrete run each: the default flags, 2000-01-01 12:00 and JD
    2451545. *)
Example C76_example : forall tie lm, good_libm lm -> forall p,
  exists lines c r, sun_tool tie (lm := lm) 1 p no_flags = Val (Some (lines, None)) /\
    sun_new (A := realA) p (sun_default (A := realA)) = Val c /\ sun_compute (A := realA) c (-600) = Val r /\
    report lines (sun_default (A := realA)) r.
Proof. exact L_PTools.C76_example_pf. Qed.

Example C77_example : forall tie lm, good_libm lm -> forall p, exists lines c r,
  sun_tool tie (lm := lm) 1 p (MkFlags None None None None None None None None None (Some (Flit 0 0)) None None false false) = Val (Some (lines, None)) /\
  sun_new (A := realA) p (sun_default (A := realA)) = Val c /\ sun_compute (A := realA) c 0 = Val r /\ report lines (sun_default (A := realA)) r.
Proof. exact L_PTools.C77_example_pf. Qed.

Example C78_example : forall tie lm, good_libm lm -> forall p,
  sun_tool tie (lm := lm) 1 p (MkFlags None None None None None None None None None (Some (Flit 1 0)) (Some (Flit 0 0)) None false false) = Val (Some ([], None)).
Proof. exact L_PTools.C78_example_pf. Qed.

Example C79_example : forall tie lm p,
  tool_gregorian tie (lm := lm) p (Some 2000%Z) (Some 1%Z) (Some 1%Z) None None None =
  Val (["Gregorian date: 2000-01-01"; "Time: 12:00:00.000000"; "Julian date: 2451545.000000"; "Fraction of day: 0.500000"], None).
Proof. exact L_PTools.C79_example_pf. Qed.

Example C80_example : forall tie show lm p, exists f, B2R f = / 2 /\
  tool_julian tie show (lm := lm) p (Some (Fof 2451545 0)) None false =
  Val (["Julian date: 2451545.00000000000000"; "Gregorian date: 2000-01-01"; "Fraction of day: " ++ show f; "Time: 12:00:00.000000"], None).
Proof. exact L_PTools.C80_example_pf. Qed.
