(** * Properties: Display

    Statements only; proofs are in L_PDisplay.v. *)

From Coq Require Import ZArith Ascii String Reals Lra Lia Bool.
From Flocq Require Import Core BinarySingleNaN.
From Verif Require Import Outcome Arith ArithF Spec_Float M_Common M_Calendar M_Ellipsoid M_Display.
From Verif Require Import Spec_Calendar Spec_Api Spec_Display Spec_Stamp.
Open Scope string_scope.
Open Scope R_scope.
Open Scope Z_scope.
From Verif Require L_PDisplay.

(** C54.  Distinct dates print differently, for all integer years, months and days. *)
Theorem C54_injective : forall g g', display_date g = display_date g' -> g = g'.
Proof. exact L_PDisplay.C54_injective_pf. Qed.
Print Assumptions C54_injective.

(** C54.  For accepted dates with years 0 to 9999 the string is YYYY-MM-DD, 10 characters. *)
Theorem C54_form : forall g, accepted g -> 0 <= year g <= 9999 ->
  String.length (display_date g) = 10%nat /\
  exists ys ms ds, display_date g = ys ++ "-" ++ ms ++ "-" ++ ds /\
    field 4 (year g) ys /\ field 2 (month g) ms /\ field 2 (day g) ds.
Proof. exact L_PDisplay.C54_form_pf. Qed.
Print Assumptions C54_form.

(** C54.  Every date, negative and long years included, prints as the year in at
    least 4 characters, the month and the day in at least 2, joined by hyphens. *)
Theorem C54_padding : forall g, exists ys ms ds, display_date g = ys ++ "-" ++ ms ++ "-" ++ ds /\
  padded 4 (year g) ys /\ padded 2 (month g) ms /\ padded 2 (day g) ds.
Proof. exact L_PDisplay.C54_padding_pf. Qed.
Print Assumptions C54_padding.

(** C54.  For those dates byte order is chronological order. *)
Theorem C54_order : forall g g', accepted g -> accepted g' -> 0 <= year g <= 9999 -> 0 <= year g' <= 9999 ->
  (before (display_date g) (display_date g') <-> civil_lt (of_date g) (of_date g')).
Proof. exact L_PDisplay.C54_order_pf. Qed.
Print Assumptions C54_order.

(** Byte order is not chronological order for negative years, and years beyond
    9999 sort before 1000. *)
Example C54_example : display_date (MkDate 2007 4 5) = "2007-04-05" /\ display_date (MkDate (-5) 4 5) = "-005-04-05" /\
  before (display_date (MkDate 999 12 31)) (display_date (MkDate 2007 4 5)) /\
  before (display_date (MkDate (-100) 1 1)) (display_date (MkDate (-200) 1 1)) /\
  before (display_date (MkDate 10000 1 1)) (display_date (MkDate 2007 4 5)).
Proof. exact L_PDisplay.C54_example_pf. Qed.

(** C55 is false: the last instant before midnight prints as 23:59:60.000000. *)
Theorem C55_seconds_below_60_refuted : forall tie lm,
  exists f x, fin f = true /\ (0 <= B2R f <= 1)%R /\
  hms_from_fraction (A := b64A lm) f = Ok x /\ display_hms tie x = "23:59:60.000000".
Proof. exact L_PDisplay.C55_seconds_below_60_refuted_pf. Qed.
Print Assumptions C55_seconds_below_60_refuted.

(** C55, the true part: for every binary64 fraction in [0,1] the displayed time
    is 15 characters HH:MM:SS.ffffff with HH <= 24, MM < 60, SS <= 60; the
    printed seconds are within half a microsecond of the seconds field; SS = 60
    occurs only as 60.000000, for seconds of 59.9999995 or more. *)
Theorem C55_form_partial : forall tie lm f, fin f = true -> (0 <= B2R f <= 1)%R ->
  exists x hs ms ss us si su, hms_from_fraction (A := b64A lm) f = Ok x /\
    display_hms tie x = hs ++ ":" ++ ms ++ ":" ++ ss ++ "." ++ us /\
    String.length (display_hms tie x) = 15%nat /\
    field 2 (hour x) hs /\ 0 <= hour x <= 24 /\ field 2 (minute x) ms /\ 0 <= minute x < 60 /\
    field 2 si ss /\ 0 <= si <= 60 /\ field 6 su us /\
    (Rabs (IZR si + IZR su / 1000000 - B2R (second (A := b64A lm) x)) <= / 2000000)%R /\
    (si = 60 -> su = 0 /\ (59.9999995 <= B2R (second (A := b64A lm) x))%R).
Proof. exact L_PDisplay.C55_form_partial_pf. Qed.
Print Assumptions C55_form_partial.

(** C55.  A date and time with year 0 to 9999, hour and minute below 100 and seconds
    from 0 to 99 prints as 26 characters YYYY-MM-DD HH:MM:SS.ffffff; the seconds shown
    are within half a microsecond. *)
Theorem C55_stamp : forall tie lm (x : GregorianDateHMS (b64A lm)), stamp_ok x ->
  exists ys mos ds hs ms ss us si su,
    display_datehms tie x = ys ++ "-" ++ mos ++ "-" ++ ds ++ " " ++ hs ++ ":" ++ ms ++ ":" ++ ss ++ "." ++ us /\
    String.length (display_datehms tie x) = 26%nat /\
    field 4 (year (date x)) ys /\ field 2 (month (date x)) mos /\ field 2 (day (date x)) ds /\
    field 2 (hour (hms x)) hs /\ field 2 (minute (hms x)) ms /\ field 2 si ss /\ field 6 su us /\
    (Rabs (IZR si + IZR su / 1000000 - B2R (second (A := b64A lm) (hms x))) <= / 2000000)%R.
Proof. exact L_PDisplay.C55_stamp_pf. Qed.
Print Assumptions C55_stamp.

(** C55.  Sorting such strings by bytes never puts a later time first. *)
Theorem C55_stamp_order : forall tie lm (x x' : GregorianDateHMS (b64A lm)), stamp_ok x -> stamp_ok x' ->
  before (display_datehms tie x) (display_datehms tie x') -> stamp_lt x x'.
Proof. exact L_PDisplay.C55_stamp_order_pf. Qed.
Print Assumptions C55_stamp_order.

(** Noon, and an instant whose microseconds are an exact tie (1/128 s). *)
Example C55_example : forall lm,
  display_hms (lm := lm) (fun _ => true) (MkHMS (A := b64A lm) 12 0 (Flit 0 0)) = "12:00:00.000000" /\
  display_hms (lm := lm) (fun _ => true) (MkHMS (A := b64A lm) 1 2 (Fof 1 (-7))) = "01:02:00.007813" /\
  display_hms (lm := lm) Z.odd (MkHMS (A := b64A lm) 1 2 (Fof 1 (-7))) = "01:02:00.007812" /\
  display_datehms (lm := lm) Z.odd (MkDateHMS (A := b64A lm) (MkDate 2007 4 5) (MkHMS (A := b64A lm) 1 2 (Flit 35 (-1))))
    = "2007-04-05 01:02:03.500000".
Proof. exact L_PDisplay.C55_example_pf. Qed.

(** C62.  A position with |lat| <= 90, |lon| <= 180 and |height| <= 99999 prints
    as 32 characters: signed latitude dd.dddddd, longitude ddd.dddddd and
    height ddddd.dd, each the value rounded to the digits shown. *)
Theorem C62_position_display : forall tie lm (la lo he : b64), fin la = true -> fin lo = true -> fin he = true ->
  (Rabs (B2R la) <= 90)%R -> (Rabs (B2R lo) <= 180)%R -> (Rabs (B2R he) <= 99999)%R ->
  exists s1 i1 f1 s2 i2 f2 s3 i3 f3 n1 m1 n2 m2 n3 m3,
    display_360 tie (MkG360 (A := b64A lm) lo la he) =
      (s1 ++ i1 ++ "." ++ f1) ++ "," ++ (s2 ++ i2 ++ "." ++ f2) ++ "," ++ (s3 ++ i3 ++ "." ++ f3) /\
    String.length (display_360 tie (MkG360 (A := b64A lm) lo la he)) = 32%nat /\
    sign_string s1 /\ sign_string s2 /\ sign_string s3 /\
    field 2 n1 i1 /\ field 6 m1 f1 /\ field 3 n2 i2 /\ field 6 m2 f2 /\ field 5 n3 i3 /\ field 2 m3 f3 /\
    (Rabs (IZR (sign_factor s1) * (IZR n1 + IZR m1 / 1000000) - B2R la) <= / 2000000)%R /\
    (Rabs (IZR (sign_factor s2) * (IZR n2 + IZR m2 / 1000000) - B2R lo) <= / 2000000)%R /\
    (Rabs (IZR (sign_factor s3) * (IZR n3 + IZR m3 / 100) - B2R he) <= / 200)%R.
Proof. exact L_PDisplay.C62_position_display_pf. Qed.
Print Assumptions C62_position_display.

(** The comment in the source: +23.456789,-111.111111,+12345.67 *)
Example C62_example : forall lm,
  display_360 Z.odd (MkG360 (A := b64A lm) (Flit (-111111111) (-6)) (Flit 23456789 (-6)) (Flit 1234567 (-2)))
    = "+23.456789,-111.111111,+12345.67" /\
  display_360 Z.odd (MkG360 (A := b64A lm) (Flit 0 0) (Flit 90 0) (Flit (-1) (-3)))
    = "+90.000000,+000.000000,-00000.00".
Proof. exact L_PDisplay.C62_example_pf. Qed.
