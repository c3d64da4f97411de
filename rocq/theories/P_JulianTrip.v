(** * Properties: JulianTrip

    Statements only; proofs are in L_PJulianTrip.v. *)

From Coq Require Import ZArith Ascii String Reals Lra Lia Bool List Permutation.
From Flocq Require Import Core BinarySingleNaN.
From Verif Require Import Outcome Arith ArithR ArithF Spec_Float M_Common M_Calendar M_Time M_Ellipsoid M_SunAngle M_Display M_Tools M_Args.
From Verif Require Import Spec_Calendar Spec_Api Spec_Display Spec_Tools Spec_Args.
Import ListNotations.
Open Scope string_scope.
Open Scope R_scope.
From Verif Require L_PJulianTrip.

(** C105: the text printed by `gregorian` as Julian date, given to `julian`, is accepted, and the
    date and time printed are within 0.0434 s of the original ones. *)
Theorem C105_round_trip : forall tie show lm p l y mo d ho mi se h m s,
  gregorian_items l y mo d ho mi se -> (1 <= y <= 9998)%Z -> valid_civil (y, mo, d) -> given ho 12%Z h -> given mi 0%Z m -> given se (Flit 0 0) s ->
  (0 <= h < 24)%Z -> (0 <= m < 60)%Z -> fin s = true -> Bsign s = false -> 0 <= B2R s < 60 ->
  exists a b js c n, julian_main tie show (lm := lm) p ("gregorian" :: words l) = Val ([a; b; "Julian date: " ++ js; c], None) /\ day_count mjd_epoch (y, mo, d) n /\
  exists js' ds f ts g n' h' m' s', julian_main tie show (lm := lm) p ["julian"; "--jd"; js] =
      Val (["Julian date: " ++ js'; "Gregorian date: " ++ ds; "Fraction of day: " ++ show f; "Time: " ++ ts], None) /\
    valid_civil (of_date g) /\ shows_date ds g /\ day_count mjd_epoch (of_date g) n' /\
    shows_clock ts h' m' s' 0 /\ (0 <= h' <= 24)%Z /\ (0 <= m' < 60)%Z /\ 0 <= s' < 60 /\
    Rabs ((86400 * IZR n' + 3600 * IZR h' + 60 * IZR m' + s') - (86400 * IZR n + 3600 * IZR h + 60 * IZR m + B2R s)) <= 0.0434.
Proof. exact L_PJulianTrip.C105_round_trip_pf. Qed.
Print Assumptions C105_round_trip.

(** C105 on 2000-01-01 18:00:30.25: the Julian date printed, given back, is 10 ms earlier. *)
Example C105_example : forall tie show lm p,
  julian_main tie show (lm := lm) p ["gregorian"; "--year"; "2000"; "--month"; "1"; "--day"; "1"; "--hour"; "18"; "--second"; "30.25"] =
  Val (["Gregorian date: 2000-01-01"; "Time: 18:00:30.250000"; "Julian date: 2451545.250350"; "Fraction of day: 0.750350"], None) /\
  exists f, julian_main tie show (lm := lm) p ["julian"; "--jd"; "2451545.250350"] =
  Val (["Julian date: 2451545.25034999987110"; "Gregorian date: 2000-01-01"; "Fraction of day: " ++ show f; "Time: 18:00:30.239989"], None).
Proof. exact L_PJulianTrip.C105_example_pf. Qed.
