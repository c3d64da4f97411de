(** * Properties: JulianMain

    Statements only; proofs are in L_PJulianMain.v. *)

From Coq Require Import ZArith Ascii String Reals Lra Lia Bool List Permutation.
From Flocq Require Import Core BinarySingleNaN.
From Verif Require Import Outcome Arith ArithR ArithF Spec_Float M_Common M_Calendar M_Time M_Ellipsoid M_SunAngle M_Display M_Tools M_Args.
From Verif Require Import Spec_Calendar Spec_Api Spec_Display Spec_Tools Spec_Args.
Import ListNotations.
Open Scope string_scope.
Open Scope Z_scope.
From Verif Require L_PJulianMain.

(** C104: `gregorian` reads its options, in any order, whatever else is on the line. *)
Theorem C104_gregorian_partial : forall tie show lm p c l ex y mo d h mi s, c = "gregorian" \/ c = "g" -> gregorian_items l y mo d h mi s ->
  (forall w, In w ["--year"; "--month"; "--day"; "--hour"; "--minute"; "--second"] -> ~ In w ex) ->
  julian_main tie show (lm := lm) p (c :: words l ++ ex) = tool_gregorian tie (lm := lm) p (Some y) (Some mo) (Some d) h mi s.
Proof. exact L_PJulianMain.C104_gregorian_partial_pf. Qed.
Print Assumptions C104_gregorian_partial.

(** C104: `julian` reads its options, in any order. *)
Theorem C104_julian : forall tie show lm p c l jd jd2, c = "julian" \/ c = "j" -> julian_items l jd jd2 ->
  julian_main tie show (lm := lm) p (c :: words l) = tool_julian tie show (lm := lm) p (Some jd) jd2 false.
Proof. exact L_PJulianMain.C104_julian_pf. Qed.
Print Assumptions C104_julian.

(** C104: `julian` accepts nothing else, up to the order of the words. *)
Theorem C104_julian_nothing_else : forall tie show lm p c args, c = "julian" \/ c = "j" ->
  julian_main tie show (lm := lm) p (c :: args) = Val ([], Some BadArguments) \/
  exists l jd jd2, Permutation args (words l) /\ julian_items l jd jd2 /\
    julian_main tie show (lm := lm) p (c :: args) = tool_julian tie show (lm := lm) p (Some jd) jd2 false.
Proof. exact L_PJulianMain.C104_julian_nothing_else_pf. Qed.
Print Assumptions C104_julian_nothing_else.

(** C104: without a subcommand, with another one, and without a required option. *)
Theorem C104_errors : forall tie show lm p args,
  (forall c l, args = c :: l -> ~ In c ["gregorian"; "g"; "julian"; "j"]) \/
  (exists c l k, args = c :: l /\ (c = "gregorian" \/ c = "g") /\ In k ["--year"; "--month"; "--day"] /\ ~ In k l) \/
  (exists c l, args = c :: l /\ (c = "julian" \/ c = "j") /\ ~ In "--jd" l) ->
  julian_main tie show (lm := lm) p args = Val ([], Some BadArguments).
Proof. exact L_PJulianMain.C104_errors_pf. Qed.
Print Assumptions C104_errors.

(** C104, refuted: `gregorian` ignores a misspelt option and takes the default. *)
Theorem C104_rejects_refuted : forall tie show lm p,
  julian_main tie show (lm := lm) p ["gregorian"; "--year"; "2000"; "--month"; "1"; "--day"; "1"; "--hours"; "5"] =
  Val (["Gregorian date: 2000-01-01"; "Time: 12:00:00.000000"; "Julian date: 2451545.000000"; "Fraction of day: 0.500000"], None).
Proof. exact L_PJulianMain.C104_rejects_refuted_pf. Qed.
Print Assumptions C104_rejects_refuted.

(** C104 on concrete lines: the same date with all words known and in another order, and a misspelt
    option of `julian`. *)
Example C104_example : forall tie show lm p,
  julian_main tie show (lm := lm) p ["g"; "--hour"; "18"; "--day"; "1"; "--year"; "+2000"; "--second"; "30.25"; "--month"; "01"] =
  Val (["Gregorian date: 2000-01-01"; "Time: 18:00:30.250000"; "Julian date: 2451545.250350"; "Fraction of day: 0.750350"], None) /\
  julian_main tie show (lm := lm) p ["julian"; "--jd"; "2451545"; "--jd1"; "1"] = Val ([], Some BadArguments) /\
  julian_main tie show (lm := lm) p ["--jd"; "2451545"] = Val ([], Some BadArguments).
Proof. exact L_PJulianMain.C104_example_pf. Qed.
