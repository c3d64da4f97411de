(** * Properties: Profile

    Statements only; proofs are in L_PProfile.v. *)

From Coq Require Import ZArith Bool List String.
From Flocq Require Import Core BinarySingleNaN.
From Verif Require Import Outcome Arith ArithR ArithF M_Common M_Calendar M_DeltaAt M_Ellipsoid M_Time M_SunAngle M_Display M_Tools M_Tests Spec_Api Spec_Calendar Spec_Profile.
Open Scope Z_scope.
From Verif Require L_PProfile.

(** C102.  Every function of the library whose model mentions the build profile,
    over any arithmetic and on every input: a debug build panics, or returns what a
    release build returns.  (The other functions do not depend on the profile.) *)
Theorem C102_agree : forall A : arith,
  (forall g, agree (fun p => to_julian (A := A) p g)) /\
  (forall x y, agree (fun p => from_julian (A := A) p x y)) /\
  (forall x y, agree (fun p => datehms_from_julian (A := A) p x y)) /\
  (forall x, agree (fun p => datehms_to_julian (A := A) p x)) /\
  (forall g f, agree (fun p => delta_at (A := A) p g f)) /\
  (forall g, agree (fun p => geodetic_to_360 (A := A) p g)) /\
  (forall par, agree (fun p => sun_new (A := A) p par)).
Proof. exact L_PProfile.C102_agree_pf. Qed.
Print Assumptions C102_agree.

(** C102, the printed positions and the two command-line tools: the same. *)
Theorem C102_tools_agree : forall tie show lm,
  (forall g, agree (fun p => display_geodetic tie (lm := lm) p g)) /\
  (forall y m d h mi s, agree (fun p => tool_gregorian tie (lm := lm) p y m d h mi s)) /\
  (forall x y e, agree (fun p => tool_julian tie show (lm := lm) p x y e)) /\
  (forall fuel a, agree (fun p => sun_tool tie (lm := lm) fuel p a)).
Proof. exact L_PProfile.C102_tools_agree_pf. Qed.
Print Assumptions C102_tools_agree.

(** C102, consequence for the Sun angle: for accepted dates before 1465073-03-01 the
    two builds return the same calculator or panic alike. *)
Theorem C102_sun_same : forall (A : arith) par, accepted (sp_date (A := A) par) -> civil_lt (of_date (sp_date (A := A) par)) (1465073, 3, 1) ->
  sun_new (A := A) Debug par = sun_new (A := A) Release par.
Proof. exact L_PProfile.C102_sun_same_pf. Qed.
Print Assumptions C102_sun_same.

(** C102 where the builds do differ: the debug build panics at 1465073-03-01, and at
    the Julian date 1e9, while the release build returns values. *)
Example C102_example : forall lm,
  to_julian (A := b64A lm) Debug (MkDate 1465073 3 1) = Panic /\
  to_julian (A := b64A lm) Release (MkDate 1465073 3 1) = Val (MJD_ZERO, of_int (b64A lm) (-539313779)) /\
  from_julian (A := b64A lm) Debug (FofZ 1000000000) (FofZ 0) = Panic /\
  from_julian (A := b64A lm) Release (FofZ 1000000000) (FofZ 0) <> Panic.
Proof. exact L_PProfile.C102_example_pf. Qed.
