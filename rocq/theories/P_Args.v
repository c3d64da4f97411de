(** * Properties: Args

    Statements only; proofs are in L_PArgs.v. *)

From Coq Require Import ZArith Ascii String Reals Lra Lia Bool List Permutation.
From Flocq Require Import Core BinarySingleNaN.
From Verif Require Import Outcome Arith ArithR ArithF Spec_Float M_Common M_Calendar M_Time M_Ellipsoid M_SunAngle M_Display M_Tools M_Args.
From Verif Require Import Spec_Calendar Spec_Api Spec_Display Spec_Tools Spec_Args.
Import ListNotations.
Open Scope string_scope.
Open Scope Z_scope.
From Verif Require L_PArgs.

(** C103: options given once each, in any order, with readable texts, are read as they
    are written. *)
Theorem C103_any_order : forall tie lm fuel p l a, sun_items l a -> sun_main tie (lm := lm) fuel p (words l) = sun_tool tie (lm := lm) fuel p a.
Proof. exact L_PArgs.C103_any_order_pf. Qed.
Print Assumptions C103_any_order.

(** C103: every other command line is an error, unless its words can be put in such an order. *)
Theorem C103_nothing_else : forall tie lm fuel p args,
  sun_main tie (lm := lm) fuel p args = Val (Some ([], Some BadArguments)) \/
  exists l a, Permutation args (words l) /\ sun_items l a /\ sun_main tie (lm := lm) fuel p args = sun_tool tie (lm := lm) fuel p a.
Proof. exact L_PArgs.C103_nothing_else_pf. Qed.
Print Assumptions C103_nothing_else.

(** C103: a word that is neither an option nor a number, and an option given twice, are errors. *)
Theorem C103_errors : forall tie lm fuel p args w,
  (In w args /\ ~ In w ("--scan" :: sun_options) /\ (forall x, ~ reads_f64 w x)) \/
  (In w ("--scan" :: sun_options) /\ (2 <= count_occ string_dec args w)%nat) ->
  sun_main tie (lm := lm) fuel p args = Val (Some ([], Some BadArguments)).
Proof. exact L_PArgs.C103_errors_pf. Qed.
Print Assumptions C103_errors.

(** C103 on concrete command lines: options in any order; a number the reader rejects, an
    option given twice and a misspelt option are errors; the words of a line may even be
    out of their pairs. *)
Example C103_example : forall tie lm fuel p,
  sun_main tie (lm := lm) fuel p ["--lat"; "-12.5"; "--scan"; "--year"; "2020"; "--delta1"; "1e3"; "--hour"; "+7"] =
    sun_tool tie (lm := lm) fuel p (MkFlags (Some 2020) None None (Some 7) None None (Some (Fof (-25) (-1))) None None None (Some (Fof 1000 0)) None true false) /\
  sun_main tie (lm := lm) fuel p ["--hour"; "256"] = Val (Some ([], Some BadArguments)) /\
  sun_main tie (lm := lm) fuel p ["--hour"; "-1"] = Val (Some ([], Some BadArguments)) /\
  sun_main tie (lm := lm) fuel p ["--year"; "2020.0"] = Val (Some ([], Some BadArguments)) /\
  sun_main tie (lm := lm) fuel p ["--lat"; "1"; "--lat"; "2"] = Val (Some ([], Some BadArguments)) /\
  sun_main tie (lm := lm) fuel p ["--latitude"; "1"] = Val (Some ([], Some BadArguments)) /\
  sun_main tie (lm := lm) fuel p ["--lat"] = Val (Some ([], Some BadArguments)) /\
  sun_main tie (lm := lm) fuel p ["--hour"; "--day"; "5"; "7"] =
    sun_tool tie (lm := lm) fuel p (MkFlags None None (Some 5) (Some 7) None None None None None None None None false false).
Proof. exact L_PArgs.C103_example_pf. Qed.
