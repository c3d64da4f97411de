(** * Properties: AccDat

    Statements only; proofs are in L_PAccDat.v. *)

From Coq Require Import ZArith Reals Lra Lia Bool List.
From Flocq Require Import Core BinarySingleNaN.
From Verif Require Import Outcome Arith ArithR ArithF Spec_Float Spec_Accuracy M_Calendar M_DeltaAt Spec_Calendar Spec_Api Spec_TaiUtc.
Import ListNotations.
Open Scope R_scope.
From Verif Require L_PAccDat.

(** C71, binary64: the value returned is within 1.6e-14 s of the formula of the step in
    force one month earlier (in January 1960, of the first step). *)
Theorem C71_dat_accuracy : forall lm p g fd, accepted g -> (1960 <= year g < 178956970)%Z ->
  fin fd = true -> 0 <= B2R fd <= 1 ->
  exists x s n, delta_at (A := b64A lm) p g fd = Val (Ok (Some x)) /\
    day_count mjd_epoch (of_date g) n /\
    (if (12 * year g + month g =? 12 * 1960 + 1)%Z then in_force s (of_date g)
     else in_force s (month_before (of_date g))) /\
    near x (tai_utc s n (B2R fd)) (1.6 / 10 ^ 14).
Proof. exact L_PAccDat.C71_dat_accuracy_pf. Qed.
Print Assumptions C71_dat_accuracy.

(** C71, binary64: in a month in which no step takes effect it is within 1.6e-14 s of
    TAI - UTC. *)
Theorem C71_dat_in_force_partial : forall lm p g fd, accepted g -> (1960 <= year g < 178956970)%Z ->
  fin fd = true -> 0 <= B2R fd <= 1 ->
  (forall s, In s steps -> (s_year s, s_month s) = (year g, month g) -> (s_year s, s_month s) = (1960, 1)%Z) ->
  exists x s n, delta_at (A := b64A lm) p g fd = Val (Ok (Some x)) /\
    in_force s (of_date g) /\ day_count mjd_epoch (of_date g) n /\
    near x (tai_utc s n (B2R fd)) (1.6 / 10 ^ 14).
Proof. exact L_PAccDat.C71_dat_in_force_partial_pf. Qed.
Print Assumptions C71_dat_in_force_partial.

(** C71 on 1968 March 1 (MJD 39916) at 0h: within 1.6e-14 s of
    4.21317 + (39916 - 39126) 0.002592 = 6.26085 s. *)
Example C71_example : forall lm p, exists x,
  delta_at (A := b64A lm) p (MkDate 1968 3 1) (Flit 0 0) = Val (Ok (Some x)) /\ near x 6.26085 (1.6 / 10 ^ 14).
Proof. exact L_PAccDat.C71_example_pf. Qed.
