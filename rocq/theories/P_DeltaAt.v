(** * Properties: DeltaAt

    Statements only; proofs are in L_PDeltaAt.v. *)

From Coq Require Import ZArith Reals Lra Lia Bool List.
From Flocq Require Import Core BinarySingleNaN.
From Verif Require Import Outcome Arith ArithR ArithF Spec_Float M_Calendar M_DeltaAt Spec_Calendar Spec_Api Spec_TaiUtc.
Import ListNotations.
Open Scope R_scope.
From Verif Require L_PDeltaAt.

(** C21 is false: on 2017-01-15 TAI-UTC is 37 s, the code returns 36 s. *)
Theorem C21_delta_at_in_force_refuted : forall p, exists s n,
  accepted (MkDate 2017 1 15) /\ in_force s (2017, 1, 15)%Z /\
  day_count mjd_epoch (2017, 1, 15)%Z n /\ tai_utc s n 0 = 37 /\
  delta_at (A := realA) p (MkDate 2017 1 15) 0 = Val (Ok (Some 36)).
Proof. exact L_PDeltaAt.C21_delta_at_in_force_refuted_pf. Qed.
Print Assumptions C21_delta_at_in_force_refuted.

(** What the code computes (exact arithmetic): the formula of the step that was
    in force one month earlier, except in January 1960. *)
Theorem C21_delta_at_month_late_partial : forall p g fd, accepted g ->
  (1960 <= year g < 178956970)%Z -> 0 <= fd <= 1 ->
  exists s n, day_count mjd_epoch (of_date g) n /\
    delta_at (A := realA) p g fd = Val (Ok (Some (tai_utc s n fd))) /\
    (if (12 * year g + month g =? 12 * 1960 + 1)%Z then in_force s (of_date g)
     else in_force s (month_before (of_date g))).
Proof. exact L_PDeltaAt.C21_delta_at_month_late_partial_pf. Qed.
Print Assumptions C21_delta_at_month_late_partial.

(** C21, the true part (exact arithmetic): in a month in which no step takes
    effect, the value returned is the one in force. *)
Theorem C21_delta_at_in_force_partial : forall p g fd, accepted g ->
  (1960 <= year g < 178956970)%Z -> 0 <= fd <= 1 ->
  (forall s, In s steps -> (s_year s, s_month s) = (year g, month g) -> (s_year s, s_month s) = (1960, 1)%Z) ->
  exists s n, in_force s (of_date g) /\ day_count mjd_epoch (of_date g) n /\
    delta_at (A := realA) p g fd = Val (Ok (Some (tai_utc s n fd))).
Proof. exact L_PDeltaAt.C21_delta_at_in_force_partial_pf. Qed.
Print Assumptions C21_delta_at_in_force_partial.

(** The step in force is unique, so C21 determines the value. *)
Theorem C21_in_force_unique : forall s s' c, valid_civil c -> in_force s c -> in_force s' c -> s = s'.
Proof. exact L_PDeltaAt.C21_in_force_unique_pf. Qed.
Print Assumptions C21_in_force_unique.

(** 37 s from February 2017, 36 s at the end of 2016, and a value of the drifting years. *)
Example C21_example : forall lm p,
  let show g := match delta_at (A := b64A lm) p g (FofZ 0) with Val (Ok (Some x)) => Some (B2SF x) | _ => None end in
  show (MkDate 2017 2 1) = Some (B2SF (FofZ 37)) /\ show (MkDate 2016 12 31) = Some (B2SF (FofZ 36)) /\ show (MkDate 1968 3 1) = Some (B2SF (Flit 626085 (-5))).
Proof. exact L_PDeltaAt.C21_example_pf. Qed.

(** C22 is false: a NaN fraction is not rejected. *)
Theorem C22_delta_at_errors_refuted : forall lm p, exists x : b64,
  delta_at (A := b64A lm) p (MkDate 2020 5 1) B754_nan = Val (Ok (Some x)).
Proof. exact L_PDeltaAt.C22_delta_at_errors_refuted_pf. Qed.
Print Assumptions C22_delta_at_errors_refuted.

(** C22, the true part: for every binary64 fraction that is not NaN. *)
Theorem C22_delta_at_errors_partial : forall lm p g fd, accepted g -> (year g < 178956970)%Z ->
  is_nan fd = false ->
  exists r, delta_at (A := b64A lm) p g fd = Val r /\
    (r = Err DatBadFract <-> ~ (fin fd = true /\ 0 <= B2R fd <= 1)) /\
    (r = Ok None <-> (fin fd = true /\ 0 <= B2R fd <= 1) /\ (year g < 1960)%Z) /\
    ((exists x, r = Ok (Some x)) <-> (fin fd = true /\ 0 <= B2R fd <= 1) /\ (1960 <= year g)%Z).
Proof. exact L_PDeltaAt.C22_delta_at_errors_partial_pf. Qed.
Print Assumptions C22_delta_at_errors_partial.

(** A date before the table, fractions outside the day, and the end of the day. *)
Example C22_example : forall lm p,
  delta_at (A := b64A lm) p (MkDate 1959 12 31) (Flit 5 (-1)) = Val (Ok None) /\
  delta_at (A := b64A lm) p (MkDate 2020 5 1) (Flit (-1) (-1)) = Val (Err DatBadFract) /\
  delta_at (A := b64A lm) p (MkDate 2020 5 1) (Flit 11 (-1)) = Val (Err DatBadFract) /\
  match delta_at (A := b64A lm) p (MkDate 2020 5 1) (FofZ 1) with Val (Ok (Some x)) => B2SF x = B2SF (FofZ 37) | _ => False end.
Proof. exact L_PDeltaAt.C22_example_pf. Qed.

(** C23, from February 1972 (binary64, both profiles, any fraction that is not
    rejected): a whole number of seconds that depends only on the month and
    does not decrease as the month advances. *)
Theorem C23_delta_at_steps : forall lm p g g' fd fd', accepted g -> accepted g' ->
  (12 * 1972 + 2 <= 12 * year g + month g)%Z -> (year g < 178956970)%Z ->
  (12 * year g + month g <= 12 * year g' + month g')%Z -> (year g' < 178956970)%Z ->
  fin fd = true -> 0 <= B2R fd <= 1 -> fin fd' = true -> 0 <= B2R fd' <= 1 ->
  exists (x x' : b64) (k k' : Z),
    delta_at (A := b64A lm) p g fd = Val (Ok (Some x)) /\
    delta_at (A := b64A lm) p g' fd' = Val (Ok (Some x')) /\
    fin x = true /\ B2R x = IZR k /\ fin x' = true /\ B2R x' = IZR k' /\
    (10 <= k <= k')%Z /\
    ((12 * year g + month g = 12 * year g' + month g')%Z -> x = x').
Proof. exact L_PDeltaAt.C23_delta_at_steps_pf. Qed.
Print Assumptions C23_delta_at_steps.

(** C23, before February 1972 (exact arithmetic): between two instants for which
    the code uses the same step, the difference is the tabulated rate times the
    difference of MJD + fraction.  (Which step is used: C21.) *)
Theorem C23_delta_at_affine : forall p g g' fd fd', accepted g -> accepted g' ->
  (1960 <= year g < 178956970)%Z -> (1960 <= year g' < 178956970)%Z -> 0 <= fd <= 1 -> 0 <= fd' <= 1 ->
  (forall s, In s steps -> started s (month_before (of_date g)) <-> started s (month_before (of_date g'))) ->
  exists s n n' x x', In s steps /\
    day_count mjd_epoch (of_date g) n /\ day_count mjd_epoch (of_date g') n' /\
    delta_at (A := realA) p g fd = Val (Ok (Some x)) /\
    delta_at (A := realA) p g' fd' = Val (Ok (Some x')) /\
    x' - x = (IZR (s_rate s) / 10000000) * ((IZR n' + fd') - (IZR n + fd)).
Proof. exact L_PDeltaAt.C23_delta_at_affine_pf. Qed.
Print Assumptions C23_delta_at_affine.

(** Two values on the same drift (729 - 31 days apart at 0.002592 s a day) and two steps. *)
Example C23_example : forall lm p,
  let show g := match delta_at (A := b64A lm) p g (FofZ 0) with Val (Ok (Some x)) => Some (B2SF x) | _ => None end in
  show (MkDate 1966 2 1) = Some (B2SF (Fof 4946666010511020 (-50))) /\ show (MkDate 1967 12 31) = Some (B2SF (Flit 6202738 (-6))) /\
  show (MkDate 1972 2 1) = Some (B2SF (FofZ 10)) /\ show (MkDate 1972 8 1) = Some (B2SF (FofZ 11)).
Proof. exact L_PDeltaAt.C23_example_pf. Qed.

(** C24.  No panic, in any arithmetic and in both profiles, for any fraction. *)
Theorem C24_delta_at_no_panic : forall (A : arith) p g (fd : num A), accepted g ->
  (year g < 178956970)%Z -> delta_at (A := A) p g fd <> Panic.
Proof. exact L_PDeltaAt.C24_delta_at_no_panic_pf. Qed.
Print Assumptions C24_delta_at_no_panic.

(** The limit is sharp: August of year 178956970 panics in debug builds. *)
Theorem C24_limit_sharp : forall (A : arith) (fd : num A),
  (ltb A fd (lit A 0 0)) || (ltb A (lit A 1 0) fd) = false ->
  accepted (MkDate 178956970 8 1) /\
  delta_at (A := A) Debug (MkDate 178956970 8 1) fd = Panic.
Proof. exact L_PDeltaAt.C24_limit_sharp_pf. Qed.
Print Assumptions C24_limit_sharp.

(** The last year covered. *)
Example C24_example : forall lm p,
  match delta_at (A := b64A lm) p (MkDate 178956969 12 31) (FofZ 0) with Val (Ok (Some x)) => B2SF x = B2SF (FofZ 37) | _ => False end.
Proof. exact L_PDeltaAt.C24_example_pf. Qed.
