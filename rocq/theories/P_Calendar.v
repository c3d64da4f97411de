(** * Properties: Calendar

    Statements only; proofs are in L_PCalendar.v. *)

From Coq Require Import ZArith Reals Lra Lia Bool.
From Flocq Require Import Core BinarySingleNaN.
From Verif Require Import Outcome Arith ArithR ArithF Spec_Float M_Calendar Spec_Calendar Spec_Api.
Open Scope R_scope.
From Verif Require L_PCalendar.

(** C01.  The four outcomes of the constructor, for every triple of integers. *)
Theorem C01_date_new_characterised : forall y m d : Z,
  exists r, date_new y m d = Val r /\
    (r = Ok (MkDate y m d) <-> (-4799 <= y)%Z /\ valid_civil (y, m, d)) /\
    (r = Err BadYear <-> (y < -4799)%Z) /\
    (r = Err BadMonth <-> (-4799 <= y)%Z /\ ~ (1 <= m <= 12)%Z) /\
    (r = Err BadDay <-> (-4799 <= y)%Z /\ (1 <= m <= 12)%Z /\ ~ (1 <= d <= month_length y m)%Z).
Proof. exact L_PCalendar.C01_date_new_characterised_pf. Qed.
Print Assumptions C01_date_new_characterised.

(** C01 is not vacuous: 29 February exists in 2000 and not in 1900. *)
Example C01_example :
  date_new 2000 2 29 = Val (Ok (MkDate 2000 2 29)) /\ date_new 1900 2 29 = Val (Err BadDay) /\
  date_new (-4800) 1 1 = Val (Err BadYear) /\ date_new 2001 13 1 = Val (Err BadMonth).
Proof. exact L_PCalendar.C01_example_pf. Qed.

(** C02.  [to_julian] returns (2400000.5, n), both exact, n the number of days
    from 1858-11-17 counted by walking the calendar. *)
Theorem C02_to_julian_exact : forall lm p g, accepted g -> (year g <= 1465072)%Z ->
  exists (a b : b64) (n : Z),
    to_julian (A := b64A lm) p g = Val (a, b) /\
    fin a = true /\ B2R a = 2400000 + / 2 /\
    fin b = true /\ B2R b = IZR n /\ day_count mjd_epoch (of_date g) n.
Proof. exact L_PCalendar.C02_to_julian_exact_pf. Qed.
Print Assumptions C02_to_julian_exact.

(** The number of days in C02 is unique. *)
Theorem C02_day_count_unique : forall c n n', valid_civil c ->
  day_count mjd_epoch c n -> day_count mjd_epoch c n' -> n = n'.
Proof. exact L_PCalendar.C02_day_count_unique_pf. Qed.
Print Assumptions C02_day_count_unique.

(** The same in exact arithmetic. *)
Theorem C02_to_julian_exact_reals : forall p g, accepted g -> (year g <= 1465072)%Z ->
  exists n : Z, to_julian (A := realA) p g = Val (2400000 + / 2, IZR n) /\
    day_count mjd_epoch (of_date g) n.
Proof. exact L_PCalendar.C02_to_julian_exact_reals_pf. Qed.
Print Assumptions C02_to_julian_exact_reals.

(** 2000-01-01 is MJD 51544. *)
Example C02_example : accepted (MkDate 2000 1 1) /\ to_mjd Debug (MkDate 2000 1 1) = Val 51544%Z.
Proof. exact L_PCalendar.C02_example_pf. Qed.

(** C03.  Order of dates and order of day numbers agree (binary64 comparison). *)
Theorem C03_to_julian_order : forall lm p g h, accepted g -> accepted h ->
  (year g <= 1465072)%Z -> (year h <= 1465072)%Z ->
  exists a x y : b64,
    to_julian (A := b64A lm) p g = Val (a, x) /\
    to_julian (A := b64A lm) p h = Val (a, y) /\
    (Bltb x y = true <-> civil_lt (of_date g) (of_date h)) /\
    (x = y <-> g = h).
Proof. exact L_PCalendar.C03_to_julian_order_pf. Qed.
Print Assumptions C03_to_julian_order.

(** The last day of 1999 and the first of 2000: days 51543 and 51544. *)
Example C03_example : forall lm p,
  match to_julian (A := b64A lm) p (MkDate 1999 12 31), to_julian (A := b64A lm) p (MkDate 2000 1 1) with
  | Val (a, x), Val (a', y) => (B2SF a, B2SF x, B2SF a', B2SF y, Bltb x y) = (B2SF (Flit 24000005 (-1)), B2SF (FofZ 51543), B2SF (Flit 24000005 (-1)), B2SF (FofZ 51544), true)
  | _, _ => False end.
Proof. exact L_PCalendar.C03_example_pf. Qed.

(** C04 is false: 1465073-03-01 is accepted by [new], [to_julian] panics in
    debug builds and in release builds returns a date far in the past. *)
Theorem C04_to_julian_no_overflow_refuted : forall A : arith,
  ~ (forall g, accepted g -> (i32_min <= year g <= i32_max)%Z -> to_julian (A := A) Debug g <> Panic).
Proof. exact L_PCalendar.C04_to_julian_no_overflow_refuted_pf. Qed.
Print Assumptions C04_to_julian_no_overflow_refuted.

(** In release builds 1465073-03-01 gets a negative day number. *)
Theorem C04_release_wraps_refuted : forall A : arith,
  accepted (MkDate 1465073 3 1) /\ (exists a, to_julian (A := A) Release (MkDate 1465073 3 1) = Val (a, of_int A (-539313779)%Z)).
Proof. exact L_PCalendar.C04_release_wraps_refuted_pf. Qed.
Print Assumptions C04_release_wraps_refuted.

(** The last accepted date before the boundary and the first one at it, debug builds. *)
Example C04_example : forall A : arith,
  to_julian (A := A) Debug (MkDate 1465073 2 28) <> Panic /\ to_julian (A := A) Debug (MkDate 1465073 3 1) = Panic.
Proof. exact L_PCalendar.C04_example_pf. Qed.

(** C04, the true part: the exact boundary.  Debug builds panic on an accepted
    date exactly from 1465073-03-01 on; before it, release and debug agree. *)
Theorem C04_to_julian_no_overflow_partial : forall (A : arith) g, accepted g ->
  (year g <= i32_max)%Z ->
  (to_julian (A := A) Debug g = Panic <-> ~ civil_lt (of_date g) (1465073, 3, 1)%Z) /\
  (civil_lt (of_date g) (1465073, 3, 1)%Z ->
   to_julian (A := A) Release g = to_julian (A := A) Debug g).
Proof. exact L_PCalendar.C04_to_julian_no_overflow_partial_pf. Qed.
Print Assumptions C04_to_julian_no_overflow_partial.

(** C04, the false part in full: from 1465073-03-01 on a release build returns a
    wrong day count for every accepted date. *)
Theorem C04_release_wrong_partial : forall (A : arith) g n, accepted g -> (year g <= i32_max)%Z ->
  ~ civil_lt (of_date g) (1465073, 3, 1)%Z -> day_count mjd_epoch (of_date g) n ->
  exists a z, to_julian (A := A) Release g = Val (a, of_int A z) /\ z <> n.
Proof. exact L_PCalendar.C04_release_wrong_partial_pf. Qed.
Print Assumptions C04_release_wrong_partial.

(** C05.  Date to Julian date and back, in binary64 and in both profiles: same
    date, fraction exactly +0.0, for every accepted date up to 1465002-10-17. *)
Theorem C05_date_roundtrip : forall lm p g, accepted g ->
  ~ civil_lt (1465002, 10, 17)%Z (of_date g) ->
  exists a b : b64, to_julian (A := b64A lm) p g = Val (a, b) /\
    from_julian (A := b64A lm) p a b = Val (Ok (g, B754_zero false)).
Proof. exact L_PCalendar.C05_date_roundtrip_pf. Qed.
Print Assumptions C05_date_roundtrip.

(** 29 February 2000 goes to day 51603 and comes back; the first and the last date covered. *)
Example C05_example : accepted (MkDate (-4799) 1 1) /\ accepted (MkDate 1465002 10 17) /\ forall lm p,
  match to_julian (A := b64A lm) p (MkDate 2000 2 29) with
  | Val (a, b) => match from_julian (A := b64A lm) p a b with Val (Ok (g, f)) => (B2SF b, g, B2SF f) = (B2SF (FofZ 51603), MkDate 2000 2 29, SpecFloat.S754_zero false) | _ => False end
  | Panic => False end.
Proof. exact L_PCalendar.C05_example_pf. Qed.

(** C06.  In exact arithmetic, [from_julian] finds the calendar day containing
    the instant and the exact fraction: midnight of the day + f = dj1 + dj2. *)
Theorem C06_from_julian_civil : forall p dj1 dj2,
  -32000 <= dj1 + dj2 < 536802342 + / 2 ->
  exists g f n,
    from_julian (A := realA) p dj1 dj2 = Val (Ok (g, f)) /\
    valid_civil (of_date g) /\ 0 <= f < 1 /\
    day_count mjd_epoch (of_date g) n /\
    2400000 + / 2 + IZR n + f = dj1 + dj2.
Proof. exact L_PCalendar.C06_from_julian_civil_pf. Qed.
Print Assumptions C06_from_julian_civil.

(** JD 2400365.75 is a quarter of the day 1859-11-17, a year after the epoch. *)
Example C06_example : forall p, from_julian (A := realA) p 2400000 365.75 = Val (Ok (MkDate 1859 11 17, 0.25)).
Proof. exact L_PCalendar.C06_example_pf. Qed.

(** C07.  In binary64, with both parts of magnitude at most 2^51: no panic, a
    valid day, a fraction in [0,1], and an error of at most
    2^-53 (|smaller part| + 3) days. *)
Theorem C07_from_julian_accuracy : forall lm p x y, fin x = true -> fin y = true ->
  Rabs (B2R x) <= 2251799813685248 -> Rabs (B2R y) <= 2251799813685248 ->
  -32000 <= B2R x + B2R y <= 536802342 ->
  exists g (f : b64) n,
    from_julian (A := b64A lm) p x y = Val (Ok (g, f)) /\
    valid_civil (of_date g) /\ fin f = true /\ 0 <= B2R f <= 1 /\
    day_count mjd_epoch (of_date g) n /\
    Rabs (2400000 + / 2 + IZR n + B2R f - (B2R x + B2R y))
      <= bpow radix2 (-53) * (Rabs (Rmin (B2R x) (B2R y)) + 3).
Proof. exact L_PCalendar.C07_from_julian_accuracy_pf. Qed.
Print Assumptions C07_from_julian_accuracy.

(** JD 2451545.0 + 0.25 is 2000-01-01, three quarters of the day. *)
Example C07_example : forall lm p,
  match from_julian (A := b64A lm) p (Flit 24515450 (-1)) (Flit 25 (-2)) with
  | Val (Ok (g, f)) => (g, B2SF f) = (MkDate 2000 1 1, B2SF (Flit 75 (-2))) | _ => False end.
Proof. exact L_PCalendar.C07_example_pf. Qed.

(** C08 is false: from_julian(2451545.0, 0.5 - 2^-54) returns the day before
    with fraction 1.0. *)
Theorem C08_fraction_below_one_refuted : forall lm p, exists x y f : b64,
  from_julian (A := b64A lm) p x y = Val (Ok (MkDate 2000 1 1, f)) /\
  fin x = true /\ fin y = true /\ B2R x + B2R y < 2451545 + / 2 /\ B2R f = 1.
Proof. exact L_PCalendar.C08_fraction_below_one_refuted_pf. Qed.
Print Assumptions C08_fraction_below_one_refuted.

(** C08, the true parts.  First: in exact arithmetic the fraction is below 1
    (this is part of C06).  Second: in binary64 it is at most 1, and below 1
    unless the exact Julian date is within the C07 error of a midnight. *)
Theorem C08_fraction_below_one_partial : forall lm p x y, fin x = true -> fin y = true ->
  Rabs (B2R x) <= 2251799813685248 -> Rabs (B2R y) <= 2251799813685248 ->
  -32000 <= B2R x + B2R y <= 536802342 ->
  exists g (f : b64),
    from_julian (A := b64A lm) p x y = Val (Ok (g, f)) /\ 0 <= B2R f <= 1 /\
    ((forall k : Z, bpow radix2 (-53) * (Rabs (Rmin (B2R x) (B2R y)) + 3)
                    < Rabs (IZR k + / 2 - (B2R x + B2R y))) -> B2R f < 1).
Proof. exact L_PCalendar.C08_fraction_below_one_partial_pf. Qed.
Print Assumptions C08_fraction_below_one_partial.

(** Third: below 1, and exact, when both parts are multiples of 2^-20 day (82 ms). *)
Theorem C08_fraction_below_one_grid_partial : forall lm p x y, fin x = true -> fin y = true ->
  Rabs (B2R x) <= 2147483648 -> Rabs (B2R y) <= 2147483648 ->
  (exists k : Z, B2R x = IZR k * bpow radix2 (-20)) ->
  (exists k : Z, B2R y = IZR k * bpow radix2 (-20)) ->
  -32000 <= B2R x + B2R y <= 536802342 ->
  exists g (f : b64) n,
    from_julian (A := b64A lm) p x y = Val (Ok (g, f)) /\ 0 <= B2R f < 1 /\
    valid_civil (of_date g) /\ day_count mjd_epoch (of_date g) n /\
    2400000 + / 2 + IZR n + B2R f = B2R x + B2R y.
Proof. exact L_PCalendar.C08_fraction_below_one_grid_partial_pf. Qed.
Print Assumptions C08_fraction_below_one_grid_partial.

(** An instant 2^-20 day before midnight keeps its date and fraction. *)
Example C08_example : forall lm p,
  match from_julian (A := b64A lm) p (FofZ 2451545) (Fof (2^19-1) (-20)) with
  | Val (Ok (g, f)) => (g, B2SF f) = (MkDate 2000 1 1, B2SF (Fof (2^20-1) (-20))) | _ => False end.
Proof. exact L_PCalendar.C08_example_pf. Qed.

(** C09 is false: JD -32000 is accepted and gives 14 April of year -4800, which
    [new] rejects. *)
Theorem C09_from_julian_accepted_refuted : forall lm p, exists (x y f : b64) g,
  from_julian (A := b64A lm) p x y = Val (Ok (g, f)) /\ ~ accepted g /\
  date_new (year g) (month g) (day g) = Val (Err BadYear).
Proof. exact L_PCalendar.C09_from_julian_accepted_refuted_pf. Qed.
Print Assumptions C09_from_julian_accepted_refuted.

(** C09, the true part, exact arithmetic: accepted exactly from JD -31738.5
    (-4799-01-01) on. *)
Theorem C09_from_julian_accepted_partial : forall p dj1 dj2 g f,
  -32000 <= dj1 + dj2 < 536802342 + / 2 ->
  from_julian (A := realA) p dj1 dj2 = Val (Ok (g, f)) ->
  (accepted g <-> -31738 - / 2 <= dj1 + dj2).
Proof. exact L_PCalendar.C09_from_julian_accepted_partial_pf. Qed.
Print Assumptions C09_from_julian_accepted_partial.

(** C09, the true part, binary64: accepted from JD -31738 on. *)
Theorem C09_from_julian_accepted_b64_partial : forall lm p x y, fin x = true -> fin y = true ->
  Rabs (B2R x) <= 2251799813685248 -> Rabs (B2R y) <= 2251799813685248 ->
  -31738 <= B2R x + B2R y <= 536802342 ->
  exists g (f : b64), from_julian (A := b64A lm) p x y = Val (Ok (g, f)) /\ accepted g.
Proof. exact L_PCalendar.C09_from_julian_accepted_b64_partial_pf. Qed.
Print Assumptions C09_from_julian_accepted_b64_partial.

(** The first instant whose date is accepted, and the day before. *)
Example C09_example : forall lm p,
  match from_julian (A := b64A lm) p (Flit (-317385) (-1)) (FofZ 0), from_julian (A := b64A lm) p (Flit (-317395) (-1)) (FofZ 0) with
  | Val (Ok (g, _)), Val (Ok (g', _)) => g = MkDate (-4799) 1 1 /\ accepted g /\ g' = MkDate (-4800) 12 31 /\ ~ accepted g' | _, _ => False end.
Proof. exact L_PCalendar.C09_example_pf. Qed.

(** C10 is false: NaN is not rejected but gives the date -4713-11-25. *)
Theorem C10_from_julian_rejects_refuted : forall lm p, exists f : b64,
  from_julian (A := b64A lm) p B754_nan (FofZ 0) = Val (Ok (MkDate (-4713) 11 25, f)).
Proof. exact L_PCalendar.C10_from_julian_rejects_refuted_pf. Qed.
Print Assumptions C10_from_julian_rejects_refuted.

(** C10, the true part: whenever the sum is not NaN, rejection is exactly
    "the binary64 sum is not a finite number in [-32000, 1e9]". *)
Theorem C10_from_julian_rejects_partial : forall lm p x y, is_nan (Fadd x y) = false ->
  (from_julian (A := b64A lm) p x y = Val (Err BadJulian) <->
   ~ (fin (Fadd x y) = true /\ -32000 <= B2R (Fadd x y) <= 1000000000)).
Proof. exact L_PCalendar.C10_from_julian_rejects_partial_pf. Qed.
Print Assumptions C10_from_julian_rejects_partial.

(** The sum is NaN only for a NaN input or infinities of opposite sign, so the
    hypothesis of the partial theorem holds for all finite inputs. *)
Theorem C10_from_julian_rejects_finite_partial : forall lm p x y, fin x = true -> fin y = true ->
  (from_julian (A := b64A lm) p x y = Val (Err BadJulian) <->
   ~ (fin (Fadd x y) = true /\ -32000 <= B2R (Fadd x y) <= 1000000000)).
Proof. exact L_PCalendar.C10_from_julian_rejects_finite_partial_pf. Qed.
Print Assumptions C10_from_julian_rejects_finite_partial.

Example C10_example : forall lm p,
  from_julian (A := b64A lm) p (FofZ 1000000001) (FofZ 0) = Val (Err BadJulian) /\
  is_nan (Fadd (FofZ 1000000001) (FofZ 0)) = false.
Proof. exact L_PCalendar.C10_example_pf. Qed.

(** C11 is false: JD 1e9 is accepted; debug builds panic and release builds
    return the "date" -206610, month -3, day 1073741815. *)
Theorem C11_from_julian_no_overflow_refuted : forall lm,
  from_julian (A := b64A lm) Debug (FofZ 1000000000) (FofZ 0) = Panic /\
  exists f : b64, from_julian (A := b64A lm) Release (FofZ 1000000000) (FofZ 0) =
    Val (Ok (MkDate (-206610) (-3) 1073741815, f)).
Proof. exact L_PCalendar.C11_from_julian_no_overflow_refuted_pf. Qed.
Print Assumptions C11_from_julian_no_overflow_refuted.

(** C11, the true part in exact arithmetic: debug builds panic exactly for
    536802342.5 <= dj <= 1e9. *)
Theorem C11_from_julian_no_overflow_partial : forall dj1 dj2,
  from_julian (A := realA) Debug dj1 dj2 = Panic <->
  536802342 + / 2 <= dj1 + dj2 <= 1000000000.
Proof. exact L_PCalendar.C11_from_julian_no_overflow_partial_pf. Qed.
Print Assumptions C11_from_julian_no_overflow_partial.

(** C11, release builds, exact arithmetic: below the boundary both profiles agree. *)
Theorem C11_profiles_agree_partial : forall dj1 dj2,
  ~ (536802342 + / 2 <= dj1 + dj2 <= 1000000000) ->
  from_julian (A := realA) Release dj1 dj2 = from_julian (A := realA) Debug dj1 dj2.
Proof. exact L_PCalendar.C11_profiles_agree_partial_pf. Qed.
Print Assumptions C11_profiles_agree_partial.

(** C11, release builds, exact arithmetic: past the boundary the date returned is always
    wrong, its year negative instead of above 1,460,000. *)
Theorem C11_release_wrong_partial : forall dj1 dj2,
  536802342 + / 2 <= dj1 + dj2 <= 1000000000 ->
  exists g f, from_julian (A := realA) Release dj1 dj2 = Val (Ok (g, f)) /\ (year g < 0)%Z.
Proof. exact L_PCalendar.C11_release_wrong_partial_pf. Qed.
Print Assumptions C11_release_wrong_partial.

(** The last half day covered by C07 and the first instant of the overflow. *)
Example C11_example : forall lm,
  match from_julian (A := b64A lm) Debug (FofZ 536802342) (FofZ 0) with Val (Ok (g, f)) => (g, B2SF f) = (MkDate 1465002 10 17, B2SF (Flit 5 (-1))) | _ => False end /\
  from_julian (A := b64A lm) Debug (FofZ 536802343) (FofZ 0) = Panic.
Proof. exact L_PCalendar.C11_example_pf. Qed.

(** C11 in binary64, for parts of magnitude at most 2^51: from 536802343 on,
    debug builds always panic and release builds always return a date with a
    negative year.  (Up to 536802342 neither happens: C07.) *)
Theorem C11_overflow_b64_partial : forall lm x y, fin x = true -> fin y = true ->
  Rabs (B2R x) <= 2251799813685248 -> Rabs (B2R y) <= 2251799813685248 ->
  536802343 <= B2R x + B2R y <= 1000000000 ->
  from_julian (A := b64A lm) Debug x y = Panic /\
  exists g f, from_julian (A := b64A lm) Release x y = Val (Ok (g, f)) /\ (year g < 0)%Z.
Proof. exact L_PCalendar.C11_overflow_b64_partial_pf. Qed.
Print Assumptions C11_overflow_b64_partial.

(** C12.  Exchanging the two parts changes nothing, bit for bit: NaN,
    infinities, signed zeros and panics included. *)
Theorem C12_from_julian_symmetric : forall lm p x y,
  from_julian (A := b64A lm) p x y = from_julian (A := b64A lm) p y x.
Proof. exact L_PCalendar.C12_from_julian_symmetric_pf. Qed.
Print Assumptions C12_from_julian_symmetric.

(** Both orders of 2451545 and 0.1. *)
Example C12_example : forall lm p,
  let show r := match r with Val (Ok (g, f)) => Some (g, B2SF f) | _ => None end in
  show (from_julian (A := b64A lm) p (FofZ 2451545) (Flit 1 (-1))) = show (from_julian (A := b64A lm) p (Flit 1 (-1)) (FofZ 2451545)) /\
  show (from_julian (A := b64A lm) p (FofZ 2451545) (Flit 1 (-1))) = Some (MkDate 2000 1 1, B2SF (Flit 6 (-1))).
Proof. exact L_PCalendar.C12_example_pf. Qed.

(** C13.  In exact arithmetic only the total matters (also for errors and panics). *)
Theorem C13_from_julian_total : forall p dj1 dj2 dj1' dj2',
  dj1 + dj2 = dj1' + dj2' ->
  from_julian (A := realA) p dj1 dj2 = from_julian (A := realA) p dj1' dj2'.
Proof. exact L_PCalendar.C13_from_julian_total_pf. Qed.
Print Assumptions C13_from_julian_total.

(** Three splits of JD 2400365.75. *)
Example C13_example : forall p, from_julian (A := realA) p 2400000.5 365.25 = Val (Ok (MkDate 1859 11 17, 0.25)) /\
  from_julian (A := realA) p 2400365.75 0 = Val (Ok (MkDate 1859 11 17, 0.25)) /\ from_julian (A := realA) p (-2400000) 4800365.75 = Val (Ok (MkDate 1859 11 17, 0.25)).
Proof. exact L_PCalendar.C13_example_pf. Qed.

(** C14.  In exact arithmetic a later Julian date gives a later date, or the
    same date and a larger fraction. *)
Theorem C14_from_julian_monotone : forall p a b a' b',
  -32000 <= a + b -> a + b < a' + b' -> a' + b' < 536802342 + / 2 ->
  exists g f g' f',
    from_julian (A := realA) p a b = Val (Ok (g, f)) /\
    from_julian (A := realA) p a' b' = Val (Ok (g', f')) /\
    (civil_lt (of_date g) (of_date g') \/ (g = g' /\ f < f')).
Proof. exact L_PCalendar.C14_from_julian_monotone_pf. Qed.
Print Assumptions C14_from_julian_monotone.

(** C14 in binary64, rounding included: increasing either part or both never
    gives an earlier date, nor a smaller fraction on the same date. *)
Theorem C14_from_julian_monotone_b64 : forall lm p x y x' y',
  fin x = true -> fin y = true -> fin x' = true -> fin y' = true ->
  Rabs (B2R x) <= 2251799813685248 -> Rabs (B2R y) <= 2251799813685248 ->
  Rabs (B2R x') <= 2251799813685248 -> Rabs (B2R y') <= 2251799813685248 ->
  -32000 <= B2R x + B2R y -> B2R x' + B2R y' <= 536802342 ->
  B2R x <= B2R x' -> B2R y <= B2R y' ->
  exists g f g' f',
    from_julian (A := b64A lm) p x y = Val (Ok (g, f)) /\
    from_julian (A := b64A lm) p x' y' = Val (Ok (g', f')) /\
    fin f = true /\ fin f' = true /\
    (civil_lt (of_date g) (of_date g') \/ (g = g' /\ B2R f <= B2R f')).
Proof. exact L_PCalendar.C14_from_julian_monotone_b64_pf. Qed.
Print Assumptions C14_from_julian_monotone_b64.

(** Across a midnight: 2451545.0 with 0.49999999999999989 (just below one half)
    and with 0.5 are on successive days. *)
Example C14_example : forall lm p,
  match from_julian (A := b64A lm) p (Fof 2451545 0) (Fof (2^52-1) (-53)),
        from_julian (A := b64A lm) p (Fof 2451545 0) (Fof 1 (-1)) with
  | Val (Ok (g, f)), Val (Ok (g', f')) => Some (g, B2SF f, g', B2SF f')
  | _, _ => None
  end = Some (MkDate 2000 1 1, SpecFloat.S754_finite false (2^53-1) (-53),
              MkDate 2000 1 2, SpecFloat.S754_zero false).
Proof. exact L_PCalendar.C14_example_pf. Qed.
