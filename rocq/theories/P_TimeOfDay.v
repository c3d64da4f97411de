(** * Properties: TimeOfDay

    Statements only; proofs are in L_PTimeOfDay.v. *)

From Coq Require Import ZArith Reals Lra Lia Bool.
From Flocq Require Import Core BinarySingleNaN.
From Verif Require Import Outcome Arith ArithR ArithF Spec_Float M_Calendar Spec_Calendar Spec_Api.
Open Scope R_scope.
From Verif Require L_PTimeOfDay.

(** C15.  Fields in range for every binary64 fraction in [0,1]; hour 24 exactly
    for 1.0, and then the time is 24:00:00. *)
Theorem C15_hms_fields : forall lm f, fin f = true -> 0 <= B2R f <= 1 ->
  exists h m (s : b64),
    hms_from_fraction (A := b64A lm) f = Ok (MkHMS (A := b64A lm) h m s) /\
    (0 <= h <= 24)%Z /\ (0 <= m < 60)%Z /\ fin s = true /\ 0 <= B2R s < 60 /\
    (h = 24%Z <-> B2R f = 1) /\ (h = 24%Z -> m = 0%Z /\ B2R s = 0).
Proof. exact L_PTimeOfDay.C15_hms_fields_pf. Qed.
Print Assumptions C15_hms_fields.

Example C15_example : forall lm,
  match hms_from_fraction (A := b64A lm) (Flit 75 (-2)) with
  | Ok x => (hour x, minute x, B2SF (second x)) = (18%Z, 0%Z, B2SF (FofZ 0)) | Err _ => False end.
Proof. exact L_PTimeOfDay.C15_example_pf. Qed.

(** C16.  The split into hours, minutes and seconds loses nothing: the total is
    the binary64 product 86400 * f. *)
Theorem C16_hms_split_exact : forall lm f, fin f = true -> 0 <= B2R f <= 1 ->
  exists h m (s : b64),
    hms_from_fraction (A := b64A lm) f = Ok (MkHMS (A := b64A lm) h m s) /\
    IZR (3600 * h + 60 * m) + B2R s = B2R (Fmul (FofZ 86400) f) /\
    B2R (Fmul (FofZ 86400) f) = rnd (86400 * B2R f).
Proof. exact L_PTimeOfDay.C16_hms_split_exact_pf. Qed.
Print Assumptions C16_hms_split_exact.

(** 0.3 of a day is 7 h 12 min, the product 86400 * 0.3 rounding to 25920 exactly. *)
Example C16_example : forall lm,
  match hms_from_fraction (A := b64A lm) (Flit 3 (-1)) with
  | Ok x => (hour x, minute x, B2SF (second x)) = (7%Z, 12%Z, SpecFloat.S754_zero false) /\ B2SF (Fmul (FofZ 86400) (Flit 3 (-1))) = B2SF (FofZ 25920) | Err _ => False end.
Proof. exact L_PTimeOfDay.C16_example_pf. Qed.

(** C17, exact arithmetic: the fraction survives the round trip. *)
Theorem C17_fraction_roundtrip_reals : forall f, 0 <= f <= 1 ->
  exists x, hms_from_fraction (A := realA) f = Ok x /\ hms_to_fraction (A := realA) x = f.
Proof. exact L_PTimeOfDay.C17_fraction_roundtrip_reals_pf. Qed.
Print Assumptions C17_fraction_roundtrip_reals.

(** C17, binary64: within 2^-52. *)
Theorem C17_fraction_roundtrip : forall lm f, fin f = true -> 0 <= B2R f <= 1 ->
  exists x : HMS (b64A lm),
    hms_from_fraction (A := b64A lm) f = Ok x /\
    fin (hms_to_fraction (A := b64A lm) x) = true /\
    Rabs (B2R (hms_to_fraction (A := b64A lm) x) - B2R f) <= bpow radix2 (-52).
Proof. exact L_PTimeOfDay.C17_fraction_roundtrip_pf. Qed.
Print Assumptions C17_fraction_roundtrip.

(** A fraction that comes back bit for bit. *)
Example C17_example : forall lm,
  match hms_from_fraction (A := b64A lm) (Flit 123456789 (-9)) with
  | Ok x => (hour x, minute x) = (2%Z, 57%Z) /\ B2SF (hms_to_fraction (A := b64A lm) x) = B2SF (Flit 123456789 (-9)) | Err _ => False end.
Proof. exact L_PTimeOfDay.C17_example_pf. Qed.

(** C18, exact arithmetic: a valid time of day survives the round trip. *)
Theorem C18_hms_roundtrip_reals_partial : forall h m s,
  (0 <= h < 24)%Z -> (0 <= m < 60)%Z -> 0 <= s < 60 ->
  hms_from_fraction (A := realA) (hms_to_fraction (A := realA) (MkHMS (A := realA) h m s))
  = Ok (MkHMS (A := realA) h m s).
Proof. exact L_PTimeOfDay.C18_hms_roundtrip_reals_partial_pf. Qed.
Print Assumptions C18_hms_roundtrip_reals_partial.

(** C18 is false in binary64: 00:00:11 comes back as 00:00:10.999999999999998. *)
Theorem C18_hms_roundtrip_refuted : forall lm, exists s : b64,
  hms_from_fraction (A := b64A lm) (hms_to_fraction (A := b64A lm) (MkHMS (A := b64A lm) 0 0 (FofZ 11)))
  = Ok (MkHMS (A := b64A lm) 0 0 s) /\ B2R s < 11.
Proof. exact L_PTimeOfDay.C18_hms_roundtrip_refuted_pf. Qed.
Print Assumptions C18_hms_roundtrip_refuted.

(** C18, the true part in binary64: the time comes back within 2^-35 s (30 ps),
    but possibly written with other fields. *)
Theorem C18_hms_roundtrip_b64_partial : forall lm h m s,
  (0 <= h < 24)%Z -> (0 <= m < 60)%Z -> fin s = true -> 0 <= B2R s < 60 ->
  exists h' m' (s' : b64),
    hms_from_fraction (A := b64A lm) (hms_to_fraction (A := b64A lm) (MkHMS (A := b64A lm) h m s))
    = Ok (MkHMS (A := b64A lm) h' m' s') /\
    Rabs ((IZR (3600 * h' + 60 * m') + B2R s') - (IZR (3600 * h + 60 * m) + B2R s)) <= bpow radix2 (-35).
Proof. exact L_PTimeOfDay.C18_hms_roundtrip_b64_partial_pf. Qed.
Print Assumptions C18_hms_roundtrip_b64_partial.

(** A time that comes back unchanged. *)
Example C18_example : forall lm,
  match hms_from_fraction (A := b64A lm) (hms_to_fraction (A := b64A lm) (MkHMS (A := b64A lm) 18 30 (FofZ 0))) with
  | Ok x => (hour x, minute x, B2SF (second x)) = (18%Z, 30%Z, SpecFloat.S754_zero false) | Err _ => False end.
Proof. exact L_PTimeOfDay.C18_example_pf. Qed.

(** C19.  Date and time to Julian date and back, exact arithmetic. *)
Theorem C19_datehms_roundtrip : forall p g h m s, accepted g ->
  ~ civil_lt (1465002, 10, 17)%Z (of_date g) ->
  (0 <= h < 24)%Z -> (0 <= m < 60)%Z -> 0 <= s < 60 ->
  let x := MkDateHMS (A := realA) g (MkHMS (A := realA) h m s) in
  exists a b, datehms_to_julian (A := realA) p x = Val (a, b) /\
    datehms_from_julian (A := realA) p a b = Val (Ok x).
Proof. exact L_PTimeOfDay.C19_datehms_roundtrip_pf. Qed.
Print Assumptions C19_datehms_roundtrip.

(** C19, the other way: the Julian date is recovered, exact arithmetic. *)
Theorem C19_julian_roundtrip : forall p dj1 dj2,
  -31738 - / 2 <= dj1 + dj2 < 536802342 + / 2 ->
  exists x a b, datehms_from_julian (A := realA) p dj1 dj2 = Val (Ok x) /\
    datehms_to_julian (A := realA) p x = Val (a, b) /\ a + b = dj1 + dj2.
Proof. exact L_PTimeOfDay.C19_julian_roundtrip_pf. Qed.
Print Assumptions C19_julian_roundtrip.

(** C19, errors: a Julian date that [GregorianDate::from_julian] rejects is
    rejected with the same error, in any arithmetic. *)
Theorem C19_error_propagated : forall (A : arith) p dj1 dj2 e,
  from_julian (A := A) p dj1 dj2 = Val (Err e) ->
  datehms_from_julian (A := A) p dj1 dj2 = Val (Err e).
Proof. exact L_PTimeOfDay.C19_error_propagated_pf. Qed.
Print Assumptions C19_error_propagated.

(** C19, binary64: in range it never fails, and the date and time returned are
    within the C07 error plus 2^-53 day (10 ps) of the Julian date given. *)
Theorem C19_datehms_from_julian_b64 : forall lm p x y, fin x = true -> fin y = true ->
  Rabs (B2R x) <= 2251799813685248 -> Rabs (B2R y) <= 2251799813685248 ->
  -32000 <= B2R x + B2R y <= 536802342 ->
  exists g h m (s : b64) n,
    datehms_from_julian (A := b64A lm) p x y =
      Val (Ok (MkDateHMS (A := b64A lm) g (MkHMS (A := b64A lm) h m s))) /\
    valid_civil (of_date g) /\ (0 <= h <= 24)%Z /\ (0 <= m < 60)%Z /\ 0 <= B2R s < 60 /\
    day_count mjd_epoch (of_date g) n /\
    Rabs (2400000 + / 2 + IZR n + (IZR (3600 * h + 60 * m) + B2R s) / 86400 - (B2R x + B2R y))
      <= bpow radix2 (-53) * (Rabs (Rmin (B2R x) (B2R y)) + 4).
Proof. exact L_PTimeOfDay.C19_datehms_from_julian_b64_pf. Qed.
Print Assumptions C19_datehms_from_julian_b64.

(** C19, binary64: [to_julian] gives exactly 2400000.5 and, in the second part,
    the day number n plus the time of day to within 2^-53 (|n| + 3) day (under a
    microsecond for dates in the years 1600 to 2100); a leap second is allowed. *)
Theorem C19_datehms_to_julian_b64 : forall lm p g h m s, accepted g -> (year g <= 1465072)%Z ->
  (0 <= h < 24)%Z -> (0 <= m < 60)%Z -> fin s = true -> 0 <= B2R s < 61 ->
  exists (a b : b64) n,
    datehms_to_julian (A := b64A lm) p (MkDateHMS (A := b64A lm) g (MkHMS (A := b64A lm) h m s)) = Val (a, b) /\
    fin a = true /\ B2R a = 2400000 + / 2 /\ fin b = true /\
    day_count mjd_epoch (of_date g) n /\
    Rabs (B2R b - (IZR n + (IZR (3600 * h + 60 * m) + B2R s) / 86400)) <= bpow radix2 (-53) * (Rabs (IZR n) + 3).
Proof. exact L_PTimeOfDay.C19_datehms_to_julian_b64_pf. Qed.
Print Assumptions C19_datehms_to_julian_b64.

(** C19, binary64, the round trip: the date and time that come back are within
    2^-53 (2 |n| + 9) day of those given (possibly written with other fields). *)
Theorem C19_datehms_roundtrip_b64 : forall lm p g h m s, accepted g ->
  ~ civil_lt (1465002, 10, 16)%Z (of_date g) ->
  (0 <= h < 24)%Z -> (0 <= m < 60)%Z -> fin s = true -> 0 <= B2R s < 60 ->
  exists (a b : b64) g' h' m' (s' : b64) n n',
    datehms_to_julian (A := b64A lm) p (MkDateHMS (A := b64A lm) g (MkHMS (A := b64A lm) h m s)) = Val (a, b) /\
    datehms_from_julian (A := b64A lm) p a b =
      Val (Ok (MkDateHMS (A := b64A lm) g' (MkHMS (A := b64A lm) h' m' s'))) /\
    day_count mjd_epoch (of_date g) n /\ day_count mjd_epoch (of_date g') n' /\
    Rabs ((IZR n' + (IZR (3600 * h' + 60 * m') + B2R s') / 86400) -
          (IZR n + (IZR (3600 * h + 60 * m) + B2R s) / 86400)) <= bpow radix2 (-53) * (2 * Rabs (IZR n) + 9).
Proof. exact L_PTimeOfDay.C19_datehms_roundtrip_b64_pf. Qed.
Print Assumptions C19_datehms_roundtrip_b64.

(** C19 on concrete dates: 2003-08-26 satisfies the hypotheses, and in binary64
    its noon is exactly (2400000.5, 52877.5). *)
Example C19_example : accepted (MkDate 2003 8 26) /\
  ~ civil_lt (1465002, 10, 16)%Z (of_date (MkDate 2003 8 26)) /\
  forall lm, match datehms_to_julian (A := b64A lm) Debug
               (MkDateHMS (A := b64A lm) (MkDate 2003 8 26) (MkHMS (A := b64A lm) 12 0 (FofZ 0))) with
             | Val (a, b) => (B2SF a, B2SF b) = (B2SF (Flit 24000005 (-1)), B2SF (Flit 528775 (-1)))
             | Panic => False end.
Proof. exact L_PTimeOfDay.C19_example_pf. Qed.

(** C20 is false: NaN is not rejected. *)
Theorem C20_fraction_rejected_refuted : forall lm, exists x,
  hms_from_fraction (A := b64A lm) B754_nan = Ok x.
Proof. exact L_PTimeOfDay.C20_fraction_rejected_refuted_pf. Qed.
Print Assumptions C20_fraction_rejected_refuted.

(** C20, the true part: for every value that is not NaN (infinities included),
    rejected exactly when outside [0,1]. *)
Theorem C20_fraction_rejected_partial : forall lm f, is_nan f = false ->
  (hms_from_fraction (A := b64A lm) f = Err BadFract <-> ~ (fin f = true /\ 0 <= B2R f <= 1)) /\
  (forall e, hms_from_fraction (A := b64A lm) f = Err e -> e = BadFract).
Proof. exact L_PTimeOfDay.C20_fraction_rejected_partial_pf. Qed.
Print Assumptions C20_fraction_rejected_partial.

Example C20_example : forall lm, is_nan (Flit 15 (-1)) = false /\
  hms_from_fraction (A := b64A lm) (Flit 15 (-1)) = Err BadFract.
Proof. exact L_PTimeOfDay.C20_example_pf. Qed.
