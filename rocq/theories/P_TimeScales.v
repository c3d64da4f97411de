(** * Properties: TimeScales

    Statements only; proofs are in L_PTimeScales.v. *)

From Coq Require Import ZArith Reals Lra Lia Bool.
From Flocq Require Import Core BinarySingleNaN.
From Verif Require Import Outcome Arith ArithR ArithF Spec_Float Spec_Time M_Time.
Open Scope R_scope.
From Verif Require L_PTimeScales.

(** C25.  Each conversion moves the total by exactly the offset (exact arithmetic). *)
Theorem C25_time_scale_shift :
  (forall u dt, tt_total (A := realA) (tt_from_ut1 (A := realA) u dt) = ut1_total (A := realA) u + dt / 86400) /\
  (forall t dt, ut1_total (A := realA) (ut1_from_tt (A := realA) t dt) = tt_total (A := realA) t - dt / 86400) /\
  (forall u d, tai_total (A := realA) (tai_from_utc (A := realA) u d) = utc_total (A := realA) u + d / 86400) /\
  (forall t, tt_total (A := realA) (tt_from_tai (A := realA) t) = tai_total (A := realA) t + 32.184 / 86400) /\
  (forall t dtr, let b := tdb_from_tt (A := realA) t dtr in
     tdb_1 (A := realA) b + tdb_2 (A := realA) b = tt_total (A := realA) t + dtr / 86400).
Proof. exact L_PTimeScales.C25_time_scale_shift_pf. Qed.
Print Assumptions C25_time_scale_shift.

(** Hence, for a fixed offset, conversions preserve differences and order. *)
Theorem C25_differences_preserved : forall u u' d,
  tt_total (A := realA) (tt_from_tai (A := realA) (tai_from_utc (A := realA) u' d)) -
  tt_total (A := realA) (tt_from_tai (A := realA) (tai_from_utc (A := realA) u d)) =
  utc_total (A := realA) u' - utc_total (A := realA) u.
Proof. exact L_PTimeScales.C25_differences_preserved_pf. Qed.
Print Assumptions C25_differences_preserved.

(** One day added to the smaller part, in either position. *)
Example C25_example :
  tt_from_ut1 (A := realA) (MkUT1 (A := realA) 2451545 (1 / 4)) 86400 = MkTT (A := realA) 2451545 (5 / 4) /\
  tai_from_utc (A := realA) (MkUTC (A := realA) (1 / 4) 2451545) 43200 = MkTAI (A := realA) (3 / 4) 2451545.
Proof. exact L_PTimeScales.C25_example_pf. Qed.

(** C26.  Round trip: same total; and the same two parts when the offset does
    not change which part is larger. *)
Theorem C26_ut1_tt_roundtrip : forall (u : UT1 realA) (dt : R),
  let u' := ut1_from_tt (A := realA) (tt_from_ut1 (A := realA) u dt) dt in
  ut1_total (A := realA) u' = ut1_total (A := realA) u /\
  ((ut1_2 (A := realA) u < ut1_1 (A := realA) u <->
    tt_2 (A := realA) (tt_from_ut1 (A := realA) u dt) < tt_1 (A := realA) (tt_from_ut1 (A := realA) u dt)) -> u' = u).
Proof. exact L_PTimeScales.C26_ut1_tt_roundtrip_pf. Qed.
Print Assumptions C26_ut1_tt_roundtrip.

Theorem C26_tt_ut1_roundtrip : forall (t : TT realA) (dt : R),
  let t' := tt_from_ut1 (A := realA) (ut1_from_tt (A := realA) t dt) dt in
  tt_total (A := realA) t' = tt_total (A := realA) t /\
  ((tt_2 (A := realA) t < tt_1 (A := realA) t <->
    ut1_2 (A := realA) (ut1_from_tt (A := realA) t dt) < ut1_1 (A := realA) (ut1_from_tt (A := realA) t dt)) -> t' = t).
Proof. exact L_PTimeScales.C26_tt_ut1_roundtrip_pf. Qed.
Print Assumptions C26_tt_ut1_roundtrip.

(** A day of offset added and taken away. *)
Example C26_example : let t := tt_from_ut1 (A := realA) (MkUT1 (A := realA) 2451545 (1 / 4)) 86400 in
  t = MkTT (A := realA) 2451545 (5 / 4) /\ ut1_from_tt (A := realA) t 86400 = MkUT1 (A := realA) 2451545 (1 / 4).
Proof. exact L_PTimeScales.C26_example_pf. Qed.

(** C27.  Every conversion, for finite parts and offsets of magnitude up to 1e15
    (no overflow). *)
Theorem C27_larger_part_untouched : forall lm (a b d : b64), moderate a -> moderate b -> moderate d ->
  (let t := tt_from_ut1 (A := b64A lm) (MkUT1 (A := b64A lm) a b) d in
     shifted a b (tt_1 t) (tt_2 t) false (B2R d)) /\
  (let u := ut1_from_tt (A := b64A lm) (MkTT (A := b64A lm) a b) d in
     shifted a b (ut1_1 u) (ut1_2 u) true (B2R d)) /\
  (let t := tai_from_utc (A := b64A lm) (MkUTC (A := b64A lm) a b) d in
     shifted a b (tai_1 t) (tai_2 t) false (B2R d)) /\
  (let t := tt_from_tai (A := b64A lm) (MkTAI (A := b64A lm) a b) in
     shifted a b (tt_1 t) (tt_2 t) false (rnd (32184 / 1000))) /\
  (let t := tdb_from_tt (A := b64A lm) (MkTT (A := b64A lm) a b) d in
     shifted a b (tdb_1 t) (tdb_2 t) false (B2R d)).
Proof. exact L_PTimeScales.C27_larger_part_untouched_pf. Qed.
Print Assumptions C27_larger_part_untouched.

(** C27, the error in seconds of a conversion: with the smaller part and the
    quotient below one day (in magnitude), the total is off by at most 2^-53 +
    2^-54 day (14 ps). *)
Theorem C27_conversion_error : forall a b a' b' ng s,
  shifted a b a' b' ng s -> Rabs (Rmin (B2R a) (B2R b)) <= 1 -> Rabs s <= 86400 ->
  Rabs ((B2R a' + B2R b') - (B2R a + B2R b + (if ng then - (s / 86400) else s / 86400)))
    <= bpow radix2 (-53) + bpow radix2 (-54).
Proof. exact L_PTimeScales.C27_conversion_error_pf. Qed.
Print Assumptions C27_conversion_error.

(** 64 s added to 2451545 + 0.5: the larger part is the same number, the smaller one the nearest to 0.5007407407407407. *)
Example C27_example : forall lm,
  let t := tt_from_ut1 (A := b64A lm) (MkUT1 (A := b64A lm) (FofZ 2451545) (Flit 5 (-1))) (FofZ 64) in
  (B2SF (tt_1 t), B2SF (tt_2 t)) = (B2SF (FofZ 2451545), B2SF (Flit 5007407407407407 (-16))).
Proof. exact L_PTimeScales.C27_example_pf. Qed.

(** C26 in binary64: with a smaller part of at most half a day and an offset of
    at most 40000 s, the total comes back within 3 2^-53 day (29 ps). *)
Theorem C26_roundtrip_b64 : forall lm (a b d : b64), moderate a -> moderate b -> fin d = true ->
  Rabs (B2R d) <= 40000 -> Rabs (Rmin (B2R a) (B2R b)) <= / 2 ->
  (let u := ut1_from_tt (A := b64A lm) (tt_from_ut1 (A := b64A lm) (MkUT1 (A := b64A lm) a b) d) d in
   Rabs ((B2R (ut1_1 u) + B2R (ut1_2 u)) - (B2R a + B2R b)) <= 3 * bpow radix2 (-53)) /\
  (let t := tt_from_ut1 (A := b64A lm) (ut1_from_tt (A := b64A lm) (MkTT (A := b64A lm) a b) d) d in
   Rabs ((B2R (tt_1 t) + B2R (tt_2 t)) - (B2R a + B2R b)) <= 3 * bpow radix2 (-53)).
Proof. exact L_PTimeScales.C26_roundtrip_b64_pf. Qed.
Print Assumptions C26_roundtrip_b64.
