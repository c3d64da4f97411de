(** * Properties: Order

    Statements only; proofs are in L_POrder.v. *)

From Coq Require Import ZArith Reals Lra Lia Bool Psatz.
From Flocq Require Import Core BinarySingleNaN.
From Verif Require Import Outcome Arith ArithR ArithF Spec_Float Spec_Time Spec_Accuracy Spec_Api M_Common M_Calendar M_Time M_Ellipsoid M_SunAngle Spec_Calendar Spec_SunAcc.
Open Scope R_scope.
From Verif Require L_POrder.

(** C89. Two binary64 dates that share their larger part keep their order, and that
    part, under every conversion of time scale. *)
Theorem C89_order_b64 : forall lm (a b b' d : b64), moderate a -> moderate b -> moderate b' -> moderate d ->
  B2R b <= B2R b' -> B2R b' < B2R a ->
  (let t := tt_from_ut1 (A := b64A lm) (MkUT1 (A := b64A lm) a b) d in let t' := tt_from_ut1 (A := b64A lm) (MkUT1 (A := b64A lm) a b') d in
     tt_1 t = a /\ tt_1 t' = a /\ B2R (tt_2 (A := b64A lm) t) <= B2R (tt_2 (A := b64A lm) t')) /\
  (let u := ut1_from_tt (A := b64A lm) (MkTT (A := b64A lm) a b) d in let u' := ut1_from_tt (A := b64A lm) (MkTT (A := b64A lm) a b') d in
     ut1_1 u = a /\ ut1_1 u' = a /\ B2R (ut1_2 (A := b64A lm) u) <= B2R (ut1_2 (A := b64A lm) u')) /\
  (let t := tai_from_utc (A := b64A lm) (MkUTC (A := b64A lm) a b) d in let t' := tai_from_utc (A := b64A lm) (MkUTC (A := b64A lm) a b') d in
     tai_1 t = a /\ tai_1 t' = a /\ B2R (tai_2 (A := b64A lm) t) <= B2R (tai_2 (A := b64A lm) t')) /\
  (let t := tt_from_tai (A := b64A lm) (MkTAI (A := b64A lm) a b) in let t' := tt_from_tai (A := b64A lm) (MkTAI (A := b64A lm) a b') in
     tt_1 t = a /\ tt_1 t' = a /\ B2R (tt_2 (A := b64A lm) t) <= B2R (tt_2 (A := b64A lm) t')) /\
  (let t := tdb_from_tt (A := b64A lm) (MkTT (A := b64A lm) a b) d in let t' := tdb_from_tt (A := b64A lm) (MkTT (A := b64A lm) a b') d in
     tdb_1 t = a /\ tdb_1 t' = a /\ B2R (tdb_2 (A := b64A lm) t) <= B2R (tdb_2 (A := b64A lm) t')).
Proof. exact L_POrder.C89_order_b64_pf. Qed.
Print Assumptions C89_order_b64.

(** C89 for the Sun angle: with one request and two offsets, the later offset never
    gives an earlier UTC, TAI, TT or UT1 in binary64, and gives a later one if the
    offsets differ by at least 6 microseconds. *)
Theorem C89_compute_order : forall lm, good_libm lm -> forall p g h m s lo la ht ds ds',
  usual_inputs g h m s lo la ht ds -> usual_inputs g h m s lo la ht ds' -> B2R ds <= B2R ds' ->
  exists c r r', sun_new (A := b64A lm) p (parF lm g h m s lo la ht) = Val c /\
  sun_compute (A := b64A lm) c ds = Val r /\ sun_compute (A := b64A lm) c ds' = Val r' /\
  utc_1 (sr_utc (A := b64A lm) r) = utc_1 (sr_utc (A := b64A lm) r') /\ tai_1 (sr_tai (A := b64A lm) r) = tai_1 (sr_tai (A := b64A lm) r') /\
  tt_1 (sr_tt (A := b64A lm) r) = tt_1 (sr_tt (A := b64A lm) r') /\ ut1_1 (sr_ut1 (A := b64A lm) r) = ut1_1 (sr_ut1 (A := b64A lm) r') /\
  let ordered (f : SunAngleResult (b64A lm) -> b64) := B2R (f r) <= B2R (f r') /\ (B2R ds + 6 / 10 ^ 6 <= B2R ds' -> B2R (f r) < B2R (f r')) in
  ordered (fun x => utc_2 (sr_utc (A := b64A lm) x)) /\ ordered (fun x => tai_2 (sr_tai (A := b64A lm) x)) /\
  ordered (fun x => tt_2 (sr_tt (A := b64A lm) x)) /\ ordered (fun x => ut1_2 (sr_ut1 (A := b64A lm) x)).
Proof. exact L_POrder.C89_compute_order_pf. Qed.
Print Assumptions C89_compute_order.

(** C89 on an instance: at 1972 January 1 0h, an offset of an eighth of a second gives a
    strictly later TT in binary64. *)
Example C89_example : forall lm, good_libm lm -> forall p, exists c r r',
  sun_new (A := b64A lm) p (parF lm (MkDate 1972 1 1) 0 0 (Flit 0 0) (Flit 0 0) (Flit 0 0) (Flit 0 0)) = Val c /\
  sun_compute (A := b64A lm) c (Flit 0 0) = Val r /\ sun_compute (A := b64A lm) c (Flit 125 (-3)) = Val r' /\
  tt_1 (sr_tt (A := b64A lm) r) = tt_1 (sr_tt (A := b64A lm) r') /\ B2R (tt_2 (sr_tt (A := b64A lm) r)) < B2R (tt_2 (sr_tt (A := b64A lm) r')).
Proof. exact L_POrder.C89_example_pf. Qed.
