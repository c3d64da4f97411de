(** * Model of crates/tofas/src/time.rs *)

From Coq Require Import ZArith.
From Verif Require Import Outcome Arith M_Common.
Open Scope Z_scope.

Section Time.
Context {A : arith}.
Local Notation num := (num A).
Local Notation lit := (lit A).
Local Open Scope num_scope.

(** time.rs:6-19: the five two-part dates, kept as distinct types *)
Record UT1 : Type := MkUT1 { ut1_1 : num; ut1_2 : num }.
Record TT : Type := MkTT { tt_1 : num; tt_2 : num }.
Record TAI : Type := MkTAI { tai_1 : num; tai_2 : num }.
Record UTC : Type := MkUTC { utc_1 : num; utc_2 : num }.
Record TDB : Type := MkTDB { tdb_1 : num; tdb_2 : num }.

(** time.rs:21-24 *)
Definition D2S : num := lit 86400 0.
Definition DJY : num := lit 36525 (-2).
Definition DJ00 : num := lit 2451545 0.
Definition DJC : num := lit 36525 0.

(** time.rs:30-39 [TT::from_ut1] *)
Definition tt_from_ut1 (u : UT1) (dt : num) : TT :=
  let dtd := dt / D2S in
  if ut1_1 u >? ut1_2 u then MkTT (ut1_1 u) (ut1_2 u + dtd)
  else MkTT (ut1_1 u + dtd) (ut1_2 u).

(** time.rs:41-44 [TT::total] *)
Definition tt_total (t : TT) : num := tt_1 t + tt_2 t.

(** time.rs:48-51 [UTC::total] *)
Definition utc_total (u : UTC) : num := utc_1 u + utc_2 u.

(** time.rs:55-64 [TAI::from_utc_delta_at] *)
Definition tai_from_utc (u : UTC) (dat : num) : TAI :=
  let da := dat / lit 86400 0 in
  if utc_1 u >? utc_2 u then MkTAI (utc_1 u) (utc_2 u + da)
  else MkTAI (utc_1 u + da) (utc_2 u).

(** time.rs:66-69 [TAI::total] *)
Definition tai_total (t : TAI) : num := tai_1 t + tai_2 t.

(** time.rs:72 *)
Definition DTAT : num := lit 32184 (-3) / lit 86400 0.

(** time.rs:74-84 [From<TAI> for TT] *)
Definition tt_from_tai (t : TAI) : TT :=
  if tai_1 t >? tai_2 t then MkTT (tai_1 t) (tai_2 t + DTAT)
  else MkTT (tai_1 t + DTAT) (tai_2 t).

(** time.rs:91-100 [TDB::from_tt] *)
Definition tdb_from_tt (t : TT) (dtr : num) : TDB :=
  let dtrd := dtr / D2S in
  if tt_1 t >? tt_2 t then MkTDB (tt_1 t) (tt_2 t + dtrd)
  else MkTDB (tt_1 t + dtrd) (tt_2 t).

(** time.rs:110-119 [UT1::from_tt] *)
Definition ut1_from_tt (t : TT) (dt : num) : UT1 :=
  let dtd := dt / D2S in
  if tt_1 t >? tt_2 t then MkUT1 (tt_1 t) (tt_2 t - dtd)
  else MkUT1 (tt_1 t - dtd) (tt_2 t).

(** time.rs:121-124 [UT1::total] *)
Definition ut1_total (u : UT1) : num := ut1_1 u + ut1_2 u.

End Time.
Arguments UT1 : clear implicits.
Arguments TT : clear implicits.
Arguments TAI : clear implicits.
Arguments UTC : clear implicits.
Arguments TDB : clear implicits.
