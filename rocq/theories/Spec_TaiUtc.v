(** * Specification of TAI-UTC

    The steps published by the IERS/USNO: from the first day of the given month
    on, TAI-UTC = offset + (MJD - origin) * rate.  Offsets are in units of
    1e-7 s, rates in 1e-7 s per day; the rate is 0 from 1972 on. *)

From Coq Require Import ZArith Reals List.
From Verif Require Import Spec_Calendar.
Import ListNotations.
Open Scope Z_scope.

Record step : Type := MkStep {
  s_year : Z; s_month : Z; s_offset : Z; s_origin : Z; s_rate : Z }.

Definition steps : list step := [
  MkStep 1960 1 14178180 37300 12960;
  MkStep 1961 1 14228180 37300 12960;
  MkStep 1961 8 13728180 37300 12960;
  MkStep 1962 1 18458580 37665 11232;
  MkStep 1963 11 19458580 37665 11232;
  MkStep 1964 1 32401300 38761 12960;
  MkStep 1964 4 33401300 38761 12960;
  MkStep 1964 9 34401300 38761 12960;
  MkStep 1965 1 35401300 38761 12960;
  MkStep 1965 3 36401300 38761 12960;
  MkStep 1965 7 37401300 38761 12960;
  MkStep 1965 9 38401300 38761 12960;
  MkStep 1966 1 43131700 39126 25920;
  MkStep 1968 2 42131700 39126 25920;
  MkStep 1972 1 100000000 0 0;
  MkStep 1972 7 110000000 0 0;
  MkStep 1973 1 120000000 0 0;
  MkStep 1974 1 130000000 0 0;
  MkStep 1975 1 140000000 0 0;
  MkStep 1976 1 150000000 0 0;
  MkStep 1977 1 160000000 0 0;
  MkStep 1978 1 170000000 0 0;
  MkStep 1979 1 180000000 0 0;
  MkStep 1980 1 190000000 0 0;
  MkStep 1981 7 200000000 0 0;
  MkStep 1982 7 210000000 0 0;
  MkStep 1983 7 220000000 0 0;
  MkStep 1985 7 230000000 0 0;
  MkStep 1988 1 240000000 0 0;
  MkStep 1990 1 250000000 0 0;
  MkStep 1991 1 260000000 0 0;
  MkStep 1992 7 270000000 0 0;
  MkStep 1993 7 280000000 0 0;
  MkStep 1994 7 290000000 0 0;
  MkStep 1996 1 300000000 0 0;
  MkStep 1997 7 310000000 0 0;
  MkStep 1999 1 320000000 0 0;
  MkStep 2006 1 330000000 0 0;
  MkStep 2009 1 340000000 0 0;
  MkStep 2012 7 350000000 0 0;
  MkStep 2015 7 360000000 0 0;
  MkStep 2017 1 370000000 0 0
].

(** The step has taken effect by the date. *)
Definition started (s : step) (c : civil) : Prop :=
  ~ civil_lt c (s_year s, s_month s, 1).

(** The step in force on the date: the last one that has taken effect. *)
Definition in_force (s : step) (c : civil) : Prop :=
  In s steps /\ started s c /\
  forall s', In s' steps -> started s' c -> started s' (s_year s, s_month s, 1).

(** TAI-UTC in seconds according to the step, at fraction [fd] of the day
    whose Modified Julian Date is [mjd]. *)
Definition tai_utc (s : step) (mjd : Z) (fd : R) : R :=
  ((IZR (s_offset s) + (IZR mjd + fd - IZR (s_origin s)) * IZR (s_rate s)) / 10000000)%R.

(** First day of the month before. *)
Definition month_before (c : civil) : civil :=
  let '(y, m, d) := c in if m =? 1 then (y - 1, 12, 1) else (y, m - 1, 1).
