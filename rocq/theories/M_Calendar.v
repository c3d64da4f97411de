(** * Model of crates/tofas/src/calendar.rs (without Display, see M_Display.v) *)

From Coq Require Import ZArith Bool List.
From Verif Require Import Outcome Arith M_Common.
Import ListNotations.
Open Scope Z_scope.
Open Scope outcome_scope.

(** calendar.rs:4-10 *)
Inductive CalendarError : Type := BadYear | BadMonth | BadDay | BadJulian | BadFract.

(** calendar.rs:12-17; the fields are [i32] *)
Record GregorianDate : Type := MkDate { year : Z; month : Z; day : Z }.

(** calendar.rs:34,37 *)
Definition YEAR_MIN : Z := -4799.
Definition MTAB : list Z := [31;28;31;30;31;30;31;31;30;31;30;31].

(** calendar.rs:44-69 [GregorianDate::new] *)
Definition date_new (y m d : Z) : outcome (result GregorianDate CalendarError) :=
  if y <? YEAR_MIN then Val (Err BadYear)
  else if (m <? 1) || (12 <? m) then Val (Err BadMonth)
  else
    ndays <- index MTAB (Z.to_nat m - 1);;
    ndays <- (if m =? 2 then
                y4 <- i32_rem y 4;;
                let ndays := if y4 =? 0 then 29 else ndays in
                y100 <- i32_rem y 100;;
                y400 <- i32_rem y 400;;
                Val (if (y100 =? 0) && negb (y400 =? 0) then 28 else ndays)
              else Val ndays);;
    if (d <? 1) || (ndays <? d) then Val (Err BadDay)
    else Val (Ok (MkDate y m d)).

(** calendar.rs:75-81: the integer part of [to_julian] *)
Definition to_mjd (p : profile) (g : GregorianDate) : outcome Z :=
  m14 <- i32_sub p (month g) 14;;
  my <- i32_div m14 12;;
  iypmy <- i32_add p (year g) my;;
  a <- i32_add p iypmy 4800;;
  a <- i32_mul p 1461 a;;
  a <- i32_div a 4;;
  b <- i32_sub p (month g) 2;;
  b12 <- i32_mul p 12 my;;
  b <- i32_sub p b b12;;
  b <- i32_mul p 367 b;;
  b <- i32_div b 12;;
  c <- i32_add p iypmy 4900;;
  c <- i32_div c 100;;
  c <- i32_mul p 3 c;;
  c <- i32_div c 4;;
  s <- i32_add p a b;;
  s <- i32_sub p s c;;
  s <- i32_add p s (day g);;
  i32_sub p s 2432076.

(** calendar.rs:111-120: Julian day number to year, month, day *)
Definition civil_of_jd (p : profile) (jd : Z) : outcome GregorianDate :=
  l <- i32_add p jd 68569;;
  n4 <- i32_mul p 4 l;;
  n <- i32_div n4 146097;;
  t <- i32_mul p 146097 n;;
  t <- i32_add p t 3;;
  t <- i32_div t 4;;
  l <- i32_sub p l t;;
  i <- i32_add p l 1;;
  i <- i32_mul p 4000 i;;
  i <- i32_div i 1461001;;
  t <- i32_mul p 1461 i;;
  t <- i32_div t 4;;
  l <- i32_sub p l t;;
  l <- i32_add p l 31;;
  k <- i32_mul p 80 l;;
  k <- i32_div k 2447;;
  t <- i32_mul p 2447 k;;
  t <- i32_div t 80;;
  id <- i32_sub p l t;;
  l <- i32_div k 11;;
  im <- i32_add p k 2;;
  t <- i32_mul p 12 l;;
  im <- i32_sub p im t;;
  iy <- i32_sub p n 49;;
  iy <- i32_mul p 100 iy;;
  iy <- i32_add p iy i;;
  iy <- i32_add p iy l;;
  Val (MkDate iy im id).

Section Calendar.
Context {A : arith}.
Local Notation num := (num A).
Local Notation lit := (lit A).
Local Open Scope num_scope.

(** calendar.rs:32,35,36 *)
Definition MJD_ZERO : num := lit 24000005 (-1).
Definition DJ_MIN : num := lit (-32000) 0.
Definition DJ_MAX : num := lit 1 9.

(** calendar.rs:74-83 [to_julian] *)
Definition to_julian (p : profile) (g : GregorianDate) : outcome (num * num) :=
  djm <- to_mjd p g;;
  Val (MJD_ZERO, of_int A djm).

(** calendar.rs:94-109: splitting the Julian date into the day number [d] (a
    float holding a whole number) and the fraction [f] *)
Definition split_julian (dj1 dj2 : num) : num * num :=
  let '(d1, d2) := if dj1 >=? dj2 then (dj1, dj2) else (dj2, dj1) in
  let d2 := d2 - lit 5 (-1) in
  let f1 := d1 %% lit 1 0 in
  let f2 := d2 %% lit 1 0 in
  let f := (f1 + f2) %% lit 1 0 in
  let f := if f <? lit 0 0 then f + lit 1 0 else f in
  let d := nround A (d1 - f1) + nround A (d2 - f2) + nround A (f1 + f2 - f) in
  (d, f).

(** calendar.rs:88-128 [from_julian] *)
Definition from_julian (p : profile) (dj1 dj2 : num)
  : outcome (result (GregorianDate * num) CalendarError) :=
  let dj := dj1 + dj2 in
  if (dj <? DJ_MIN) || (dj >? DJ_MAX) then Val (Err BadJulian)
  else
    let '(d, f) := split_julian dj1 dj2 in
    jd <- i32_add p (to_i32 A d) 1;;
    g <- civil_of_jd p jd;;
    Val (Ok (g, f)).

(** calendar.rs:19-24; hour and minute are [u8] *)
Record HMS : Type := MkHMS { hour : Z; minute : Z; second : num }.

(** calendar.rs:138-140 [HMS::new] *)
Definition hms_new (h m : Z) (s : num) : HMS := MkHMS h m s.

(** [as u8] from u32: keeps the low 8 bits *)
Definition as_u8 (z : Z) : Z := (z mod 256)%Z.

(** calendar.rs:142-156 [HMS::from_fraction_of_day] *)
Definition hms_from_fraction (f : num) : result HMS CalendarError :=
  if (f <? lit 0 0) || (f >? lit 1 0) then Err BadFract
  else
    let s := lit 86400 0 * f in
    let t := to_u32 A (ntrunc A s) in
    let h := as_u8 (t / 3600)%Z in
    let m := as_u8 ((t mod 3600) / 60)%Z in
    let sec := of_int A (t mod 60)%Z + nfract s in
    Ok (MkHMS h m sec).

(** calendar.rs:158-160 [HMS::to_fraction_of_day] *)
Definition hms_to_fraction (x : HMS) : num :=
  (second x + lit 60 0 * (of_int A (minute x) + lit 60 0 * of_int A (hour x)))
  / lit 86400 0.

(** calendar.rs:26-30 *)
Record GregorianDateHMS : Type := MkDateHMS { date : GregorianDate; hms : HMS }.

(** calendar.rs:164-168 [GregorianDateHMS::from_julian] *)
Definition datehms_from_julian (p : profile) (dj1 dj2 : num)
  : outcome (result GregorianDateHMS CalendarError) :=
  bind_ok (from_julian p dj1 dj2) (fun '(g, fod) =>
  bind_ok (Val (hms_from_fraction fod)) (fun h =>
  Val (Ok (MkDateHMS g h)))).

(** calendar.rs:170-174 [GregorianDateHMS::to_julian] *)
Definition datehms_to_julian (p : profile) (x : GregorianDateHMS)
  : outcome (num * num) :=
  '(dj1, dj2) <- to_julian p (date x);;
  let fod := hms_to_fraction (hms x) in
  Val (dj1, dj2 + fod).

End Calendar.
Arguments HMS : clear implicits.
Arguments GregorianDateHMS : clear implicits.
