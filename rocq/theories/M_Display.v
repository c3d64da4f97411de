(** * Model of the [Display] implementations and of the parts of Rust's
      formatting they use

    Strings are byte strings.  The format specifications occurring in the code
    are [{:0w}] on integers, and [{:0>w.p}], [{:+0w.p}], [{:+w.p}], [{:w.p}] and
    [{:.p}] on f64.

    A float with precision [p] is printed as its exact value rounded to [p]
    decimals.  How an exact tie is rounded has changed between Rust versions, so
    it is a parameter: [tie q] says whether a value exactly half way between [q]
    and [q+1] units in the last place is rounded up. *)

From Coq Require Import ZArith Ascii String List Bool.
From Flocq Require Import Core BinarySingleNaN.
From Verif Require Import Outcome Arith ArithF M_Common M_Calendar M_Time M_Ellipsoid M_SunAngle.
Import ListNotations.
Open Scope string_scope.
Open Scope Z_scope.

(** ** Integers *)

Definition digit (d : Z) : ascii := ascii_of_nat (48 + Z.to_nat d).

(** Decimal digits of n >= 0 without leading zeros, "0" for 0. *)
Fixpoint dec_fuel (fuel : nat) (n : Z) : string :=
  match fuel with
  | O => ""
  | S f => if n <? 10 then String (digit n) "" else dec_fuel f (n / 10) ++ String (digit (n mod 10)) ""
  end.
Definition to_dec (n : Z) : string := dec_fuel (S (Z.to_nat (Z.log2 n))) n.

Fixpoint fill (c : ascii) (n : nat) : string :=
  match n with O => "" | S n' => String c (fill c n') end.
(** Pad on the left to [w] bytes. *)
Definition lpad (c : ascii) (w : nat) (s : string) : string := fill c (w - String.length s)%nat ++ s.

(** [{:0w}] on an integer: the sign first, then zeros up to the width. *)
Definition fmt_int (w : nat) (x : Z) : string :=
  if x <? 0 then "-" ++ lpad "0" (w - 1)%nat (to_dec (- x)) else lpad "0" w (to_dec x).

(** ** Floats *)

Section Display.
Variable tie : Z -> bool.

(** n / d rounded to the nearest integer, d > 0 *)
Definition round_div (n d : Z) : Z :=
  let q := n / d in
  match Z.compare (2 * (n mod d)) d with
  | Lt => q
  | Gt => q + 1
  | Eq => if tie q then q + 1 else q
  end.

(** m * 2^e * 10^p rounded *)
Definition scaled (m : positive) (e : Z) (p : nat) : Z :=
  let n := Zpos m * 10 ^ Z.of_nat p in
  if 0 <=? e then n * 2 ^ e else round_div n (2 ^ (- e)).

(** n units of 10^-p, n >= 0 *)
Definition fixed (n : Z) (p : nat) : string :=
  match p with
  | O => to_dec n
  | _ => to_dec (n / 10 ^ Z.of_nat p) ++ "." ++ lpad "0" p (to_dec (n mod 10 ^ Z.of_nat p))
  end.

(** sign and body of a formatted float; [plus]: the [+] flag *)
Definition sign_of (plus : bool) (x : b64) : string :=
  match x with
  | B754_nan => ""
  | B754_infinity s | B754_zero s | B754_finite s _ _ _ => if s then "-" else if plus then "+" else ""
  end.
Definition body_of (x : b64) (p : nat) : string :=
  match x with
  | B754_nan => "NaN"
  | B754_infinity _ => "inf"
  | B754_zero _ => fixed 0 p
  | B754_finite _ m e _ => fixed (scaled m e p) p
  end.

(** [{:.p}], [{:w.p}] (numbers are right aligned), [{:+w.p}] *)
Definition fmt_float (plus : bool) (w p : nat) (x : b64) : string :=
  lpad " " w (sign_of plus x ++ body_of x p).
(** [{:0>w.p}]: the fill character is 0, before the sign *)
Definition fmt_float_fill0 (w p : nat) (x : b64) : string :=
  lpad "0" w (sign_of false x ++ body_of x p).
(** [{:+0w.p}]: zeros after the sign *)
Definition fmt_float_sign0 (w p : nat) (x : b64) : string :=
  sign_of true x ++ lpad "0" (w - String.length (sign_of true x))%nat (body_of x p).

Context {lm : libm}.
Local Notation A := (b64A lm).

(** calendar.rs:131-135 *)
Definition display_date (g : GregorianDate) : string :=
  fmt_int 4 (year g) ++ "-" ++ fmt_int 2 (month g) ++ "-" ++ fmt_int 2 (day g).

(** calendar.rs:177-181 *)
Definition display_hms (x : HMS A) : string :=
  fmt_int 2 (hour x) ++ ":" ++ fmt_int 2 (minute x) ++ ":" ++ fmt_float_fill0 9 6 (second x).

(** calendar.rs:183-187 *)
Definition display_datehms (x : GregorianDateHMS A) : string :=
  display_date (date x) ++ " " ++ display_hms (hms x).

(** ellipsoid.rs:88-96 *)
Definition display_360 (g : Geodetic360 A) : string :=
  fmt_float_sign0 10 6 (lat g) ++ "," ++ fmt_float_sign0 11 6 (lon g) ++ "," ++
  fmt_float_sign0 9 2 (height360 g).

(** ellipsoid.rs:81-85 *)
Definition display_geodetic (p : profile) (g : Geodetic A) : outcome string :=
  bind (geodetic_to_360 p g) (fun d => Val (display_360 d)).

(** sun_angle.rs:78-111, one string per line without the newline; the degree
    sign is two bytes of UTF-8. *)
Definition degree_sign : string := String (ascii_of_nat 194) (String (ascii_of_nat 176) "").
Definition display_bundle (par : SunAngleParameters A) (r : SunAngleResult A) : list string :=
  let sza_d := div A (sr_sza r) DEGREE in
  [ "Date:                " ++ display_date (sp_date par);
    "Time:                " ++ display_hms (sp_time par) ++ " " ++ fmt_float true 13 6 (sr_delta_s r) ++ "s";
    "Julian date:         " ++ fmt_float false 0 6 (add A (sr_jd0 r) (sr_jd1 r)) ++ " = "
      ++ fmt_float false 0 6 (sr_jd0 r) ++ " + " ++ fmt_float false 0 6 (sr_jd1 r);
    "Position:            " ++ display_360 (sp_position par);
    "                     X=" ++ fmt_float false 16 1 (v0 (sr_p r)) ++ " Y=" ++ fmt_float false 16 1 (v1 (sr_p r))
      ++ " Z=" ++ fmt_float false 16 1 (v2 (sr_p r));
    "UTC:                 " ++ fmt_float false 0 6 (utc_total (sr_utc r));
    "Delta AT:            " ++ fmt_float false 0 6 (sr_dat r);
    "TAI:                 " ++ fmt_float false 0 6 (tai_total (sr_tai r));
    "TT:                  " ++ fmt_float false 0 6 (tt_total (sr_tt r));
    "UT1:                 " ++ fmt_float false 0 6 (ut1_total (sr_ut1 r));
    "ERA:                 " ++ fmt_float false 0 6 (div A (sr_era r) DEGREE) ++ degree_sign;
    "Earth position (AU): X=" ++ fmt_float true 15 13 (v0 (sr_earth r)) ++ " Y=" ++ fmt_float true 15 13 (v1 (sr_earth r))
      ++ " Z=" ++ fmt_float true 15 13 (v2 (sr_earth r));
    "Sun position (m):    X=" ++ fmt_float true 16 0 (v0 (sr_sun_e r)) ++ " Y=" ++ fmt_float true 16 0 (v1 (sr_sun_e r))
      ++ " Z=" ++ fmt_float true 16 0 (v2 (sr_sun_e r));
    "Sun Zenith angle:    " ++ fmt_float false 7 2 sza_d ++ degree_sign ++ " or elevation: "
      ++ fmt_float false 7 2 (sub A (lit A 90 0) sza_d) ++ degree_sign ].

End Display.
