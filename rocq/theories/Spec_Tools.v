(** * Vocabulary of the properties of the command-line tools *)

From Coq Require Import ZArith Ascii String Reals List Bool.
From Flocq Require Import Core BinarySingleNaN.
From Verif Require Import Outcome Arith ArithR M_Common M_Calendar M_Time M_Ellipsoid M_SunAngle Spec_Matrix Spec_Display Spec_Sun ArithF M_Tools.
Import ListNotations.
Open Scope string_scope.

Fixpoint all_blank (s : string) : Prop :=
  match s with EmptyString => True | String c s' => c = " "%char /\ all_blank s' end.

(** [t] is n units of 10^-p in decimal, n >= 0: digits, and with p > 0 a point and p digits. *)
Definition decimal (p : nat) (n : Z) (t : string) : Prop :=
  match p with
  | O => t <> "" /\ all_digits t /\ read_digits t = n
  | _ => exists i f, t = i ++ "." ++ f /\ i <> "" /\ all_digits i /\
           field p (n mod 10 ^ Z.of_nat p)%Z f /\ read_digits i = (n / 10 ^ Z.of_nat p)%Z
  end.

(** [s] reads as a number with p decimals, within half a unit of the last decimal,
    plus e, of v: blanks, an optional sign, and digits. *)
Definition shows (p : nat) (s : string) (v e : R) : Prop :=
  exists b sg t n, s = b ++ sg ++ t /\ all_blank b /\ (sg = "" \/ sg = "+" \/ sg = "-") /\ (0 <= n)%Z /\ decimal p n t /\
  (Rabs (IZR (sign_factor sg) * IZR n / 10 ^ p - v) <= / 2 / 10 ^ p + e)%R.

(** A clock time printed HH:MM:SS.ffffff. *)
Definition shows_clock (t : string) (h m : Z) (s e : R) : Prop :=
  exists hs ms ss us si su, t = hs ++ ":" ++ ms ++ ":" ++ ss ++ "." ++ us /\
  field 2 h hs /\ field 2 m ms /\ field 2 si ss /\ field 6 su us /\
  (Rabs (IZR si + IZR su / 1000000 - s) <= / 2000000 + e)%R.

(** A date printed YYYY-MM-DD. *)
Definition shows_date (t : string) (g : GregorianDate) : Prop :=
  exists ys ms ds, t = ys ++ "-" ++ ms ++ "-" ++ ds /\ field 4 (year g) ys /\ field 2 (month g) ms /\ field 2 (day g) ds.

Definition deg (x : R) : R := (x * 180 / PI)%R.

(** The degree sign in UTF-8. *)
Definition degree_utf8 : string := String (ascii_of_nat 194) (String (ascii_of_nat 176) "").

(** The lines of the report of the Sun angle tool, for the parameters and the result
    [r]: every number printed is the number of the result up to the
    rounding to the decimals shown and the tolerance stated. *)
Definition report (lines : list string) (par : SunAngleParameters realA) (r : SunAngleResult realA) : Prop :=
  exists date time off j j0 j1 la lo he px py pz utc dat tai tt ut1 era ex ey ez sx sy sz za el k,
  lines = [ "Date:                " ++ date;
    "Time:                " ++ time ++ " " ++ off ++ "s";
    "Julian date:         " ++ j ++ " = " ++ j0 ++ " + " ++ j1;
    "Position:            " ++ la ++ "," ++ lo ++ "," ++ he;
    "                     X=" ++ px ++ " Y=" ++ py ++ " Z=" ++ pz;
    "UTC:                 " ++ utc;
    "Delta AT:            " ++ dat;
    "TAI:                 " ++ tai;
    "TT:                  " ++ tt;
    "UT1:                 " ++ ut1;
    "ERA:                 " ++ era ++ degree_utf8;
    "Earth position (AU): X=" ++ ex ++ " Y=" ++ ey ++ " Z=" ++ ez;
    "Sun position (m):    X=" ++ sx ++ " Y=" ++ sy ++ " Z=" ++ sz;
    "Sun Zenith angle:    " ++ za ++ degree_utf8 ++ " or elevation: " ++ el ++ degree_utf8 ] /\
  shows_date date (sp_date (A := realA) par) /\
  shows_clock time (hour (sp_time (A := realA) par)) (minute (sp_time (A := realA) par)) (second (A := realA) (sp_time (A := realA) par)) 0 /\
  shows 6 off (sr_delta_s (A := realA) r) 0 /\
  shows 6 j (sr_jd0 (A := realA) r + sr_jd1 (A := realA) r)%R (4 / 10 ^ 10) /\
  shows 6 j0 (sr_jd0 (A := realA) r) 0 /\ shows 6 j1 (sr_jd1 (A := realA) r) (1 / 10 ^ 11) /\
  shows 6 la (lat (A := realA) (sp_position (A := realA) par)) 0 /\
  shows 6 lo (lon (A := realA) (sp_position (A := realA) par)) 0 /\
  shows 2 he (height360 (A := realA) (sp_position (A := realA) par)) 0 /\
  shows 1 px (coord (sr_p (A := realA) r) I0) (2 / 10 ^ 7) /\ shows 1 py (coord (sr_p (A := realA) r) I1) (2 / 10 ^ 7) /\
  shows 1 pz (coord (sr_p (A := realA) r) I2) (2 / 10 ^ 7) /\
  shows 6 utc (utc_total (A := realA) (sr_utc (A := realA) r)) (4 / 10 ^ 10) /\
  shows 6 dat (sr_dat (A := realA) r) (1.7 / 10 ^ 14) /\
  shows 6 tai (tai_total (A := realA) (sr_tai (A := realA) r)) (4 / 10 ^ 10) /\
  shows 6 tt (tt_total (A := realA) (sr_tt (A := realA) r)) (4 / 10 ^ 10) /\
  shows 6 ut1 (ut1_total (A := realA) (sr_ut1 (A := realA) r)) (4 / 10 ^ 10) /\
  shows 6 era (deg (sr_era (A := realA) r) + 360 * IZR k)%R (1 / 10 ^ 8) /\
  shows 13 ex (coord (sr_earth (A := realA) r) I0) (1.9 / 10 ^ 12) /\ shows 13 ey (coord (sr_earth (A := realA) r) I1) (1.9 / 10 ^ 12) /\
  shows 13 ez (coord (sr_earth (A := realA) r) I2) (1.9 / 10 ^ 12) /\
  shows 0 sx (coord (sr_sun_e (A := realA) r) I0) 42 /\ shows 0 sy (coord (sr_sun_e (A := realA) r) I1) 42 /\
  shows 0 sz (coord (sr_sun_e (A := realA) r) I2) 42 /\
  (0.01 <= sr_sza (A := realA) r <= PI - 0.01 ->
   shows 2 za (deg (sr_sza (A := realA) r)) (5.3 / 10 ^ 6) /\ shows 2 el (90 - deg (sr_sza (A := realA) r))%R (5.3 / 10 ^ 6))%R.

(** The value an option stands for: what was given, or the default. *)
Definition given {X : Type} (o : option X) (dflt v : X) : Prop := o = Some v \/ (o = None /\ v = dflt).

(** What the flags of the Sun angle tool say: date, time, place, first and last offset and step. *)
Definition flags_say (a : sun_flags) (g : GregorianDate) (h m : Z) (s lo la ht d0 d1 st : b64) : Prop :=
  given (f_year a) 2007%Z (year g) /\ given (f_month a) 4%Z (month g) /\ given (f_day a) 5%Z (day g) /\
  given (f_hour a) 0%Z h /\ given (f_min a) 0%Z m /\ given (f_sec a) (Flit 0 0) s /\
  given (f_lon a) (Flit (-120) 0) lo /\ given (f_lat a) (Flit 0 0) la /\ given (f_height a) (Flit 0 0) ht /\
  given (f_delta0 a) (Flit (-600) 0) d0 /\ given (f_delta1 a) (Flit 600 0) d1 /\ given (f_step a) (Flit 60 0) st.
