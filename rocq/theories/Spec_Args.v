(** * Vocabulary of the properties of command lines *)

From Coq Require Import ZArith Ascii String Reals List.
From Flocq Require Import Core BinarySingleNaN.
From Verif Require Import ArithF Spec_Float Spec_Display Spec_Tools M_Tools.
Import ListNotations.
Open Scope string_scope.

(** ** Numbers in text *)

(** [s] writes the integer n: an optional sign and digits. *)
Definition writes_int (s : string) (n : Z) : Prop :=
  exists sg d, s = sg ++ d /\ (sg = "" \/ sg = "+" \/ sg = "-") /\ d <> "" /\ all_digits d /\ n = (sign_factor sg * read_digits d)%Z.

(** [s] writes a natural number: no minus sign. *)
Definition writes_nat (s : string) (n : Z) : Prop :=
  exists sg d, s = sg ++ d /\ (sg = "" \/ sg = "+") /\ d <> "" /\ all_digits d /\ n = read_digits d.

(** [s] writes n * 10^e: a sign, digits that may have a point among, before or after
    them, and a power of ten. *)
Definition writes_decimal (s : string) (neg : bool) (n e : Z) : Prop :=
  exists sg i pt f x k, s = sg ++ i ++ pt ++ f ++ x /\ (sg = "" \/ sg = "+" \/ sg = "-") /\ neg = String.eqb sg "-" /\
    all_digits i /\ all_digits f /\ (pt = "" /\ f = "" \/ pt = ".") /\ i ++ f <> "" /\ n = read_digits (i ++ f) /\
    (x = "" /\ k = 0%Z \/ exists c y, x = c ++ y /\ (c = "e" \/ c = "E") /\ writes_int y k) /\
    e = (k - Z.of_nat (String.length f))%Z.

Definition ten_to (e : Z) : R := bpow (Build_radix 10 eq_refl) e.

(** [x] is the binary64 nearest to (-1)^neg * n * 10^e, an infinity when that is too big. *)
Definition nearest_to (neg : bool) (n e : Z) (x : b64) : Prop :=
  let v := rnd ((if neg then -1 else 1) * IZR n * ten_to e)%R in
  Bsign x = neg /\ ((Rabs v < bpow radix2 1024)%R /\ fin x = true /\ B2R x = v \/ (bpow radix2 1024 <= Rabs v)%R /\ x = B754_infinity neg).

Fixpoint same_letters (s t : string) : Prop :=
  match s, t with
  | EmptyString, EmptyString => True
  | String c s', String d t' => (nat_of_ascii c = nat_of_ascii d \/ nat_of_ascii c + 32 = nat_of_ascii d)%nat /\ same_letters s' t'
  | _, _ => False
  end.

(** [s] reads as the binary64 x: the one nearest to what it writes, or inf, infinity or
    nan in small or capital letters, with or without a sign. *)
Definition reads_f64 (s : string) (x : b64) : Prop :=
  (exists neg n e, writes_decimal s neg n e /\ nearest_to neg n e x) \/
  (exists sg t, s = sg ++ t /\ (sg = "" \/ sg = "+" \/ sg = "-") /\
     (same_letters t "inf" \/ same_letters t "infinity") /\ x = B754_infinity (String.eqb sg "-")) \/
  (exists sg t, s = sg ++ t /\ (sg = "" \/ sg = "+" \/ sg = "-") /\ same_letters t "nan" /\ x = B754_nan).

Definition reads_i32 (s : string) (n : Z) : Prop := writes_int s n /\ (- 2 ^ 31 <= n < 2 ^ 31)%Z.
Definition reads_u8 (s : string) (n : Z) : Prop := writes_nat s n /\ (n < 2 ^ 8)%Z.

(** ** Command lines *)

(** A command line: options with their texts, in some order, and switches. *)
Inductive item : Type := Opt (key text : string) | Switch (key : string).
Definition key_of (i : item) : string := match i with Opt k _ => k | Switch k => k end.
Definition words_of (i : item) : list string := match i with Opt k t => [k; t] | Switch k => [k] end.
Definition words (l : list item) : list string := concat (map words_of l).

(** The option [key] is given with a text that reads as a value, or is absent. *)
Definition option_says {X : Type} (reads : string -> X -> Prop) (l : list item) (key : string) (o : option X) : Prop :=
  match o with
  | Some x => exists t, In (Opt key t) l /\ reads t x
  | None => ~ In key (map key_of l)
  end.

Definition sun_options : list string :=
  ["--year"; "--month"; "--day"; "--hour"; "--min"; "--sec"; "--lat"; "--lon"; "--height"; "--delta0"; "--delta1"; "--delta_step"].

(** The items are among the options of the Sun angle tool and --scan, each given once,
    and say the flags [a]. *)
Definition sun_items (l : list item) (a : sun_flags) : Prop :=
  NoDup (map key_of l) /\ (forall i, In i l -> match i with Opt k _ => In k sun_options | Switch k => k = "--scan" end) /\
  option_says reads_i32 l "--year" (f_year a) /\ option_says reads_i32 l "--month" (f_month a) /\ option_says reads_i32 l "--day" (f_day a) /\
  option_says reads_u8 l "--hour" (f_hour a) /\ option_says reads_u8 l "--min" (f_min a) /\ option_says reads_f64 l "--sec" (f_sec a) /\
  option_says reads_f64 l "--lat" (f_lat a) /\ option_says reads_f64 l "--lon" (f_lon a) /\ option_says reads_f64 l "--height" (f_height a) /\
  option_says reads_f64 l "--delta0" (f_delta0 a) /\ option_says reads_f64 l "--delta1" (f_delta1 a) /\ option_says reads_f64 l "--delta_step" (f_step a) /\
  (f_scan a = true <-> In (Switch "--scan") l) /\ f_extra a = false.

(** The items of `julian_tool gregorian`. *)
Definition gregorian_items (l : list item) (y mo d : Z) (h mi : option Z) (s : option b64) : Prop :=
  NoDup (map key_of l) /\
  (forall i, In i l -> match i with Opt k _ => In k ["--year"; "--month"; "--day"; "--hour"; "--minute"; "--second"] | Switch _ => False end) /\
  option_says reads_i32 l "--year" (Some y) /\ option_says reads_i32 l "--month" (Some mo) /\ option_says reads_i32 l "--day" (Some d) /\
  option_says reads_u8 l "--hour" h /\ option_says reads_u8 l "--minute" mi /\ option_says reads_f64 l "--second" s.

(** The items of `julian_tool julian`. *)
Definition julian_items (l : list item) (jd : b64) (jd2 : option b64) : Prop :=
  NoDup (map key_of l) /\
  (forall i, In i l -> match i with Opt k _ => In k ["--jd"; "--jd2"] | Switch _ => False end) /\
  option_says reads_f64 l "--jd" (Some jd) /\ option_says reads_f64 l "--jd2" jd2.
