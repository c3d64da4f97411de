(** * Model of the command lines of the two tools

    sun_angle_tool.rs:15-34 and julian_tool.rs:6-12, 24-29, 39-47: the calls made to
    pico-args, in their order, on the list of arguments after the program's name.
    pico-args 0.5 (without its optional features) and the [FromStr] of i32, u8 and f64
    are not in the repository; they are written out here from their documentation.
    Arguments are strings of bytes; arguments that are not UTF-8 are outside the model.
    The text of error messages is left out. *)

From Coq Require Import ZArith Ascii String List Bool.
From Flocq Require Import Core BinarySingleNaN.
From Verif Require Import Outcome Arith ArithF M_Common M_Calendar M_Time M_Ellipsoid M_SunAngle M_Display M_Tools.
Import ListNotations.
Open Scope string_scope.
Open Scope Z_scope.
Open Scope outcome_scope.

(** ** Numbers in text *)

Definition digit_of (c : ascii) : option Z :=
  let n := Z.of_nat (nat_of_ascii c) in if (48 <=? n) && (n <=? 57) then Some (n - 48) else None.

(** The leading digits of a string: value after the digits of [acc], how many after
    [k], and what follows. *)
Fixpoint span (acc : Z) (k : nat) (s : string) : Z * nat * string :=
  match s with
  | EmptyString => (acc, k, s)
  | String c s' => match digit_of c with Some d => span (10 * acc + d) (S k) s' | None => (acc, k, s) end
  end.

(** One or more digits and nothing else. *)
Definition digits1 (s : string) : option Z :=
  match span 0 0 s with (n, S _, EmptyString) => Some n | _ => None end.

Definition minus : ascii := "-"%char.
Definition plus : ascii := "+"%char.

(** [i32::from_str] *)
Definition parse_i32 (s : string) : option Z :=
  let v := match s with
    | String c s' => if Ascii.eqb c plus then digits1 s' else if Ascii.eqb c minus then option_map Z.opp (digits1 s') else digits1 s
    | EmptyString => None end in
  match v with Some n => if (-2147483648 <=? n) && (n <=? 2147483647) then Some n else None | None => None end.

(** [u8::from_str]: no minus sign *)
Definition parse_u8 (s : string) : option Z :=
  let v := match s with
    | String c s' => if Ascii.eqb c plus then digits1 s' else digits1 s
    | EmptyString => None end in
  match v with Some n => if n <=? 255 then Some n else None | None => None end.

(** the exponent of a float, or nothing *)
Definition parse_exponent (s : string) : option Z :=
  match s with
  | EmptyString => Some 0
  | String c s' =>
      if Ascii.eqb c "e"%char || Ascii.eqb c "E"%char then
        match s' with
        | String d t => if Ascii.eqb d plus then digits1 t else if Ascii.eqb d minus then option_map Z.opp (digits1 t) else digits1 s'
        | EmptyString => None end
      else None
  end.

Definition lower (c : ascii) : ascii :=
  let n := nat_of_ascii c in if (65 <=? n)%nat && (n <=? 90)%nat then ascii_of_nat (n + 32) else c.
Fixpoint lower_case (s : string) : string :=
  match s with EmptyString => EmptyString | String c s' => String (lower c) (lower_case s') end.

(** a float without its sign *)
Definition parse_unsigned (s : string) : option b64 :=
  let w := lower_case s in
  if String.eqb w "inf" || String.eqb w "infinity" then Some (B754_infinity false)
  else if String.eqb w "nan" then Some B754_nan
  else
    let '(n, k, r) := span 0 0 s in
    let '(n, k', r) := match r with
      | String c r' => if Ascii.eqb c "."%char then span n k r' else (n, k, r)
      | EmptyString => (n, k, r) end in
    match k' with
    | O => None
    | S _ => match parse_exponent r with Some e => Some (Flit n (e - Z.of_nat (k' - k))) | None => None end
    end.

(** [f64::from_str] *)
Definition parse_f64 (s : string) : option b64 :=
  match s with
  | String c s' =>
      if Ascii.eqb c plus then parse_unsigned s'
      else if Ascii.eqb c minus then option_map Bopp (parse_unsigned s')
      else parse_unsigned s
  | EmptyString => None
  end.

(** ** pico-args *)

(** An operation on the remaining arguments; [None]: an error was returned. *)
Definition parser (X : Type) : Type := list string -> option (X * list string).
Definition pbind {X Y : Type} (f : parser X) (g : X -> parser Y) : parser Y :=
  fun l => match f l with Some (x, l') => g x l' | None => None end.

(** [opt_value_from_str]: the first argument equal to the key and the one after it *)
Fixpoint opt_value {X : Type} (parse : string -> option X) (key : string) (l : list string) : option (option X * list string) :=
  match l with
  | [] => Some (None, [])
  | w :: l' =>
      if String.eqb w key then
        match l' with
        | [] => None
        | v :: l'' => match parse v with Some x => Some (Some x, l'') | None => None end
        end
      else match opt_value parse key l' with Some (o, r) => Some (o, w :: r) | None => None end
  end.

(** [value_from_str]: an error when the key is absent *)
Definition value {X : Type} (parse : string -> option X) (key : string) : parser X :=
  fun l => match opt_value parse key l with Some (Some x, l') => Some (x, l') | _ => None end.

(** [contains] *)
Fixpoint contains (key : string) (l : list string) : option (bool * list string) :=
  match l with
  | [] => Some (false, [])
  | w :: l' => if String.eqb w key then Some (true, l')
               else match contains key l' with Some (b, r) => Some (b, w :: r) | None => None end
  end.

(** [subcommand]: the first argument unless it starts with a dash *)
Definition subcommand (l : list string) : option string * list string :=
  match l with
  | [] => (None, [])
  | w :: l' => match w with
      | String c _ => if Ascii.eqb c minus then (None, l) else (Some w, l')
      | EmptyString => (Some w, l') end
  end.

Definition left_over (l : list string) : bool := match l with [] => false | _ => true end.

Local Notation "x <~ f ;; g" := (pbind f (fun x => g)) (at level 61, f at next level, right associativity).

(** sun_angle_tool.rs:17-32 *)
Definition sun_arguments : parser sun_flags :=
  y <~ opt_value parse_i32 "--year";;
  mo <~ opt_value parse_i32 "--month";;
  d <~ opt_value parse_i32 "--day";;
  h <~ opt_value parse_u8 "--hour";;
  mi <~ opt_value parse_u8 "--min";;
  s <~ opt_value parse_f64 "--sec";;
  la <~ opt_value parse_f64 "--lat";;
  lo <~ opt_value parse_f64 "--lon";;
  he <~ opt_value parse_f64 "--height";;
  d0 <~ opt_value parse_f64 "--delta0";;
  d1 <~ opt_value parse_f64 "--delta1";;
  st <~ opt_value parse_f64 "--delta_step";;
  sc <~ contains "--scan";;
  fun l => Some (MkFlags y mo d h mi s la lo he d0 d1 st sc (left_over l), l).

Section Mains.
Variable tie : Z -> bool.
Variable show : b64 -> string.
Context {lm : libm}.

(** sun_angle_tool.rs:14-71 [main] *)
Definition sun_main (fuel : nat) (p : profile) (args : list string) : outcome (option tool_output) :=
  match sun_arguments args with
  | None => Val (Some ([], Some BadArguments))
  | Some (a, _) => sun_tool tie (lm := lm) fuel p a
  end.

(** julian_tool.rs:7-12 *)
Definition gregorian_arguments : parser (Z * Z * Z * option Z * option Z * option b64) :=
  y <~ value parse_i32 "--year";;
  mo <~ value parse_i32 "--month";;
  d <~ value parse_i32 "--day";;
  h <~ opt_value parse_u8 "--hour";;
  mi <~ opt_value parse_u8 "--minute";;
  s <~ opt_value parse_f64 "--second";;
  fun l => Some ((y, mo, d, h, mi, s), l).

(** julian_tool.rs:25-26 *)
Definition julian_arguments : parser (b64 * option b64) :=
  jd <~ value parse_f64 "--jd";;
  jd2 <~ opt_value parse_f64 "--jd2";;
  fun l => Some ((jd, jd2), l).

(** julian_tool.rs:39-47 [main]; [gregorian] does not look at what is left over *)
Definition julian_main (p : profile) (args : list string) : outcome tool_output :=
  let '(c, l) := subcommand args in
  match c with
  | None => Val ([], Some BadArguments)
  | Some w =>
      if String.eqb w "gregorian" || String.eqb w "g" then
        match gregorian_arguments l with
        | None => Val ([], Some BadArguments)
        | Some ((y, mo, d, h, mi, s), _) => tool_gregorian tie (lm := lm) p (Some y) (Some mo) (Some d) h mi s
        end
      else if String.eqb w "julian" || String.eqb w "j" then
        match julian_arguments l with
        | None => Val ([], Some BadArguments)
        | Some ((jd, jd2), r) => tool_julian tie show (lm := lm) p (Some jd) jd2 (left_over r)
        end
      else Val ([], Some BadArguments)
  end.

End Mains.
