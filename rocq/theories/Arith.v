(** * The arithmetic signature

    Every [f64] function of the crate is modelled once, over an arbitrary
    [arith].  Two instances are used: [realA] (exact reals, [ArithR.v]) and
    [b64A] (IEEE-754 binary64, [ArithF.v]). *)

From Coq Require Import ZArith.
Open Scope Z_scope.

Record arith : Type := MkArith {
  num : Type;
  (** [lit m e] is the decimal literal m * 10^e.  rustc rounds literals to the
      nearest f64. *)
  lit : Z -> Z -> num;
  (** [z as f64] for i8/u8/u32/i32 values (always exact). *)
  of_int : Z -> num;
  add : num -> num -> num;
  sub : num -> num -> num;
  mul : num -> num -> num;
  div : num -> num -> num;
  (** Rust's [%] on floats: truncated remainder (C fmod). *)
  rem : num -> num -> num;
  neg : num -> num;
  nabs : num -> num;                 (* f64::abs, common.rs:16 *)
  nsqrt : num -> num;                (* f64::sqrt, common.rs:7 *)
  nround : num -> num;               (* f64::round, ties away from zero, common.rs:18 *)
  ntrunc : num -> num;               (* f64::trunc *)
  ltb : num -> num -> bool;          (* a < b, false on NaN *)
  leb : num -> num -> bool;          (* a <= b, false on NaN *)
  to_i32 : num -> Z;                 (* x as i32: truncating, saturating, NaN -> 0 *)
  to_u32 : num -> Z;                 (* x as u32 *)
  nsin : num -> num;                 (* common.rs:9 *)
  ncos : num -> num;                 (* common.rs:10 *)
  nacos : num -> num;                (* common.rs:12 *)
  natan : num -> num;                (* common.rs:14 *)
  natan2 : num -> num -> num;        (* atan2 y x, common.rs:15 *)
  (** The three literals that stand for irrational constants.  In [b64A] they
      are the rounded literals of the source; in [realA] they are the numbers
      the literals approximate (see C64 for the distance). *)
  c_pi : num;                        (* common.rs:20, std::f64::consts::PI *)
  c_two_pi : num;                    (* common.rs:24 *)
  c_as2r : num                       (* common.rs:25, one arcsecond in radians *)
}.

Declare Scope num_scope.
Delimit Scope num_scope with num.

Notation "a + b" := (add _ a b) : num_scope.
Notation "a - b" := (sub _ a b) : num_scope.
Notation "a * b" := (mul _ a b) : num_scope.
Notation "a / b" := (div _ a b) : num_scope.
Notation "a %% b" := (rem _ a b) (at level 40, left associativity) : num_scope.
Notation "- a" := (neg _ a) : num_scope.
Notation "a <? b" := (ltb _ a b) : num_scope.
Notation "a <=? b" := (leb _ a b) : num_scope.
Notation "a >? b" := (ltb _ b a) : num_scope.
Notation "a >=? b" := (leb _ b a) : num_scope.

(** [f64::fract]: [self - self.trunc()] (Rust core). *)
Definition nfract {A : arith} (x : num A) : num A := (x - ntrunc A x)%num.

(** [f64::rem_euclid] (Rust core):
    [let r = self % rhs; if r < 0.0 { r + rhs.abs() } else { r }]. *)
Definition rem_euclid {A : arith} (x y : num A) : num A :=
  let r := (x %% y)%num in
  if (r <? lit A 0 0)%num then (r + nabs A y)%num else r.
