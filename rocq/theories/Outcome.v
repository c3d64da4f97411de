(** * Outcomes, results and machine integers

    Control-flow vocabulary shared by the whole model.

    - [outcome]: a Rust call either returns a value or panics.  Panics come
      from integer overflow in debug builds, out-of-bounds indexing and
      [expect]/[unwrap]; there is no unwinding or recovery in the crate.
    - [result]: Rust's [Result], kept as data.
    - [profile]: the Cargo build profile, which decides what overflowing [i32]
      arithmetic does (debug: panic; release: two's complement wrap). *)

From Coq Require Import ZArith Bool List.
Import ListNotations.
Open Scope Z_scope.

Inductive outcome (A : Type) : Type :=
| Val (a : A)
| Panic.
Arguments Val {A} a.
Arguments Panic {A}.

Definition bind {A B : Type} (x : outcome A) (k : A -> outcome B) : outcome B :=
  match x with
  | Val a => k a
  | Panic => Panic
  end.

Declare Scope outcome_scope.
Delimit Scope outcome_scope with outcome.
Notation "x <- e ;; k" := (bind e (fun x => k))
  (at level 61, e at next level, right associativity) : outcome_scope.
Notation "' p <- e ;; k" := (bind e (fun x => match x with p => k end))
  (at level 61, p pattern, e at next level, right associativity) : outcome_scope.

Inductive result (A E : Type) : Type :=
| Ok (a : A)
| Err (e : E).
Arguments Ok {A E} a.
Arguments Err {A E} e.

(** Result of a call that may panic and otherwise returns a [Result]. *)
Definition bind_ok {A B E : Type} (x : outcome (result A E))
  (k : A -> outcome (result B E)) : outcome (result B E) :=
  match x with
  | Val (Ok a) => k a
  | Val (Err e) => Val (Err e)
  | Panic => Panic
  end.

Inductive profile : Type := Debug | Release.

(** ** [i32] arithmetic (Rust reference, "Integer overflow") *)

Definition i32_min : Z := -2147483648.
Definition i32_max : Z := 2147483647.
Definition in_i32 (z : Z) : bool := (i32_min <=? z) && (z <=? i32_max).

Definition wrap32 (z : Z) : Z := (z + 2147483648) mod 4294967296 - 2147483648.

(** The result of an [i32] operation whose mathematical value is [z]. *)
Definition i32 (p : profile) (z : Z) : outcome Z :=
  if in_i32 z then Val z
  else match p with
       | Debug => Panic
       | Release => Val (wrap32 z)
       end.

Definition i32_add (p : profile) (a b : Z) : outcome Z := i32 p (a + b).
Definition i32_sub (p : profile) (a b : Z) : outcome Z := i32 p (a - b).
Definition i32_mul (p : profile) (a b : Z) : outcome Z := i32 p (a * b).

(** Rust integer division truncates towards zero; it panics (in every profile)
    on a zero divisor and on [i32::MIN / -1]. *)
Definition i32_div (a b : Z) : outcome Z :=
  if b =? 0 then Panic
  else if (a =? i32_min) && (b =? -1) then Panic
  else Val (Z.quot a b).

(** Rust [%] on integers: sign of the dividend. *)
Definition i32_rem (a b : Z) : outcome Z :=
  if b =? 0 then Panic
  else if (a =? i32_min) && (b =? -1) then Panic
  else Val (Z.rem a b).

(** Indexing a slice: panics when out of bounds. *)
Definition index {A : Type} (l : list A) (i : nat) : outcome A :=
  match nth_error l i with
  | Some a => Val a
  | None => Panic
  end.

(** [Result::expect] *)
Definition expect {A E : Type} (r : result A E) : outcome A :=
  match r with
  | Ok a => Val a
  | Err _ => Panic
  end.

(** A [for] loop over a list of loop indices, with mutable state [S]. *)
Fixpoint for_each {I S : Type} (l : list I) (s : S) (body : S -> I -> outcome S)
  : outcome S :=
  match l with
  | nil => Val s
  | i :: l' => bind (body s i) (fun s' => for_each l' s' body)
  end.
