(** * Model of crates/tofas/src/fundargs.rs

    Rust's [%] and [*] have the same precedence and associate to the left, so
    [a + t*(...) % TURNAS] is [a + ((t*(...)) % TURNAS)]: the constant term is
    added after the reduction. *)

From Coq Require Import ZArith.
From Verif Require Import Outcome Arith M_Common.
Open Scope Z_scope.

Section Fundargs.
Context {A : arith}.
Local Notation num := (num A).
Local Notation lit := (lit A).
Local Open Scope num_scope.

(** fundargs.rs:5-11 *)
Definition l03 (t : num) : num :=
  (lit 485868249036 (-6) +
   (t * (lit 17179159232178 (-4) +
    t * (lit 318792 (-4) +
     t * (lit 51635 (-6) +
      t * (- lit 24470 (-8))))) %% TURNAS)) * c_as2r A.

(** fundargs.rs:15-21 *)
Definition lp03 (t : num) : num :=
  (lit 1287104793048 (-6) +
   (t * (lit 1295965810481 (-4) +
    t * (- lit 5532 (-4) +
     t * (lit 136 (-6) +
      t * (- lit 1149 (-8))))) %% TURNAS)) * c_as2r A.

(** fundargs.rs:26-32 *)
Definition f03 (t : num) : num :=
  (lit 335779526232 (-6) +
   (t * (lit 17395272628478 (-4) +
    t * (- lit 127512 (-4) +
     t * (- lit 1037 (-6) +
      t * (lit 417 (-8))))) %% TURNAS)) * c_as2r A.

(** fundargs.rs:36-42 *)
Definition d03 (t : num) : num :=
  (lit 1072260703692 (-6) +
   (t * (lit 16029616012090 (-4) +
    t * (- lit 63706 (-4) +
     t * (lit 6593 (-6) +
      t * (- lit 3169 (-8))))) %% TURNAS)) * c_as2r A.

(** fundargs.rs:46-52 *)
Definition om03 (t : num) : num :=
  (lit 450160398036 (-6) +
   (t * (- lit 69628905431 (-4) +
    t * (lit 74722 (-4) +
     t * (lit 7702 (-6) +
      t * (- lit 5939 (-8))))) %% TURNAS)) * c_as2r A.

(** fundargs.rs:56-58 *)
Definition ve03 (t : num) : num :=
  (lit 3176146697 (-9) + lit 10213285546211 (-10) * t) %% c_two_pi A.

(** fundargs.rs:62-64 *)
Definition e03 (t : num) : num :=
  (lit 1753470314 (-9) + lit 6283075849991 (-10) * t) %% c_two_pi A.

(** fundargs.rs:67-69 *)
Definition pa03 (t : num) : num :=
  (lit 24381750 (-9) + lit 538691 (-11) * t) * t.

End Fundargs.
