(** * Model of crates/tofas/src/locator.rs *)

From Coq Require Import ZArith Bool List.
From Verif Require Import Outcome Arith M_Common M_Time M_Fundargs T_Cio.
Import ListNotations.
Open Scope Z_scope.
Open Scope outcome_scope.

Section Locator.
Context {A : arith}.
Local Notation num := (num A).
Local Notation dlit d := (lit A (fst d) (snd d)).
Local Open Scope num_scope.

(** locator.rs:208: Julian centuries since J2000.0 *)
Definition tt_centuries (d : TT A) : num := ((tt_1 d - DJ00) + tt_2 d) / DJC.

(** locator.rs:210-219 *)
Definition cio_args (t : num) : list num :=
  [l03 t; lp03 t; f03 t; d03 t; om03 t; ve03 t; e03 t; pa03 t].

(** locator.rs:228-231: the argument of one term, NFARG = 8 *)
Definition cio_arg (row : list Z) (fa : list num) : outcome num :=
  for_each (seq 0 8) (lit A 0 0) (fun a j =>
    k <- index row j;;
    f <- index fa j;;
    Val (a + of_int A k * f)).

(** locator.rs:224-233: all terms of one power k of t, added to s[k] *)
Definition cio_series (k : nat) (fa : list num) (sk : num) : outcome num :=
  ksk <- index KSS k;;
  ssk <- index SSS k;;
  for_each (rev (seq 0 (length ksk))) sk (fun s i =>
    row <- index ksk i;;
    a <- cio_arg row fa;;
    c <- index ssk i;;
    c0 <- index c 0;;
    c1 <- index c 1;;
    Val (s + (dlit c0 * nsin A a + dlit c1 * ncos A a))).

(** locator.rs:221-234: the six polynomial coefficients.  [s] is a copy of SP;
    the loop k in 0..5 updates s[0] .. s[4]. *)
Definition cio_coeffs (fa : list num) : outcome (list num) :=
  for_each (seq 0 5) (map (fun d => dlit d) SP) (fun s k =>
    sk <- index s k;;
    v <- cio_series k fa sk;;
    Val (firstn k s ++ v :: skipn (S k) s)).

(** locator.rs:207-237 [cio] *)
Definition cio (d : TT A) (x y : num) : outcome num :=
  let t := tt_centuries d in
  s <- cio_coeffs (cio_args t);;
  s0 <- index s 0;;
  s1 <- index s 1;;
  s2 <- index s 2;;
  s3 <- index s 3;;
  s4 <- index s 4;;
  s5 <- index s 5;;
  Val ((s0 + (s1 + (s2 + (s3 + (s4 + s5 * t) * t) * t) * t) * t) * c_as2r A
       - x * y / lit A 2 0).

End Locator.
