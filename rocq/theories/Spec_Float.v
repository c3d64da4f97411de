(** * Notations for statements about binary64 numbers *)

From Coq Require Import ZArith Reals.
From Flocq Require Import Core BinarySingleNaN.

(** Exponents of binary64 (with subnormals). *)
Notation fx := (FLT_exp (-1074) 53).
(** Nearest binary64 number, ties to even, as a real number (no overflow). *)
Notation rnd := (round radix2 fx ZnearestE).
(** The real number held by a finite binary64 value (0 for NaN and infinities). *)
Notation B2R := (@B2R 53 1024).
(** Finite: neither NaN nor an infinity. *)
Notation fin := (@is_finite 53 1024).
(** The real number is a binary64 number (no overflow). *)
Notation format := (generic_format radix2 fx).
