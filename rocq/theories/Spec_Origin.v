(** * Frames that do not turn about their third axis

    The rows of a frame are its axes.  A moving frame turns about its third axis at
    the rate at which the first axis moves towards the second.  The origin on the
    equator of the pole (the direction of the first axis) is non-rotating when that
    rate is zero (Guinot 1979; IERS Conventions 2010, section 5.4). *)

From Coq Require Import Reals.
From Verif Require Import Arith ArithR M_Common Spec_Matrix.
Open Scope R_scope.

(** [w] radians per unit of [t]. *)
Definition spins (F : R -> mat3 realA) (t w : R) : Prop :=
  exists d : idx -> R, (forall k, derivable_pt_lim (fun u => entry (F u) I0 k) t (d k)) /\
    w = d I0 * entry (F t) I1 I0 + d I1 * entry (F t) I1 I1 + d I2 * entry (F t) I1 I2.
