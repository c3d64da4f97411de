(** * Inputs of the Sun angle accuracy property *)

From Coq Require Import ZArith Reals.
From Flocq Require Import Core BinarySingleNaN.
From Verif Require Import Arith ArithR ArithF Spec_Float M_Common M_Calendar M_Ellipsoid M_SunAngle Spec_Api.
Open Scope R_scope.

(** A date from 1901 to 2098, a time of day, a place with longitude and latitude up to
    360 degrees and height up to 10000 km either way, and an offset of up to 360 days
    either way. *)
Definition usual_inputs (g : GregorianDate) (h m : Z) (s lo la ht ds : b64) : Prop :=
  accepted g /\ (1901 <= year g <= 2098)%Z /\ (0 <= h < 24)%Z /\ (0 <= m < 60)%Z /\
  fin s = true /\ 0 <= B2R s < 60 /\
  fin lo = true /\ Rabs (B2R lo) <= 360 /\ fin la = true /\ Rabs (B2R la) <= 360 /\
  fin ht = true /\ Rabs (B2R ht) <= 10000000 /\ fin ds = true /\ Rabs (B2R ds) <= 31104000.

(** The parameters in binary64, and the same numbers as reals. *)
Definition parF (lm : libm) (g : GregorianDate) (h m : Z) (s lo la ht : b64) : SunAngleParameters (b64A lm) :=
  MkSAP (A := b64A lm) g (MkHMS (A := b64A lm) h m s) (MkG360 (A := b64A lm) lo la ht).
Definition parR (g : GregorianDate) (h m : Z) (s lo la ht : b64) : SunAngleParameters realA :=
  MkSAP (A := realA) g (MkHMS (A := realA) h m (B2R s)) (MkG360 (A := realA) (B2R lo) (B2R la) (B2R ht)).
