(** * Properties: Gravity

    Statements only; proofs are in L_PGravity.v. *)

From Coq Require Import ZArith Reals Lra Lia Bool List.
From Flocq Require Import Core.
From Verif Require Import Outcome Arith ArithR M_Common M_Time M_Earth T_Epv00 Spec_Matrix Spec_Frames Spec_Series Spec_Orbit Spec_Gravity.
Import ListNotations.
Open Scope R_scope.
From Verif Require L_PGravity.

(** C108.  The heliocentric velocity of the Earth has a derivative with respect
    to either part of the date, and within a century of J2000 that
    acceleration is the pull of the Sun to within 1.1 per cent, and the pull of
    the Sun plus that of the Moon to within half a per cent. *)
Theorem C108_newton : exists f : R -> R -> EarthPosVel realA,
  (forall a b, earth_pos_vel (A := realA) (MkTDB (A := realA) a b) = Val (f a b)) /\
  forall a b, Rabs (years (MkTDB (A := realA) a b)) <= 100 ->
  let hp i := coord (pv_p (A := realA) (heliocentric (A := realA) (f a b))) i in
  let hv a b i := coord (pv_v (A := realA) (heliocentric (A := realA) (f a b))) i in
  exists acc : idx -> R,
  (forall i, derivable_pt_lim (fun x => hv x b i) a (acc i) /\ derivable_pt_lim (fun x => hv a x i) b (acc i)) /\
  length3 (fun i => acc i - sun_pull hp i) <= 0.011 * length3 (sun_pull hp) /\
  length3 (fun i => acc i - (sun_pull hp i + moon_pull (years (MkTDB (A := realA) a b) / 100) i)) <= 0.005 * length3 (sun_pull hp).
Proof. exact L_PGravity.C108_newton_pf. Qed.
Print Assumptions C108_newton.

(** At one astronomical unit the Sun pulls by the square of the Gaussian
    constant, the Moon pulls by between 0.55 and 0.57 per cent of that, and
    at noon on 1 January 2000 the Earth accelerates by between 0.000282 and
    0.0003105 astronomical units per day per day. *)
Example C108_example :
  sun_pull (fun i => match i with I0 => 1 | _ => 0 end) I0 = - (gauss * gauss) /\
  sun_pull (fun i => match i with I1 => 2 | _ => 0 end) I1 = - (gauss * gauss) / 4 /\
  0.0055 * (gauss * gauss) <= moon_size <= 0.0057 * (gauss * gauss) /\
  exists f acc, (forall x, earth_pos_vel (A := realA) (MkTDB (A := realA) 2451545 x) = Val (f x)) /\
  (forall i, derivable_pt_lim (fun x => coord (pv_v (A := realA) (heliocentric (A := realA) (f x))) i) 0 (acc i)) /\
  0.000282 <= length3 acc <= 0.0003105.
Proof. exact L_PGravity.C108_example_pf. Qed.
