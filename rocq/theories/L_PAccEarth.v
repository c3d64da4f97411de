(** * Accuracy of the binary64 position and velocity of the Earth: lemmas for the properties *)

From Coq Require Import ZArith Reals Lra Lia Bool List.
From Flocq Require Import Core BinarySingleNaN.
From Verif Require Import Outcome Arith ArithR ArithF Spec_Float Spec_Accuracy M_Common M_Time M_Earth Spec_Matrix Spec_Frames Spec_Series.
From Verif Require Import L_ArithF L_ArithR L_Apx L_ApxMod L_ApxAngle L_ApxNut L_ApxEpv L_PAccuracy.
Import ListNotations.
Open Scope R_scope.

(** For every split of every date within 100 Julian years of J2000 with parts up to
    2^22 days, the binary64 positions are within 7.7e-11 AU (11.5 m) of the series,
    and the velocities within 1.4e-12 AU per day of its derivative. *)
Lemma C67_earth_accuracy_pf : forall lm, good_libm lm -> forall a b : b64, fin a = true -> fin b = true ->
  Rabs (B2R a) <= 4194304 -> Rabs (B2R b) <= 4194304 ->
  let t x := years (MkTDB (A := realA) x (B2R b)) in
  Rabs (t (B2R a)) <= 100 ->
  exists r, earth_pos_vel (A := b64A lm) (MkTDB (A := b64A lm) a b) = Val r /\
  forall i,
  near (vget (A := b64A lm) (pv_p (A := b64A lm) (heliocentric (A := b64A lm) r)) i) (icrf (fun k => helio_ecl k (t (B2R a))) i) (7.7 / 10 ^ 11) /\
  near (vget (A := b64A lm) (pv_p (A := b64A lm) (barycentric (A := b64A lm) r)) i) (icrf (fun k => bary_ecl k (t (B2R a))) i) (7.7 / 10 ^ 11) /\
  (exists v, derivable_pt_lim (fun x => icrf (fun k => helio_ecl k (t x)) i) (B2R a) v /\
     near (vget (A := b64A lm) (pv_v (A := b64A lm) (heliocentric (A := b64A lm) r)) i) v (1.4 / 10 ^ 12)) /\
  (exists v, derivable_pt_lim (fun x => icrf (fun k => bary_ecl k (t x)) i) (B2R a) v /\
     near (vget (A := b64A lm) (pv_v (A := b64A lm) (barycentric (A := b64A lm) r)) i) v (1.4 / 10 ^ 12)).
Proof.
  intros lm G a b Fa Fb Ha Hb t Y. apply Rabs_le_inv in Ha, Hb.
  pose proof (apx_var a (-4194304) 4194304 Fa Ha) as Xa. pose proof (apx_var b (-4194304) 4194304 Fb Hb) as Xb.
  set (P := B (-2 * one) (2 * one) (77 * one / 1000000000000)). set (V := B (-2 * one) (2 * one) (14 * one / 10000000000000)).
  destruct (epv_chk lm G a b _ _ _ _ P V P V Xa Xb Y) as (r & E & H).
  { unfold P, V. vm_cast_no_check (@eq_refl bool true). }
  exists r. split; [exact E|]. intros i. destruct (H i) as (H1 & H2 & (v1 & D1 & H3) & (v2 & D2 & H4)).
  replace (7.7 / 10 ^ 11) with (77 / 1000000000000) by lra. replace (1.4 / 10 ^ 12) with (14 / 10000000000000) by lra.
  assert (NP : forall x y, apx x y P -> near x y (77 / 1000000000000))
    by (intros; eapply near_of_apx; try eassumption; vm_compute; reflexivity).
  assert (NV : forall x y, apx x y V -> near x y (14 / 10000000000000))
    by (intros; eapply near_of_apx; try eassumption; vm_compute; reflexivity).
  split; [exact (NP _ _ H1)|]. split; [exact (NP _ _ H2)|].
  split; [exact (ex_intro _ v1 (conj D1 (NV _ _ H3)))|exact (ex_intro _ v2 (conj D2 (NV _ _ H4)))].
Qed.

(** With the date split as a modified Julian date the errors are below 1.3e-12 AU
    (20 cm) and 2.3e-14 AU per day (0.04 micrometres per second). *)
Lemma C67_earth_accuracy_mjd_pf : forall lm, good_libm lm -> forall a b : b64, fin a = true -> fin b = true ->
  B2R a = 2400000.5 ->
  let t x := years (MkTDB (A := realA) x (B2R b)) in
  Rabs (t (B2R a)) <= 100 ->
  exists r, earth_pos_vel (A := b64A lm) (MkTDB (A := b64A lm) a b) = Val r /\
  forall i,
  near (vget (A := b64A lm) (pv_p (A := b64A lm) (heliocentric (A := b64A lm) r)) i) (icrf (fun k => helio_ecl k (t (B2R a))) i) (1.3 / 10 ^ 12) /\
  near (vget (A := b64A lm) (pv_p (A := b64A lm) (barycentric (A := b64A lm) r)) i) (icrf (fun k => bary_ecl k (t (B2R a))) i) (1.3 / 10 ^ 12) /\
  (exists v, derivable_pt_lim (fun x => icrf (fun k => helio_ecl k (t x)) i) (B2R a) v /\
     near (vget (A := b64A lm) (pv_v (A := b64A lm) (heliocentric (A := b64A lm) r)) i) v (2.3 / 10 ^ 14)) /\
  (exists v, derivable_pt_lim (fun x => icrf (fun k => bary_ecl k (t x)) i) (B2R a) v /\
     near (vget (A := b64A lm) (pv_v (A := b64A lm) (barycentric (A := b64A lm) r)) i) v (2.3 / 10 ^ 14)).
Proof.
  intros lm G a b Fa Fb Ha t Y.
  assert (Hb : -100000 <= B2R b <= 100000).
  { apply Rabs_le_inv in Y. unfold t, years in Y. cbn [tdb_1 tdb_2] in Y. rewrite Ha in Y. lra. }
  pose proof (apx_mjd0 a Fa Ha) as Xa. pose proof (apx_var b (-100000) 100000 Fb Hb) as Xb.
  set (P := B (-2 * one) (2 * one) (13 * one / 10000000000000)). set (V := B (-2 * one) (2 * one) (23 * one / 1000000000000000)).
  destruct (epv_chk lm G a b _ _ _ _ P V P V Xa Xb Y) as (r & E & H).
  { unfold P, V. vm_cast_no_check (@eq_refl bool true). }
  exists r. split; [exact E|]. intros i. destruct (H i) as (H1 & H2 & (v1 & D1 & H3) & (v2 & D2 & H4)).
  replace (1.3 / 10 ^ 12) with (13 / 10000000000000) by lra. replace (2.3 / 10 ^ 14) with (23 / 1000000000000000) by lra.
  assert (NP : forall x y, apx x y P -> near x y (13 / 10000000000000))
    by (intros; eapply near_of_apx; try eassumption; vm_compute; reflexivity).
  assert (NV : forall x y, apx x y V -> near x y (23 / 1000000000000000))
    by (intros; eapply near_of_apx; try eassumption; vm_compute; reflexivity).
  split; [exact (NP _ _ H1)|]. split; [exact (NP _ _ H2)|].
  split; [exact (ex_intro _ v1 (conj D1 (NV _ _ H3)))|exact (ex_intro _ v2 (conj D2 (NV _ _ H4)))].
Qed.

(** C67 at TDB 2400000.5 + 53411.52501161 (the date of the IAU SOFA test) rounded to a
    whole day: the heliocentric x coordinate. *)
Example C67_example_pf : forall lm, good_libm lm -> exists r,
  earth_pos_vel (A := b64A lm) (MkTDB (A := b64A lm) (Flit 24000005 (-1)) (Flit 53411 0)) = Val r /\
  near (vget (A := b64A lm) (pv_p (A := b64A lm) (heliocentric (A := b64A lm) r)) I0)
    (icrf (fun k => helio_ecl k (1866.5 / 365.25)) I0) (1.3 / 10 ^ 12).
Proof.
  intros lm G. destruct mjd0_ok as [Fa Va]. destruct (int_ok 53411 eq_refl) as [Fb Vb].
  assert (Y : years (MkTDB (A := realA) (B2R (Flit 24000005 (-1))) (B2R (Flit 53411 0))) = 1866.5 / 365.25).
  { rewrite Va, Vb. unfold years. cbn [tdb_1 tdb_2]. lra. }
  destruct (C67_earth_accuracy_mjd_pf lm G _ _ Fa Fb Va) as (r & E & H).
  { cbv beta. rewrite Y. apply Rabs_le. lra. }
  exists r. split; [exact E|]. destruct (H I0) as (H1 & _). cbv beta in H1. rewrite Y in H1. exact H1.
Qed.
