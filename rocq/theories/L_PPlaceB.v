(** * Proofs of C94 in binary64 *)

From Coq Require Import ZArith Reals Lra Lia Bool List Psatz.
From Flocq Require Import Core BinarySingleNaN.
From Verif Require Import Outcome Arith ArithR ArithF M_Common M_Calendar M_Time M_Ellipsoid M_Locator M_Frames M_Earth M_SunAngle Spec_Calendar Spec_Api Spec_Accuracy Spec_Matrix Spec_Sun Spec_SunAcc Spec_Almanac.
From Verif Require Import L_Pi L_PAlmanac L_PTropics L_PPlace.
From Verif Require L_PAccSun L_ArithF.
Open Scope R_scope.

(** The exact and the binary64 answer at a latitude of at least 25 degrees. *)
Lemma both_answers : forall lm, good_libm lm -> forall p g h m s lo la ht ds,
  usual_inputs g h m s lo la ht ds -> 25 <= Rabs (B2R la) <= 90 ->
  exists c r e q, sun_new (A := b64A lm) p (parF lm g h m s lo la ht) = Val c /\ sun_compute (A := b64A lm) c ds = Val r /\
  sun_new (A := realA) p (parR g h m s lo la ht) = Val e /\ sun_compute (A := realA) e (B2R ds) = Val q /\
  is_finite (sr_sza (A := b64A lm) r) = true /\ Rabs (B2R (sr_sza (A := b64A lm) r) - sr_sza (A := realA) q) <= 9.1 / 10 ^ 8.
Proof.
  intros lm G p g h m s lo la ht ds U Hl.
  assert (OI : forall X (a b : X), Val a = Val b -> a = b) by congruence.
  pose proof U as (Hg & Hy & _).
  assert (K : day_count mjd_epoch (of_date g) (L_Calendar.mjd (of_date g))).
  { pose proof (proj1 (L_PCalendar.accepted_spec _) Hg) as [V _]. apply L_Calendar.mjd_epoch_count. exact V. }
  set (k := L_Calendar.mjd (of_date g)) in *.
  destruct (L_PAccSun.C72_sun_accuracy_pf lm G p g h m s lo la ht ds U) as (c & r & e & q & E1 & E2 & E3 & E4 & _).
  exists c, r, e, q. split; [exact E1|]. split; [exact E2|]. split; [exact E3|]. split; [exact E4|].
  destruct (L_PAccSun.C72_zenith_angle_pf lm G p g h m s lo la ht ds U c r e q E1 E2 E3 E4) as [Z _].
  pose proof (usual_days _ _ _ _ _ _ _ _ k U K) as N.
  assert (Y : (year g <= 1465072)%Z) by lia.
  destruct (C88_tropics_pf p (parR g h m s lo la ht) e (B2R ds) k E3 Hg Y K N ltac:(apply Rabs_le_inv; exact (proj2 Hl))) as (x & X & T). rewrite E4 in X. apply OI in X. subst x.
  cbn [parR sp_position lat] in T. change (lat (A := realA) (MkG360 (A := realA) (B2R lo) (B2R la) (B2R ht))) with (B2R la) in T.
  set (a := sr_sza (A := realA) q) in *. clearbody a. pose proof PI_bounds as PB.
  destruct Z as [[F Z] _]; [unfold degrees in T; clear - T Hl PB; set (w := Rabs (B2R la)) in *; clearbody w; nra|].
  split; [exact F|exact Z].
Qed.

(** C94 in binary64: for the usual inputs at two places of latitude at least 25
    degrees, north or south, the two binary64 zenith angles are finite, differ by
    at most the angle between the verticals and add up to at least that angle,
    within 0.2 microradians. *)
Lemma C94_moving_b64_pf : forall lm, good_libm lm -> forall p g h m s lo la ht lo' la' ht' ds,
  usual_inputs g h m s lo la ht ds -> usual_inputs g h m s lo' la' ht' ds -> 25 <= Rabs (B2R la) <= 90 -> 25 <= Rabs (B2R la') <= 90 ->
  exists c r c' r', sun_new (A := b64A lm) p (parF lm g h m s lo la ht) = Val c /\ sun_compute (A := b64A lm) c ds = Val r /\
  sun_new (A := b64A lm) p (parF lm g h m s lo' la' ht') = Val c' /\ sun_compute (A := b64A lm) c' ds = Val r' /\
  is_finite (sr_sza (A := b64A lm) r) = true /\ is_finite (sr_sza (A := b64A lm) r') = true /\
  let moved := acos (sprod (zenith_of (MkG360 (A := realA) (B2R lo) (B2R la) (B2R ht))) (zenith_of (MkG360 (A := realA) (B2R lo') (B2R la') (B2R ht')))) in
  Rabs (B2R (sr_sza (A := b64A lm) r) - B2R (sr_sza (A := b64A lm) r')) <= moved + 2 / 10 ^ 7 /\
  moved <= B2R (sr_sza (A := b64A lm) r) + B2R (sr_sza (A := b64A lm) r') + 2 / 10 ^ 7.
Proof.
  intros lm G p g h m s lo la ht lo' la' ht' ds U U' Hl Hl'.
  assert (OI : forall X (a b : X), Val a = Val b -> a = b) by congruence.
  pose proof U as (Hg & Hy & _).
  assert (K : day_count mjd_epoch (of_date g) (L_Calendar.mjd (of_date g))).
  { pose proof (proj1 (L_PCalendar.accepted_spec _) Hg) as [V _]. apply L_Calendar.mjd_epoch_count. exact V. }
  set (k := L_Calendar.mjd (of_date g)) in *.
  destruct (both_answers lm G p g h m s lo la ht ds U Hl) as (c & r & e & q & E1 & E2 & E3 & E4 & F & Z).
  destruct (both_answers lm G p g h m s lo' la' ht' ds U' Hl') as (c' & r' & e' & q' & E1' & E2' & E3' & E4' & F' & Z').
  exists c, r, c', r'. split; [exact E1|]. split; [exact E2|]. split; [exact E1'|]. split; [exact E2'|]. split; [exact F|]. split; [exact F'|]. intros moved.
  pose proof (usual_days _ _ _ _ _ _ _ _ k U K) as N. assert (Y : (year g <= 1465072)%Z) by lia.
  destruct (C94_moving_pf p (parR g h m s lo la ht) (parR g h m s lo' la' ht') e e' k (B2R ds) E3 E3' eq_refl eq_refl Hg Y K N) as (x & x' & X & X' & L).
  rewrite E4 in X. apply OI in X. subst x. rewrite E4' in X'. apply OI in X'. subst x'.
  change (let moved0 := moved in Rabs (sr_sza (A := realA) q - sr_sza (A := realA) q') <= moved0 <= sr_sza (A := realA) q + sr_sza (A := realA) q') in L. cbv zeta in L.
  clearbody moved. set (a := sr_sza (A := realA) q) in *. set (a' := sr_sza (A := realA) q') in *. set (b := B2R (sr_sza (A := b64A lm) r)) in *. set (b' := B2R (sr_sza (A := b64A lm) r')) in *. clearbody a a' b b'.
  clear - Z Z' L. apply Rabs_le_inv in Z. apply Rabs_le_inv in Z'. destruct L as [L L']. apply Rabs_le_inv in L. split; [apply Rabs_le|]; lra.
Qed.

(** C94 in binary64, antipodes: at opposite latitudes and longitudes 180 degrees
    apart the two zenith angles add up to pi within 0.2 microradians. *)
Lemma C94_antipodes_b64_pf : forall lm, good_libm lm -> forall p g h m s lo la ht lo' la' ht' ds,
  usual_inputs g h m s lo la ht ds -> usual_inputs g h m s lo' la' ht' ds -> 25 <= Rabs (B2R la) <= 90 ->
  B2R la' = - B2R la -> B2R lo' = B2R lo + 180 ->
  exists c r c' r', sun_new (A := b64A lm) p (parF lm g h m s lo la ht) = Val c /\ sun_compute (A := b64A lm) c ds = Val r /\
  sun_new (A := b64A lm) p (parF lm g h m s lo' la' ht') = Val c' /\ sun_compute (A := b64A lm) c' ds = Val r' /\
  Rabs (B2R (sr_sza (A := b64A lm) r) + B2R (sr_sza (A := b64A lm) r') - PI) <= 2 / 10 ^ 7.
Proof.
  intros lm G p g h m s lo la ht lo' la' ht' ds U U' Hl Ela Elo.
  assert (OI : forall X (a b : X), Val a = Val b -> a = b) by congruence.
  pose proof U as (Hg & Hy & _). assert (Hl' : 25 <= Rabs (B2R la') <= 90) by (rewrite Ela, Rabs_Ropp; exact Hl).
  assert (K : day_count mjd_epoch (of_date g) (L_Calendar.mjd (of_date g))).
  { pose proof (proj1 (L_PCalendar.accepted_spec _) Hg) as [V _]. apply L_Calendar.mjd_epoch_count. exact V. }
  set (k := L_Calendar.mjd (of_date g)) in *.
  destruct (both_answers lm G p g h m s lo la ht ds U Hl) as (c & r & e & q & E1 & E2 & E3 & E4 & F & Z).
  destruct (both_answers lm G p g h m s lo' la' ht' ds U' Hl') as (c' & r' & e' & q' & E1' & E2' & E3' & E4' & F' & Z').
  exists c, r, c', r'. split; [exact E1|]. split; [exact E2|]. split; [exact E1'|]. split; [exact E2'|].
  pose proof (usual_days _ _ _ _ _ _ _ _ k U K) as N. assert (Y : (year g <= 1465072)%Z) by lia.
  destruct (C94_antipodes_pf p (parR g h m s lo la ht) (parR g h m s lo' la' ht') e e' k (B2R ds) E3 E3' eq_refl eq_refl Hg Y K N Ela Elo) as (x & x' & X & X' & L).
  rewrite E4 in X. apply OI in X. subst x. rewrite E4' in X'. apply OI in X'. subst x'.
  set (a := sr_sza (A := realA) q) in *. set (a' := sr_sza (A := realA) q') in *. set (b := B2R (sr_sza (A := b64A lm) r)) in *. set (b' := B2R (sr_sza (A := b64A lm) r')) in *. clearbody a a' b b'.
  clear - Z Z' L. apply Rabs_le_inv in Z. apply Rabs_le_inv in Z'. unfold degrees in L. apply Rabs_le. lra.
Qed.

(** C94 in binary64 at 45 degrees north and its antipodes at noon UT of 2000
    January 1. *)
Example C94_b64_example_pf : forall lm, good_libm lm -> forall p, exists c r c' r',
  sun_new (A := b64A lm) p (parF lm (MkDate 2000 1 1) 12 0 (Flit 0 0) (Flit 0 0) (Flit 45 0) (Flit 0 0)) = Val c /\ sun_compute (A := b64A lm) c (Flit 0 0) = Val r /\
  sun_new (A := b64A lm) p (parF lm (MkDate 2000 1 1) 12 0 (Flit 0 0) (Flit 180 0) (Flit (-45) 0) (Flit 0 0)) = Val c' /\ sun_compute (A := b64A lm) c' (Flit 0 0) = Val r' /\
  Rabs (B2R (sr_sza (A := b64A lm) r) + B2R (sr_sza (A := b64A lm) r') - PI) <= 2 / 10 ^ 7.
Proof.
  intros lm G p. destruct L_ArithF.lit_0 as [E0 F0].
  assert (E45 : B2R (Flit 45 0) = 45 /\ is_finite (Flit 45 0) = true) by L_ArithF.flit_prove. destruct E45 as [E45 F45].
  assert (M45 : B2R (Flit (-45) 0) = -45 /\ is_finite (Flit (-45) 0) = true) by L_ArithF.flit_prove. destruct M45 as [M45 G45].
  assert (E180 : B2R (Flit 180 0) = 180 /\ is_finite (Flit 180 0) = true) by L_ArithF.flit_prove. destruct E180 as [E180 F180].
  apply (C94_antipodes_b64_pf lm G p).
  1,2: unfold usual_inputs; cbn [year]; rewrite ?E0, ?E45, ?M45, ?E180; repeat match goal with |- _ /\ _ => split end; try assumption; try lia; try lra; try (apply Rabs_le; lra); reflexivity.
  - rewrite E45, Rabs_pos_eq; lra.
  - rewrite E45, M45. reflexivity.
  - rewrite E0, E180. lra.
Qed.
