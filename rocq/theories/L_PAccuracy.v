(** * Accuracy of the binary64 program: lemmas for the properties *)

From Coq Require Import ZArith Reals Lra Lia Bool List.
From Flocq Require Import Core BinarySingleNaN.
From Verif Require Import Outcome Arith ArithR ArithF Spec_Float Spec_Accuracy M_Common M_Time M_Earth M_Locator M_Frames Spec_Matrix Spec_Frames Spec_Series.
From Verif Require Import L_ArithF L_ArithR L_FromJulianF L_Flit L_Apx L_ApxMod L_ApxAngle L_ApxNut L_ApxCio L_Libm.
Import ListNotations.
Open Scope R_scope.

Lemma near_of_apx : forall x r b m d, apx x r b -> (0 <? d)%Z = true -> (er b * d <=? m * one)%Z = true ->
  near x r (IZR m / IZR d).
Proof. intros x r b m d H D E. split; [apply H|]. apply (apx_err _ _ _ _ _ H D E). Qed.
Lemma near_angle_of_apxm : forall x r b m d, apxm x r b -> (0 <? d)%Z = true -> (er b * d <=? m * one)%Z = true ->
  near_angle x r (IZR m / IZR d).
Proof. intros x r b m d (k & H) D E. split; [apply H|]. exists k. apply (apx_err _ _ _ _ _ H D E). Qed.

(** The literals for pi, for a turn and for an arc second are within one unit in
    the last place of the true values. *)
Lemma C64_constants_pf : forall lm,
  near (c_pi (b64A lm)) PI (3.5 / 10 ^ 16) /\
  near (c_two_pi (b64A lm)) (2 * PI) (7 / 10 ^ 16) /\
  near (c_as2r (b64A lm)) (PI / 648000) (5.4 / 10 ^ 22).
Proof.
  intros lm. b64A_ops. split; [|split].
  - replace (3.5 / 10 ^ 16) with (35 / 100000000000000000) by lra. apply (near_of_apx _ _ _ _ _ apx_pi); vm_compute; reflexivity.
  - replace (7 / 10 ^ 16) with (7 / 10000000000000000) by lra. apply (near_of_apx _ _ _ _ _ apx_two_pi); vm_compute; reflexivity.
  - replace (5.4 / 10 ^ 22) with (54 / 100000000000000000000000) by lra. apply (near_of_apx _ _ _ _ _ apx_as2r); vm_compute; reflexivity.
Qed.

(** A libm of the accuracy assumed below exists, so theorems under that assumption
    are not empty. *)
Lemma C64_libm_exists_pf : exists lm, good_libm lm.
Proof. exists nice_libm. exact nice_good. Qed.

(** The Earth rotation angle of any two-part date is within 1.6e-10 rad (33
    micro-arcseconds) of the exact one, whatever the split of the date. *)
Lemma C64_era_accuracy_pf : forall lm (a b : b64), fin a = true -> fin b = true ->
  Rabs (B2R a) <= 4194304 -> Rabs (B2R b) <= 4194304 ->
  near_angle (rotation_angle (A := b64A lm) (MkUT1 (A := b64A lm) a b))
    (era_of (MkUT1 (A := realA) (B2R a) (B2R b))) (1.6 / 10 ^ 10).
Proof.
  intros lm a b Fa Fb Ha Hb. apply Rabs_le_inv in Ha, Hb.
  change (rotation_angle (A := b64A lm) (MkUT1 (A := b64A lm) a b)) with (rotation_angle (A := b64A nice_libm) (MkUT1 (A := b64A nice_libm) a b)).
  pose proof (apx_var a (-4194304) 4194304 Fa Ha) as Xa. pose proof (apx_var b (-4194304) 4194304 Fb Hb) as Xb.
  replace (1.6 / 10 ^ 10) with (16 / 100000000000) by lra.
  eapply near_angle_of_apxm; [refine (apxm_era_chk nice_libm nice_good a b _ _ _ _ (B (-10 * one) (20 * one) (16 * one / 100000000000)) Xa Xb _)|..];
   vm_compute; reflexivity.
Qed.

(** With the date split as a modified Julian date, the error is below 7e-12 rad
    (1.5 micro-arcseconds). *)
Lemma C64_era_accuracy_mjd_pf : forall lm (a b : b64), fin a = true -> fin b = true ->
  B2R a = 2400000.5 -> Rabs (B2R b) <= 100000 ->
  near_angle (rotation_angle (A := b64A lm) (MkUT1 (A := b64A lm) a b))
    (era_of (MkUT1 (A := realA) (B2R a) (B2R b))) (7 / 10 ^ 12).
Proof.
  intros lm a b Fa Fb Ha Hb. apply Rabs_le_inv in Hb.
  change (rotation_angle (A := b64A lm) (MkUT1 (A := b64A lm) a b)) with (rotation_angle (A := b64A nice_libm) (MkUT1 (A := b64A nice_libm) a b)).
  pose proof (apx_mjd0 a Fa Ha) as Xa. pose proof (apx_var b (-100000) 100000 Fb Hb) as Xb.
  replace (7 / 10 ^ 12) with (7 / 1000000000000) by lra.
  eapply near_angle_of_apxm; [refine (apxm_era_chk nice_libm nice_good a b _ _ _ _ (B (-10 * one) (20 * one) (7 * one / 1000000000000)) Xa Xb _)|..];
   vm_compute; reflexivity.
Qed.

(** C64 at the date of the test of the IAU SOFA routine (2400000.5, 54388): the
    program is within 2e-15 rad of the published value. *)
Example C64_example_pf : forall lm,
  near (rotation_angle (A := b64A lm) (MkUT1 (A := b64A lm) (Flit 24000005 (-1)) (Flit 54388 0)))
    0.4022837240028158102 (2 / 10 ^ 15).
Proof.
  intros lm. set (x := rotation_angle _).
  assert (E : B2SF x = SpecFloat.S754_finite false 7246899318065152 (-54)) by (vm_compute; reflexivity).
  assert (V : B2R x = 7246899318065152 / 18014398509481984).
  { destruct x as [s|s| |s m e H]; try discriminate E. cbn [B2SF] in E.
    assert (s = false /\ m = 7246899318065152%positive /\ e = (-54)%Z) as (-> & -> & ->) by (split; [|split]; congruence).
    unfold B2R, F2R. cbn [Fnum Fexp cond_Zopp]. change (bpow radix2 (-54)) with (/ 18014398509481984). lra. }
  split; [destruct x; try discriminate E; reflexivity|]. rewrite V. apply Rabs_le. lra.
Qed.

Lemma mjd0_ok : fin (Flit 24000005 (-1)) = true /\ B2R (Flit 24000005 (-1)) = 2400000.5.
Proof.
  set (x := Flit 24000005 (-1)).
  assert (E : B2SF x = SpecFloat.S754_finite false 5153961828941824 (-31)) by (vm_compute; reflexivity).
  split; [destruct x; try discriminate E; reflexivity|].
  destruct x as [s|s| |s m e H]; try discriminate E. cbn [B2SF] in E.
  assert (s = false /\ m = 5153961828941824%positive /\ e = (-31)%Z) as (-> & -> & ->) by (split; [|split]; congruence).
  unfold B2R, F2R. cbn [Fnum Fexp cond_Zopp]. change (bpow radix2 (-31)) with (/ 2147483648). lra.
Qed.
Lemma int_ok : forall z, (Z.abs z <=? 2 ^ 53)%Z = true -> fin (Flit z 0) = true /\ B2R (Flit z 0) = IZR z.
Proof.
  intros z H. apply Z.leb_le in H. destruct (FofZ_ok z H) as (V & F & _). cbn [Flit].
  change (10 ^ 0)%Z with 1%Z. rewrite Z.mul_1_r. split; assumption.
Qed.

(** The binary64 nutation never panics and is within 5.3e-14 rad (1.1e-8 arcseconds)
    in longitude and 2.5e-14 rad in obliquity of the IAU 2000B series, for every
    split of every date within 11 000 years of J2000. *)
Lemma C65_nutation_accuracy_pf : forall lm, good_libm lm -> forall a b : b64, fin a = true -> fin b = true ->
  Rabs (B2R a) <= 4194304 -> Rabs (B2R b) <= 4194304 ->
  let t := centuries (MkTT (A := realA) (B2R a) (B2R b)) in
  exists dpsi deps : b64, nutation (A := b64A lm) (MkTT (A := b64A lm) a b) = Val (dpsi, deps) /\
    near dpsi (nut_dpsi t) (5.3 / 10 ^ 14) /\ near deps (nut_deps t) (2.5 / 10 ^ 14).
Proof.
  intros lm G a b Fa Fb Ha Hb t. apply Rabs_le_inv in Ha, Hb.
  pose proof (apx_var a (-4194304) 4194304 Fa Ha) as Xa. pose proof (apx_var b (-4194304) 4194304 Fb Hb) as Xb.
  destruct (nut_chk lm G a b _ _ _ _ (B (- one) one (53 * one / 1000000000000000)) (B (- one) one (25 * one / 1000000000000000)) Xa Xb) as (x & y & E & Hx & Hy).
  { vm_compute. reflexivity. }
  exists x, y. split; [exact E|]. replace (5.3 / 10 ^ 14) with (53 / 1000000000000000) by lra.
  replace (2.5 / 10 ^ 14) with (25 / 1000000000000000) by lra.
  split; eapply near_of_apx; try eassumption; vm_compute; reflexivity.
Qed.

(** With the date split as a modified Julian date between 1585 and 2132 the errors
    are below 6.7e-16 and 2.9e-16 rad. *)
Lemma C65_nutation_accuracy_mjd_pf : forall lm, good_libm lm -> forall a b : b64, fin a = true -> fin b = true ->
  B2R a = 2400000.5 -> Rabs (B2R b) <= 100000 ->
  let t := centuries (MkTT (A := realA) (B2R a) (B2R b)) in
  exists dpsi deps : b64, nutation (A := b64A lm) (MkTT (A := b64A lm) a b) = Val (dpsi, deps) /\
    near dpsi (nut_dpsi t) (6.7 / 10 ^ 16) /\ near deps (nut_deps t) (2.9 / 10 ^ 16).
Proof.
  intros lm G a b Fa Fb Ha Hb t. apply Rabs_le_inv in Hb.
  pose proof (apx_mjd0 a Fa Ha) as Xa. pose proof (apx_var b (-100000) 100000 Fb Hb) as Xb.
  destruct (nut_chk lm G a b _ _ _ _ (B (- one) one (67 * one / 100000000000000000)) (B (- one) one (29 * one / 100000000000000000)) Xa Xb) as (x & y & E & Hx & Hy).
  { vm_compute. reflexivity. }
  exists x, y. split; [exact E|]. replace (6.7 / 10 ^ 16) with (67 / 100000000000000000) by lra.
  replace (2.9 / 10 ^ 16) with (29 / 100000000000000000) by lra.
  split; eapply near_of_apx; try eassumption; vm_compute; reflexivity.
Qed.

(** C65 at TT 2400000.5 + 53736 (1 January 2006), for every libm of that accuracy. *)
Example C65_example_pf : forall lm, good_libm lm -> exists dpsi deps : b64,
  nutation (A := b64A lm) (MkTT (A := b64A lm) (Flit 24000005 (-1)) (Flit 53736 0)) = Val (dpsi, deps) /\
  near dpsi (nut_dpsi (2191.5 / 36525)) (6.7 / 10 ^ 16) /\ near deps (nut_deps (2191.5 / 36525)) (2.9 / 10 ^ 16).
Proof.
  intros lm G. destruct mjd0_ok as [Fa Va]. destruct (int_ok 53736 eq_refl) as [Fb Vb].
  pose proof (C65_nutation_accuracy_mjd_pf lm G _ _ Fa Fb Va ltac:(rewrite Vb; apply Rabs_le; lra)) as H. cbv zeta in H.
  rewrite Va, Vb in H. replace (2191.5 / 36525) with (centuries (MkTT (A := realA) 2400000.5 53736)); [exact H|].
  unfold centuries. cbn [tt_1 tt_2]. lra.
Qed.

(** The binary64 CIO locator is within 2e-12 rad of the IAU 2000A series minus xy/2
    for every split of every date with parts up to 2^22 days. *)
Lemma C66_cio_accuracy_pf : forall lm, good_libm lm -> forall a b x y : b64,
  fin a = true -> fin b = true -> fin x = true -> fin y = true ->
  Rabs (B2R a) <= 4194304 -> Rabs (B2R b) <= 4194304 -> Rabs (B2R x) <= 1 -> Rabs (B2R y) <= 1 ->
  exists s : b64, cio (A := b64A lm) (MkTT (A := b64A lm) a b) x y = Val s /\
    near s (cio_sxy2 (centuries (MkTT (A := realA) (B2R a) (B2R b))) - B2R x * B2R y / 2) (2 / 10 ^ 12).
Proof.
  intros lm G a b x y Fa Fb Fx Fy Ha Hb Hx Hy. apply Rabs_le_inv in Ha, Hb, Hx, Hy.
  pose proof (apx_var a (-4194304) 4194304 Fa Ha) as Xa. pose proof (apx_var b (-4194304) 4194304 Fb Hb) as Xb.
  pose proof (apx_var x (-1) 1 Fx Hx) as Xx. pose proof (apx_var y (-1) 1 Fy Hy) as Xy.
  destruct (cio_chk lm G a b _ _ x y _ _ _ _ _ _ (B (- 1000 * one) (1000 * one) (2 * one / 1000000000000)) Xa Xb Xx Xy) as (s & E & Hs).
  { vm_compute. reflexivity. }
  exists s. split; [exact E|]. replace (2 / 10 ^ 12) with (2 / 1000000000000) by lra.
  eapply near_of_apx; try eassumption; vm_compute; reflexivity.
Qed.
(** With the date split as a modified Julian date between 1585 and 2132 the error
    is below 1.7e-16 rad. *)
Lemma C66_cio_accuracy_mjd_pf : forall lm, good_libm lm -> forall a b x y : b64,
  fin a = true -> fin b = true -> fin x = true -> fin y = true ->
  B2R a = 2400000.5 -> Rabs (B2R b) <= 100000 -> Rabs (B2R x) <= 1 -> Rabs (B2R y) <= 1 ->
  exists s : b64, cio (A := b64A lm) (MkTT (A := b64A lm) a b) x y = Val s /\
    near s (cio_sxy2 (centuries (MkTT (A := realA) (B2R a) (B2R b))) - B2R x * B2R y / 2) (1.7 / 10 ^ 16).
Proof.
  intros lm G a b x y Fa Fb Fx Fy Ha Hb Hx Hy. apply Rabs_le_inv in Hb, Hx, Hy.
  pose proof (apx_mjd0 a Fa Ha) as Xa. pose proof (apx_var b (-100000) 100000 Fb Hb) as Xb.
  pose proof (apx_var x (-1) 1 Fx Hx) as Xx. pose proof (apx_var y (-1) 1 Fy Hy) as Xy.
  destruct (cio_chk lm G a b _ _ x y _ _ _ _ _ _ (B (- 1000 * one) (1000 * one) (17 * one / 100000000000000000)) Xa Xb Xx Xy) as (s & E & Hs).
  { vm_compute. reflexivity. }
  exists s. split; [exact E|]. replace (1.7 / 10 ^ 16) with (17 / 100000000000000000) by lra.
  eapply near_of_apx; try eassumption; vm_compute; reflexivity.
Qed.

(** C66 at TT 2400000.5 + 53736 (1 January 2006) with the pole at the origin. *)
Example C66_example_pf : forall lm, good_libm lm -> exists s : b64,
  cio (A := b64A lm) (MkTT (A := b64A lm) (Flit 24000005 (-1)) (Flit 53736 0)) (Flit 0 0) (Flit 0 0) = Val s /\
  near s (cio_sxy2 (2191.5 / 36525)) (1.7 / 10 ^ 16).
Proof.
  intros lm G. destruct mjd0_ok as [Fa Va]. destruct (int_ok 53736 eq_refl) as [Fb Vb]. destruct (int_ok 0 eq_refl) as [Fz Vz].
  assert (Z1 : Rabs (B2R (Flit 0 0)) <= 1) by (rewrite Vz, Rabs_R0; lra).
  pose proof (C66_cio_accuracy_mjd_pf lm G _ _ _ _ Fa Fb Fz Fz Va ltac:(rewrite Vb; apply Rabs_le; lra) Z1 Z1) as H.
  rewrite Va, Vb, Vz in H. destruct H as (s & E & H). exists s. split; [exact E|].
  replace (cio_sxy2 (2191.5 / 36525)) with (cio_sxy2 (centuries (MkTT (A := realA) 2400000.5 53736)) - 0 * 0 / 2); [exact H|].
  replace (centuries (MkTT (A := realA) 2400000.5 53736)) with (2191.5 / 36525); [lra|].
  unfold centuries. cbn [tt_1 tt_2]. lra.
Qed.
