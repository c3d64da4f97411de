(** * Reference values of nutation, locator and rotation matrices: lemmas for C106 *)

From Coq Require Import ZArith Reals Lra Lia Bool List.
From Flocq Require Import Core BinarySingleNaN.
From Verif Require Import Outcome Arith ArithR ArithF Spec_Float Spec_Accuracy M_Common M_Time M_Earth M_Locator M_Frames Spec_Matrix Spec_Frames Spec_Series Spec_C2t Spec_RefFrames.
From Verif Require Import L_ArithF L_ArithR L_Flit L_Pi L_CalcLibm L_RefFrames L_PSeries L_PAccuracy L_PAccC2t.
Import ListNotations.
Open Scope R_scope.

Lemma near_tri : forall x y a e f g n t, near x a e -> close y n t = true -> near y a f -> IZR t / 10 ^ 30 + e + f <= g ->
  near x (IZR n / 10 ^ 30) g.
Proof.
  intros x y a e f g n t [F H] C [_ H'] L. split; [exact F|]. destruct (close_ok y n t C) as [_ K].
  replace (B2R x - IZR n / 10 ^ 30) with ((B2R x - a) - (B2R y - a) + (B2R y - IZR n / 10 ^ 30)) by ring.
  set (p := B2R x - a) in *. set (q := B2R y - a) in *. set (r := B2R y - IZR n / 10 ^ 30) in *. clearbody p q r.
  apply Rabs_le_inv in H, H', K. apply Rabs_le. lra.
Qed.

Lemma ref_ab : fin (Flit 24000005 (-1)) = true /\ B2R (Flit 24000005 (-1)) = 2400000.5 /\ fin (Flit 53736 0) = true /\ B2R (Flit 53736 0) = 53736.
Proof. destruct mjd0_ok as [Fa Va]. destruct (int_ok 53736 eq_refl) as [Fb Vb]. tauto. Qed.

Definition refR : TT realA := MkTT (A := realA) 2400000.5 53736.
Definition refU : UT1 realA := MkUT1 (A := realA) 2400000.5 53736.

Lemma ref_HB : Rabs (B2R (Flit 53736 0)) <= 100000.
Proof. destruct ref_ab as (_ & _ & _ & V). rewrite V. apply Rabs_le; lra. Qed.
Lemma xy_fin : fin ref_x = true /\ fin ref_y = true /\ Rabs (B2R ref_x) <= 1 /\ Rabs (B2R ref_y) <= 1 /\ fin ref_xp = true /\ fin ref_yp = true.
Proof.
  assert (X : close ref_x 579130848670601100000000000 1000000000000000 = true) by (vm_compute; reflexivity).
  assert (Y : close ref_y 40205798167329612190000000 1000000000000000 = true) by (vm_compute; reflexivity).
  destruct (close_ok _ _ _ X) as [F1 H1]. destruct (close_ok _ _ _ Y) as [F2 H2]. apply Rabs_le_inv in H1, H2.
  split; [exact F1|]. split; [exact F2|]. split; [apply Rabs_le; lra|]. split; [apply Rabs_le; lra|]. split; vm_compute; reflexivity.
Qed.

Lemma nut_lm : forall lm, good_libm lm -> exists dpsi deps : b64, nutation (A := b64A lm) (ref_d lm) = Val (dpsi, deps) /\
  near dpsi (nut_dpsi (centuries refR)) (6.7 / 10 ^ 16) /\ near deps (nut_deps (centuries refR)) (2.9 / 10 ^ 16).
Proof.
  intros lm G. destruct ref_ab as (Fa & Va & Fb & Vb). pose proof (C65_nutation_accuracy_mjd_pf lm G _ _ Fa Fb Va ref_HB) as H.
  cbv zeta in H. rewrite Va, Vb in H. exact H.
Qed.
Lemma cio_lm : forall lm, good_libm lm -> exists s : b64, cio (A := b64A lm) (ref_d lm) ref_x ref_y = Val s /\
  near s (cio_sxy2 (centuries refR) - B2R ref_x * B2R ref_y / 2) (1.7 / 10 ^ 16).
Proof.
  intros lm G. destruct ref_ab as (Fa & Va & Fb & Vb). destruct xy_fin as (Fx & Fy & Hx & Hy & _).
  pose proof (C66_cio_accuracy_mjd_pf lm G _ _ _ _ Fa Fb Fx Fy Va ref_HB Hx Hy) as H. rewrite Va, Vb in H. exact H.
Qed.
Lemma c2i_lm : forall lm, good_libm lm -> exists q, celestial_to_intermediate (A := b64A lm) (ref_d lm) = Val q /\
  forall i j, near (mget (A := b64A lm) q i j) (entry (C2I (centuries refR)) i j) (2 / 10 ^ 13).
Proof.
  intros lm G. destruct ref_ab as (Fa & Va & Fb & Vb). pose proof (proj1 (C69_terrestrial_accuracy_mjd_pf lm G _ _ Fa Fb Va ref_HB)) as H.
  rewrite Va, Vb in H. exact H.
Qed.
Lemma c2t_lm : forall lm, good_libm lm -> exists m, celestial_to_terrestrial (A := b64A lm) (ref_d lm) (ref_u lm) ref_xp ref_yp = Val m /\
  forall i j, near (mget (A := b64A lm) m i j) (entry (C2T (centuries refR) (era_of refU) (B2R ref_xp) (B2R ref_yp)) i j) (1.45 / 10 ^ 11).
Proof.
  intros lm G. destruct ref_ab as (Fa & Va & Fb & Vb). destruct xy_fin as (_ & _ & _ & _ & Fx & Fy).
  pose proof (proj2 (C69_terrestrial_accuracy_mjd_pf lm G _ _ Fa Fb Va ref_HB) _ _ _ _ Fa Fb Fx Fy Va ref_HB) as H.
  rewrite Va, Vb in H. exact H.
Qed.

(** The program run with the computable libm, against the published values. *)
Lemma calc_run :
  (exists dpsi deps : b64, nutation (A := CA) (ref_d calc_libm) = Val (dpsi, deps) /\ ok_nut dpsi deps = true) /\
  (exists q, celestial_to_intermediate (A := CA) (ref_d calc_libm) = Val q /\ ok_mat z_c2i 200000000000000 q = true) /\
  (exists m, celestial_to_terrestrial (A := CA) (ref_d calc_libm) (ref_u calc_libm) ref_xp ref_yp = Val m /\ ok_mat z_c2t 10000000000000000 m = true).
Proof. exact (chain_ok (A := CA) _ _ _ _ _ _ _ run_chain). Qed.

Lemma exact_of : forall y a f g n t, close y n t = true -> near y a f -> IZR t / 10 ^ 30 + f <= g -> Rabs (a - IZR n / 10 ^ 30) <= g.
Proof.
  intros y a f g n t C [_ H] L. destruct (close_ok y n t C) as [_ K]. replace (a - IZR n / 10 ^ 30) with (- (B2R y - a) + (B2R y - IZR n / 10 ^ 30)) by ring.
  eapply Rle_trans; [apply Rabs_triang|]. rewrite Rabs_Ropp. lra.
Qed.

Lemma z_dpsi : IZR (-9632552291148362783000000) / 10 ^ 30 = ref_dpsi. Proof. unfold ref_dpsi. lra. Qed.
Lemma z_deps : IZR 40631971066211593670000000 / 10 ^ 30 = ref_deps. Proof. unfold ref_deps. lra. Qed.
Lemma z_s : IZR (-12200362632709056930000) / 10 ^ 30 = ref_s. Proof. unfold ref_s. lra. Qed.

(** In exact arithmetic the program gives the published values of the IAU SOFA tests
    at TT = UT1 = 2400000.5 + 53736: the nutation angles to 6.8e-16 and 3e-16 rad, the
    locator to 1.8e-16 rad, the two rotation matrices to 2.1e-13 and 1.46e-11. *)
Lemma C106_exact_pf :
  let d := MkTT (A := realA) 2400000.5 53736 in let u := MkUT1 (A := realA) 2400000.5 53736 in
  (exists dpsi deps, nutation (A := realA) d = Val (dpsi, deps) /\ Rabs (dpsi - ref_dpsi) <= 6.8 / 10 ^ 16 /\ Rabs (deps - ref_deps) <= 3 / 10 ^ 16) /\
  (exists s, cio (A := realA) d (B2R ref_x) (B2R ref_y) = Val s /\ Rabs (s - ref_s) <= 1.8 / 10 ^ 16) /\
  (exists q, celestial_to_intermediate (A := realA) d = Val q /\ forall i j, Rabs (entry q i j - ref_c2i i j) <= 2.1 / 10 ^ 13) /\
  (exists m, celestial_to_terrestrial (A := realA) d u (B2R ref_xp) (B2R ref_yp) = Val m /\ forall i j, Rabs (entry m i j - ref_c2t i j) <= 1.46 / 10 ^ 11).
Proof.
  intros d u. fold refR in d. fold refU in u. destruct calc_run as ((dp & de & E1 & K1) & (q & E2 & K2) & (m & E3 & K3)).
  assert (CB : Rabs (centuries refR) <= 50) by (unfold centuries, refR; cbn [tt_1 tt_2]; apply Rabs_le; lra).
  destruct (C69_exact_pf refR CB) as [X2 X3].
  split; [|split; [|split]].
  - exists (nut_dpsi (centuries refR)), (nut_deps (centuries refR)). split; [exact (C60_nutation_series_pf refR)|].
    destruct (nut_lm calc_libm calc_good) as (a & b & E & Ha & Hb). rewrite E1 in E. injection E as <- <-.
    unfold ok_nut in K1. apply andb_prop in K1. destruct K1 as [Ka Kb]. rewrite <- z_dpsi, <- z_deps.
    split; [eapply (exact_of dp); [exact Ka|exact Ha|lra]|eapply (exact_of de); [exact Kb|exact Hb|lra]].
  - exists (cio_sxy2 (centuries refR) - B2R ref_x * B2R ref_y / 2). split; [exact (C61_cio_series_pf refR _ _)|].
    destruct (cio_lm calc_libm calc_good) as (s & E & Hs). pose proof run_cio as K. rewrite E in K. unfold ok_cio in K. rewrite <- z_s.
    eapply (exact_of s); [exact K|exact Hs|lra].
  - exists (C2I (centuries refR)). split; [exact X2|]. intros i j. destruct (c2i_lm calc_libm calc_good) as (q' & E & H). rewrite E2 in E. injection E as <-.
    rewrite <- z_c2i_ok. eapply exact_of; [exact (ok_mat_ok _ _ _ K2 i j)|exact (H i j)|lra].
  - exists (C2T (centuries refR) (era_of refU) (B2R ref_xp) (B2R ref_yp)). split; [exact (X3 refU _ _)|]. intros i j.
    destruct (c2t_lm calc_libm calc_good) as (m' & E & H). rewrite E3 in E. injection E as <-.
    rewrite <- z_c2t_ok. eapply exact_of; [exact (ok_mat_ok _ _ _ K3 i j)|exact (H i j)|lra].
Qed.

(** The binary64 program gives the published values with every good libm: the nutation
    angles to 1.4e-15 and 6e-16 rad, the locator to 3.5e-16 rad, the two matrices to
    4.1e-13 and 3e-11. *)
Lemma C106_b64_pf : forall lm, good_libm lm ->
  let d := MkTT (A := b64A lm) (Flit 24000005 (-1)) (Flit 53736 0) in let u := MkUT1 (A := b64A lm) (Flit 24000005 (-1)) (Flit 53736 0) in
  (exists dpsi deps : b64, nutation (A := b64A lm) d = Val (dpsi, deps) /\ near dpsi ref_dpsi (1.4 / 10 ^ 15) /\ near deps ref_deps (6 / 10 ^ 16)) /\
  (exists s : b64, cio (A := b64A lm) d ref_x ref_y = Val s /\ near s ref_s (3.5 / 10 ^ 16)) /\
  (exists q, celestial_to_intermediate (A := b64A lm) d = Val q /\ forall i j, near (mget (A := b64A lm) q i j) (ref_c2i i j) (4.1 / 10 ^ 13)) /\
  (exists m, celestial_to_terrestrial (A := b64A lm) d u ref_xp ref_yp = Val m /\ forall i j, near (mget (A := b64A lm) m i j) (ref_c2t i j) (3 / 10 ^ 11)).
Proof.
  intros lm G d u. fold (ref_d lm) in d. fold (ref_u lm) in u. destruct calc_run as ((dp & de & E1 & K1) & (q & E2 & K2) & (m & E3 & K3)).
  split; [|split; [|split]].
  - destruct (nut_lm lm G) as (x & y & X & Hx & Hy). exists x, y. split; [exact X|].
    destruct (nut_lm calc_libm calc_good) as (a & b & E & Ha & Hb). rewrite E1 in E. injection E as <- <-.
    unfold ok_nut in K1. apply andb_prop in K1. destruct K1 as [Ka Kb]. rewrite <- z_dpsi, <- z_deps.
    split; [eapply (near_tri _ dp); [exact Hx|exact Ka|exact Ha|lra]|eapply (near_tri _ de); [exact Hy|exact Kb|exact Hb|lra]].
  - destruct (cio_lm lm G) as (x & X & Hx). exists x. split; [exact X|].
    destruct (cio_lm calc_libm calc_good) as (s & E & Hs). pose proof run_cio as K. rewrite E in K. unfold ok_cio in K. rewrite <- z_s.
    eapply (near_tri _ s); [exact Hx|exact K|exact Hs|lra].
  - destruct (c2i_lm lm G) as (x & X & Hx). exists x. split; [exact X|]. intros i j.
    destruct (c2i_lm calc_libm calc_good) as (q' & E & H). rewrite E2 in E. injection E as <-.
    rewrite <- z_c2i_ok. eapply near_tri; [exact (Hx i j)|exact (ok_mat_ok _ _ _ K2 i j)|exact (H i j)|lra].
  - destruct (c2t_lm lm G) as (x & X & Hx). exists x. split; [exact X|]. intros i j.
    destruct (c2t_lm calc_libm calc_good) as (m' & E & H). rewrite E3 in E. injection E as <-.
    rewrite <- z_c2t_ok. eapply near_tri; [exact (Hx i j)|exact (ok_mat_ok _ _ _ K3 i j)|exact (H i j)|lra].
Qed.

(** Nutation at the reference date in exact arithmetic is -1.98686 arcseconds in
    longitude and 8.38095 arcseconds in obliquity, to 10 microarcseconds. *)
Example C106_example_pf : exists dpsi deps, nutation (A := realA) (MkTT (A := realA) 2400000.5 53736) = Val (dpsi, deps) /\
  Rabs (dpsi + 1.98686 * (PI / 648000)) <= 0.00001 * (PI / 648000) /\ Rabs (deps - 8.38095 * (PI / 648000)) <= 0.00001 * (PI / 648000).
Proof.
  destruct C106_exact_pf as [(a & b & E & Ha & Hb) _]. exists a, b. split; [exact E|]. change (num realA) with R in *.
  unfold ref_dpsi, ref_deps in *. pose proof PI_bounds as P. apply Rabs_le_inv in Ha, Hb. split; apply Rabs_le; lra.
Qed.
