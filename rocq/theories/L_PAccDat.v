(** * Accuracy of TAI - UTC in binary64: lemmas for the properties *)

From Coq Require Import ZArith Reals Lra Lia Bool List.
From Flocq Require Import Core BinarySingleNaN.
From Verif Require Import Outcome Arith ArithR ArithF Spec_Float Spec_Accuracy M_Calendar M_DeltaAt Spec_Calendar Spec_Api Spec_TaiUtc.
From Verif Require Import L_Calendar L_ArithR L_ArithF L_PCalendar L_DeltaAt L_PDeltaAt L_PSunAngle L_Apx L_ApxAngle L_ApxDat.
Import ListNotations.
Open Scope R_scope.

Lemma not_rejected_F : forall fd, fin fd = true -> 0 <= B2R fd <= 1 -> (Bltb fd (Flit 0 0)) || (Bltb (Flit 1 0) fd) = false.
Proof.
  intros fd F H. destruct lit_0 as [E0 F0]. destruct lit_1 as [E1 F1].
  rewrite (Bltb_correct 53 1024 fd _ F F0), (Bltb_correct 53 1024 _ fd F1 F), E0, E1.
  destruct (Rlt_bool_spec (B2R fd) 0), (Rlt_bool_spec 1 (B2R fd)); cbn [orb]; try reflexivity; lra.
Qed.

Lemma dat_input : forall lm p g fd, accepted g -> (1960 <= year g < 178956970)%Z -> fin fd = true -> 0 <= B2R fd <= 1 ->
  exists x y, delta_at (A := b64A lm) p g fd = Val (Ok (Some x)) /\
    delta_at (A := realA) p g (B2R fd) = Val (Ok (Some y)) /\ near x y (1.6 / 10 ^ 14).
Proof.
  intros lm p g fd Hg Hy F H.
  pose proof (apx_var fd 0 1 F H) as Hf.
  destruct (dat_ok lm p g fd (B2R fd) _ (B (-2 * one) (40 * one) (16 * one / 1000000000000000)) Hg (proj2 Hy) Hf) as (x & y & Ex & Ey & N & S);
    [vm_compute; reflexivity|apply not_rejected_F; assumption|exact H|].
  destruct x as [x|]; [|destruct N as [N _]; specialize (N eq_refl); lia].
  destruct y as [y|]; [|contradiction S]. cbn [same_dat] in S.
  exists x, y. split; [exact Ex|]. split; [exact Ey|]. split; [apply S|].
  replace (1.6 / 10 ^ 14) with (16 / 1000000000000000) by lra. apply (apx_err _ _ _ _ _ S); vm_compute; reflexivity.
Qed.

(** C71, binary64: the value returned is within 1.6e-14 s of the formula of the step in
    force one month earlier (in January 1960, of the first step). *)
Lemma C71_dat_accuracy_pf : forall lm p g fd, accepted g -> (1960 <= year g < 178956970)%Z ->
  fin fd = true -> 0 <= B2R fd <= 1 ->
  exists x s n, delta_at (A := b64A lm) p g fd = Val (Ok (Some x)) /\
    day_count mjd_epoch (of_date g) n /\
    (if (12 * year g + month g =? 12 * 1960 + 1)%Z then in_force s (of_date g)
     else in_force s (month_before (of_date g))) /\
    near x (tai_utc s n (B2R fd)) (1.6 / 10 ^ 14).
Proof.
  intros lm p g fd Hg Hy F H. destruct (dat_input lm p g fd Hg Hy F H) as (x & y & Ex & Ey & N).
  destruct (C21_delta_at_month_late_partial_pf p g (B2R fd) Hg Hy H) as (s & n & D & E & I).
  exists x, s, n. split; [exact Ex|]. split; [exact D|]. split; [exact I|].
  rewrite Ey in E. assert (EQ : y = tai_utc s n (B2R fd)) by congruence. rewrite <- EQ. exact N.
Qed.

(** C71, binary64: in a month in which no step takes effect it is within 1.6e-14 s of
    TAI - UTC. *)
Lemma C71_dat_in_force_partial_pf : forall lm p g fd, accepted g -> (1960 <= year g < 178956970)%Z ->
  fin fd = true -> 0 <= B2R fd <= 1 ->
  (forall s, In s steps -> (s_year s, s_month s) = (year g, month g) -> (s_year s, s_month s) = (1960, 1)%Z) ->
  exists x s n, delta_at (A := b64A lm) p g fd = Val (Ok (Some x)) /\
    in_force s (of_date g) /\ day_count mjd_epoch (of_date g) n /\
    near x (tai_utc s n (B2R fd)) (1.6 / 10 ^ 14).
Proof.
  intros lm p g fd Hg Hy F H NS. destruct (dat_input lm p g fd Hg Hy F H) as (x & y & Ex & Ey & N).
  destruct (C21_delta_at_in_force_partial_pf p g (B2R fd) Hg Hy H NS) as (s & n & I & D & E).
  exists x, s, n. split; [exact Ex|]. split; [exact I|]. split; [exact D|].
  rewrite Ey in E. assert (EQ : y = tai_utc s n (B2R fd)) by congruence. rewrite <- EQ. exact N.
Qed.

(** C71 on 1968 March 1 (MJD 39916) at 0h: within 1.6e-14 s of
    4.21317 + (39916 - 39126) 0.002592 = 6.26085 s. *)
Example C71_example_pf : forall lm p, exists x,
  delta_at (A := b64A lm) p (MkDate 1968 3 1) (Flit 0 0) = Val (Ok (Some x)) /\ near x 6.26085 (1.6 / 10 ^ 14).
Proof.
  intros lm p. destruct lit_0 as [V0 F0].
  destruct (dat_input lm p (MkDate 1968 3 1) (Flit 0 0) eq_refl) as (x & y & Ex & Ey & N); [cbn [year]; lia|exact F0|rewrite V0; lra|].
  exists x. split; [exact Ex|].
  destruct (delta_at_eval realA p (MkDate 1968 3 1) (B2R (Flit 0 0))) as (e & S & E); [rewrite V0; apply rejected_R; lra|cbn [year]; lia|cbn [month]; lia|].
  assert (Se : selected (MkDate 1968 3 1) (MkDat 1968 2 (421317, (-5)) (Some ((39126, 0), (2592, (-6)))))%Z).
  { split; [vm_compute; tauto|]. left. split; [reflexivity|].
    assert (T : forallb (fun e' => negb (key e' <? mkey (MkDate 1968 3 1))%Z || (key e' <=? 23618)%Z) DAT_DATA = true) by (vm_compute; reflexivity).
    rewrite forallb_forall in T. intros e' I L. specialize (T e' I). rewrite (proj2 (Z.ltb_lt _ _) L) in T. cbn [negb orb] in T. apply Z.leb_le, T. }
  pose proof (selected_unique _ _ _ S Se) as ->. cbn [d_drift d_dat fst snd] in E.
  rewrite to_mjd_accepted in E; [|reflexivity|cbn [year]; lia]. cbn [bind] in E. rewrite Ey in E. 
  assert (EQ : y = 6.26085).
  { assert (OI : forall a b : R, @Val (result (option R) DeltaAtError) (Ok (Some a)) = Val (Ok (Some b)) -> a = b) by (intros; congruence).
    apply OI in E. rewrite E, V0. change (mjd (of_date (MkDate 1968 3 1))) with 39916%Z. realA_ops. rlit_in_goal. lra. }
  rewrite <- EQ. exact N.
Qed.
