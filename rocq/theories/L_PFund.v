(** * Fundamental arguments, obliquity and precession rates in binary64: lemmas for the properties *)

From Coq Require Import ZArith Reals Lra Lia Bool List.
From Flocq Require Import Core BinarySingleNaN.
From Verif Require Import Outcome Arith ArithR ArithF Spec_Float Spec_Accuracy M_Common M_Time M_Earth M_Fundargs M_Locator M_Frames
  Spec_Matrix Spec_Frames Spec_Series.
From Verif Require Import L_ArithF L_ArithR L_FromJulianF L_Flit L_Closed L_PSeries L_PFrames L_Apx L_ApxMod L_ApxAngle L_ApxNut L_ApxCio L_ApxFrames L_Libm L_PAccuracy.
Import ListNotations.
Open Scope R_scope.

Lemma near_angle_same : forall x r s e, near_angle x r e -> same_angle r s -> near_angle x s e.
Proof.
  intros x r s e [F [k H]] [j E]. split; [exact F|]. exists (k + j)%Z. rewrite plus_IZR.
  replace (s + (IZR k + IZR j) * (2 * PI)) with (r + IZR k * (2 * PI)) by (rewrite E; ring). exact H.
Qed.

Definition erlist (l : list bnd) (e : list Z) (d : Z) : bool :=
  ((0 <? d)%Z && (length l =? length e)%nat && forallb (fun p => (er (fst p) * d <=? snd p * one)%Z) (combine l e))%bool.
Definition args_chk (n : Z) (e : list Z) (d : Z) : bool :=
  match b_cargs (B (- n * one) (n * one) 0) with Some l => erlist l e d | None => false end.


Lemma args_near : forall (t : b64) n e0 e1 e2 e3 e4 e5 e6 e7 d, fin t = true -> Rabs (B2R t) <= IZR n ->
  args_chk n [e0; e1; e2; e3; e4; e5; e6; e7] d = true ->
  forall lm, near_angle (l03 (A := b64A lm) t) (iers_l (B2R t)) (IZR e0 / IZR d) /\
  near_angle (lp03 (A := b64A lm) t) (iers_lp (B2R t)) (IZR e1 / IZR d) /\
  near_angle (f03 (A := b64A lm) t) (iers_f (B2R t)) (IZR e2 / IZR d) /\
  near_angle (d03 (A := b64A lm) t) (iers_d (B2R t)) (IZR e3 / IZR d) /\
  near_angle (om03 (A := b64A lm) t) (iers_om (B2R t)) (IZR e4 / IZR d) /\
  near_angle (ve03 (A := b64A lm) t) (iers_ve (B2R t)) (IZR e5 / IZR d) /\
  near_angle (e03 (A := b64A lm) t) (iers_e (B2R t)) (IZR e6 / IZR d) /\
  near_angle (pa03 (A := b64A lm) t) (iers_pa (B2R t)) (IZR e7 / IZR d).
Proof.
  intros t n e0 e1 e2 e3 e4 e5 e6 e7 d Ft Ht C lm. apply Rabs_le_inv in Ht.
  change (near_angle (l03 (A := b64A nice_libm) t) (iers_l (B2R t)) (IZR e0 / IZR d) /\
  near_angle (lp03 (A := b64A nice_libm) t) (iers_lp (B2R t)) (IZR e1 / IZR d) /\
  near_angle (f03 (A := b64A nice_libm) t) (iers_f (B2R t)) (IZR e2 / IZR d) /\
  near_angle (d03 (A := b64A nice_libm) t) (iers_d (B2R t)) (IZR e3 / IZR d) /\
  near_angle (om03 (A := b64A nice_libm) t) (iers_om (B2R t)) (IZR e4 / IZR d) /\
  near_angle (ve03 (A := b64A nice_libm) t) (iers_ve (B2R t)) (IZR e5 / IZR d) /\
  near_angle (e03 (A := b64A nice_libm) t) (iers_e (B2R t)) (IZR e6 / IZR d) /\
  near_angle (pa03 (A := b64A nice_libm) t) (iers_pa (B2R t)) (IZR e7 / IZR d)).
  unfold args_chk in C. destruct (b_cargs (B (- n * one) (n * one) 0)) as [l|] eqn:El; [|discriminate C].
  assert (X : apx t (B2R t) (B (- n * one) (n * one) 0)).
  { rewrite <- opp_IZR in Ht. exact (apx_var t (- n) n Ft Ht). }
  pose proof (cargs_ok nice_libm nice_good _ _ _ _ X El) as K. clear El X. unfold erlist in C.
  apply andb_true_iff in C. destruct C as [C C2]. apply andb_true_iff in C. destruct C as [C0 C1]. apply Nat.eqb_eq in C1.
  destruct l as [|b0 [|b1 [|b2 [|b3 [|b4 [|b5 [|b6 [|b7 [|b8 l]]]]]]]]]; try discriminate C1. clear C1.
  cbn [combine forallb fst snd] in C2. rewrite !andb_true_iff in C2. destruct C2 as (D0 & D1 & D2 & D3 & D4 & D5 & D6 & D7 & _).
  unfold cio_args in K.
  assert (ST : forall x r b xs rs bs, apxml (x :: xs) (r :: rs) (b :: bs) -> apxm x r b /\ apxml xs rs bs).
  { intros x r b xs rs bs H. split; [exact (match H in apxml a c e return match a, c, e with x :: _, r :: _, b :: _ => apxm x r b | _, _, _ => True end with apxml_nil => I | apxml_cons p _ => p end)|].
    exact (match H in apxml a c e return match a, c, e with _ :: x, _ :: r, _ :: b => apxml x r b | _, _, _ => True end with apxml_nil => I | apxml_cons _ p => p end). }
  apply ST in K. destruct K as [K0 K]. apply ST in K. destruct K as [K1 K]. apply ST in K. destruct K as [K2 K]. apply ST in K. destruct K as [K3 K].
  apply ST in K. destruct K as [K4 K]. apply ST in K. destruct K as [K5 K]. apply ST in K. destruct K as [K6 K]. apply ST in K. destruct K as [K7 K].
  destruct (C50_congruent_partial_pf (B2R t)) as (S0 & S1 & S2 & S3 & S4 & S5 & S6 & S7).
  split; [apply (near_angle_same _ _ _ _ (near_angle_of_apxm _ _ _ _ _ K0 C0 D0) S0)|].
  split; [apply (near_angle_same _ _ _ _ (near_angle_of_apxm _ _ _ _ _ K1 C0 D1) S1)|].
  split; [apply (near_angle_same _ _ _ _ (near_angle_of_apxm _ _ _ _ _ K2 C0 D2) S2)|].
  split; [apply (near_angle_same _ _ _ _ (near_angle_of_apxm _ _ _ _ _ K3 C0 D3) S3)|].
  split; [apply (near_angle_same _ _ _ _ (near_angle_of_apxm _ _ _ _ _ K4 C0 D4) S4)|].
  split; [apply (near_angle_same _ _ _ _ (near_angle_of_apxm _ _ _ _ _ K5 C0 D5) S5)|].
  split; [apply (near_angle_same _ _ _ _ (near_angle_of_apxm _ _ _ _ _ K6 C0 D6) S6)|].
  rewrite <- S7. apply (near_angle_of_apxm _ _ _ _ _ K7 C0 D7).
Qed.

(** C50 in binary64, for any libm: within a century of J2000.0 the arguments are the IERS
    polynomials, up to whole turns, within 2.9e-12 rad for the lunar ones (l, F, D),
    3e-13 for l' and the longitude of the Earth, 4.6e-13 for that of Venus, 1.5e-14 for the
    node and 1e-17 for the precession. *)
Lemma C50_accuracy_b64_partial_pf : forall lm (t : b64), fin t = true -> Rabs (B2R t) <= 1 ->
  near_angle (l03 (A := b64A lm) t) (iers_l (B2R t)) (2.9 / 10 ^ 12) /\
  near_angle (lp03 (A := b64A lm) t) (iers_lp (B2R t)) (3 / 10 ^ 13) /\
  near_angle (f03 (A := b64A lm) t) (iers_f (B2R t)) (2.9 / 10 ^ 12) /\
  near_angle (d03 (A := b64A lm) t) (iers_d (B2R t)) (2.9 / 10 ^ 12) /\
  near_angle (om03 (A := b64A lm) t) (iers_om (B2R t)) (1.5 / 10 ^ 14) /\
  near_angle (ve03 (A := b64A lm) t) (iers_ve (B2R t)) (4.6 / 10 ^ 13) /\
  near_angle (e03 (A := b64A lm) t) (iers_e (B2R t)) (3 / 10 ^ 13) /\
  near_angle (pa03 (A := b64A lm) t) (iers_pa (B2R t)) (1 / 10 ^ 17).
Proof.
  intros lm t Ft Ht.
  replace (2.9 / 10 ^ 12) with (290000 / 100000000000000000) by lra. replace (3 / 10 ^ 13) with (30000 / 100000000000000000) by lra.
  replace (4.6 / 10 ^ 13) with (46000 / 100000000000000000) by lra. replace (1.5 / 10 ^ 14) with (1500 / 100000000000000000) by lra.
  replace (1 / 10 ^ 17) with (1 / 100000000000000000) by lra.
  apply (args_near t 1 290000 30000 290000 290000 1500 46000 30000 1 100000000000000000 Ft Ht). vm_compute. reflexivity.
Qed.

(** C50 in binary64 within ten centuries of J2000.0. *)
Lemma C50_accuracy_b64_far_partial_pf : forall lm (t : b64), fin t = true -> Rabs (B2R t) <= 10 ->
  near_angle (l03 (A := b64A lm) t) (iers_l (B2R t)) (2.9 / 10 ^ 11) /\
  near_angle (lp03 (A := b64A lm) t) (iers_lp (B2R t)) (3 / 10 ^ 12) /\
  near_angle (f03 (A := b64A lm) t) (iers_f (B2R t)) (2.9 / 10 ^ 11) /\
  near_angle (d03 (A := b64A lm) t) (iers_d (B2R t)) (2.9 / 10 ^ 11) /\
  near_angle (om03 (A := b64A lm) t) (iers_om (B2R t)) (1.5 / 10 ^ 13) /\
  near_angle (ve03 (A := b64A lm) t) (iers_ve (B2R t)) (4.6 / 10 ^ 12) /\
  near_angle (e03 (A := b64A lm) t) (iers_e (B2R t)) (3 / 10 ^ 12) /\
  near_angle (pa03 (A := b64A lm) t) (iers_pa (B2R t)) (1 / 10 ^ 16).
Proof.
  intros lm t Ft Ht.
  replace (2.9 / 10 ^ 11) with (290000 / 10000000000000000) by lra. replace (3 / 10 ^ 12) with (30000 / 10000000000000000) by lra.
  replace (4.6 / 10 ^ 12) with (46000 / 10000000000000000) by lra. replace (1.5 / 10 ^ 13) with (1500 / 10000000000000000) by lra.
  replace (1 / 10 ^ 16) with (1 / 10000000000000000) by lra.
  apply (args_near t 10 290000 30000 290000 290000 1500 46000 30000 1 10000000000000000 Ft Ht). vm_compute. reflexivity.
Qed.

(** C50 at t = 1/2 (the year 2050): the longitude of the node, for any libm. *)
Example C50_b64_example_pf : forall lm,
  near_angle (om03 (A := b64A lm) (Flit 5 (-1))) (arcsec (450160.398036 - 6962890.5431 / 2 + 7.4722 / 4 + 0.007702 / 8 - 0.00005939 / 16)) (1.5 / 10 ^ 14).
Proof.
  intros lm. destruct lit_half as [V F].
  destruct (C50_accuracy_b64_partial_pf lm (Flit 5 (-1)) F) as (_ & _ & _ & _ & H & _).
  { rewrite V. rewrite Rabs_pos_eq; lra. }
  rewrite V in H. unfold iers_om in H.
  match type of H with near_angle ?x (arcsec ?u) ?e => match goal with |- near_angle _ (arcsec ?v) _ => replace v with u by field end end. exact H.
Qed.

(** ** Mean obliquity and precession rates *)

Lemma obliq_exact : forall d, mean_obliquity (A := realA) d = eps_1980 (centuries d).
Proof.
  intros d. unfold mean_obliquity. rewrite centuries_R. generalize (centuries d). intros t. realA_ops. rlit_in_goal. unfold eps_1980, arcsec.
  change (num realA) with R in *. lra.
Qed.
Lemma prate_exact : forall d, precession_rate (A := realA) d = (arcsec (- 0.29965 * centuries d), arcsec (- 0.02524 * centuries d)).
Proof.
  intros d. unfold precession_rate. rewrite centuries_R. generalize (centuries d). intros t. realA_ops. rlit_in_goal. unfold arcsec.
  change (num realA) with R in *. f_equal; lra.
Qed.

(** Exact arithmetic: the IAU 1980 mean obliquity and the IAU 2000 corrections to the
    precession rates times the time elapsed. *)
Lemma C81_obliquity_exact_pf : forall d,
  mean_obliquity (A := realA) d = eps_1980 (centuries d) /\
  precession_rate (A := realA) d = (arcsec (- 0.29965 * centuries d), arcsec (- 0.02524 * centuries d)).
Proof. intros d. split; [apply obliq_exact|apply prate_exact]. Qed.

Lemma obliq_eval : forall (A : arith) (a b : num A), eval A [a; b] (mean_obliquity (A := exprA) (MkTT (A := exprA) (EVar 0) (EVar 1))) = mean_obliquity (MkTT a b).
Proof. reflexivity. Qed.
Lemma prate_eval : forall (A : arith) (a b : num A),
  eval A [a; b] (fst (precession_rate (A := exprA) (MkTT (A := exprA) (EVar 0) (EVar 1)))) = fst (precession_rate (MkTT a b)) /\
  eval A [a; b] (snd (precession_rate (A := exprA) (MkTT (A := exprA) (EVar 0) (EVar 1)))) = snd (precession_rate (MkTT a b)).
Proof. intros. split; reflexivity. Qed.
Lemma obliq_near : forall (a b : b64) ba bb m m1 m2 d, apx a (B2R a) ba -> apx b (B2R b) bb ->
  chk [ba; bb] (mean_obliquity (A := exprA) (MkTT (A := exprA) (EVar 0) (EVar 1))) m d = true ->
  chk [ba; bb] (fst (precession_rate (A := exprA) (MkTT (A := exprA) (EVar 0) (EVar 1)))) m1 d = true ->
  chk [ba; bb] (snd (precession_rate (A := exprA) (MkTT (A := exprA) (EVar 0) (EVar 1)))) m2 d = true ->
  forall lm, let t := centuries (MkTT (A := realA) (B2R a) (B2R b)) in
  near (mean_obliquity (A := b64A lm) (MkTT (A := b64A lm) a b)) (eps_1980 t) (IZR m / IZR d) /\
  near (fst (precession_rate (A := b64A lm) (MkTT (A := b64A lm) a b))) (arcsec (- 0.29965 * t)) (IZR m1 / IZR d) /\
  near (snd (precession_rate (A := b64A lm) (MkTT (A := b64A lm) a b))) (arcsec (- 0.02524 * t)) (IZR m2 / IZR d).
Proof.
  intros a b ba bb m m1 m2 d Ha Hb C C1 C2 lm t.
  change (near (mean_obliquity (A := b64A nice_libm) (MkTT (A := b64A nice_libm) a b)) (eps_1980 t) (IZR m / IZR d) /\
  near (fst (precession_rate (A := b64A nice_libm) (MkTT (A := b64A nice_libm) a b))) (arcsec (- 0.29965 * t)) (IZR m1 / IZR d) /\
  near (snd (precession_rate (A := b64A nice_libm) (MkTT (A := b64A nice_libm) a b))) (arcsec (- 0.02524 * t)) (IZR m2 / IZR d)).
  pose proof (apxl_cons Ha (apxl_cons Hb apxl_nil)) as H.
  pose proof (chk_near nice_libm nice_good _ _ _ _ _ _ H C) as K. pose proof (chk_near nice_libm nice_good _ _ _ _ _ _ H C1) as K1.
  pose proof (chk_near nice_libm nice_good _ _ _ _ _ _ H C2) as K2. clear C C1 C2 H.
  rewrite (obliq_eval (b64A nice_libm)), (obliq_eval realA), obliq_exact in K.
  rewrite (proj1 (prate_eval (b64A nice_libm) _ _)), (proj1 (prate_eval realA _ _)), prate_exact in K1.
  rewrite (proj2 (prate_eval (b64A nice_libm) _ _)), (proj2 (prate_eval realA _ _)), prate_exact in K2.
  split; [exact K|]. split; [exact K1|exact K2].
Qed.

(** In binary64, for every split of the date with parts up to 2^22 days and any libm, the
    mean obliquity is within 6e-16 rad and the corrections within 3.2e-19 and 2.7e-20 rad. *)
Lemma C81_obliquity_b64_pf : forall lm (a b : b64), fin a = true -> fin b = true ->
  Rabs (B2R a) <= 4194304 -> Rabs (B2R b) <= 4194304 ->
  let t := centuries (MkTT (A := realA) (B2R a) (B2R b)) in
  near (mean_obliquity (A := b64A lm) (MkTT (A := b64A lm) a b)) (eps_1980 t) (6 / 10 ^ 16) /\
  near (fst (precession_rate (A := b64A lm) (MkTT (A := b64A lm) a b))) (arcsec (- 0.29965 * t)) (3.2 / 10 ^ 19) /\
  near (snd (precession_rate (A := b64A lm) (MkTT (A := b64A lm) a b))) (arcsec (- 0.02524 * t)) (2.7 / 10 ^ 20).
Proof.
  intros lm a b Fa Fb Ha Hb. apply Rabs_le_inv in Ha, Hb.
  replace (6 / 10 ^ 16) with (600000 / 1000000000000000000000) by lra. replace (3.2 / 10 ^ 19) with (320 / 1000000000000000000000) by lra.
  replace (2.7 / 10 ^ 20) with (27 / 1000000000000000000000) by lra.
  apply (obliq_near a b _ _ _ _ _ _ (apx_var a (-4194304) 4194304 Fa Ha) (apx_var b (-4194304) 4194304 Fb Hb)); vm_compute; reflexivity.
Qed.

(** With the date split as a modified Julian date between 1585 and 2132: 1.9e-16, 4.3e-21
    and 3.6e-22 rad. *)
Lemma C81_obliquity_b64_mjd_pf : forall lm (a b : b64), fin a = true -> fin b = true ->
  B2R a = 2400000.5 -> Rabs (B2R b) <= 100000 ->
  let t := centuries (MkTT (A := realA) (B2R a) (B2R b)) in
  near (mean_obliquity (A := b64A lm) (MkTT (A := b64A lm) a b)) (eps_1980 t) (1.9 / 10 ^ 16) /\
  near (fst (precession_rate (A := b64A lm) (MkTT (A := b64A lm) a b))) (arcsec (- 0.29965 * t)) (4.3 / 10 ^ 21) /\
  near (snd (precession_rate (A := b64A lm) (MkTT (A := b64A lm) a b))) (arcsec (- 0.02524 * t)) (3.6 / 10 ^ 22).
Proof.
  intros lm a b Fa Fb Ha Hb. apply Rabs_le_inv in Hb.
  replace (1.9 / 10 ^ 16) with (19000000 / 100000000000000000000000) by lra. replace (4.3 / 10 ^ 21) with (430 / 100000000000000000000000) by lra.
  replace (3.6 / 10 ^ 22) with (36 / 100000000000000000000000) by lra.
  apply (obliq_near a b _ _ _ _ _ _ (apx_mjd0 a Fa Ha) (apx_var b (-100000) 100000 Fb Hb)); vm_compute; reflexivity.
Qed.

Lemma lit_x : B2R (Flit 515445 (-1)) = 51544 + / 2 /\ fin (Flit 515445 (-1)) = true.
Proof. flit_prove. Qed.

(** At J2000.0 the mean obliquity is 84381.448 arcseconds, exactly in exact arithmetic and
    within 1.9e-16 rad in binary64. *)
Example C81_example_pf : mean_obliquity (A := realA) (MkTT (A := realA) 2451545 0) = arcsec 84381.448 /\
  forall lm, near (mean_obliquity (A := b64A lm) (MkTT (A := b64A lm) (Flit 24000005 (-1)) (Flit 515445 (-1)))) (arcsec 84381.448) (1.9 / 10 ^ 16).
Proof.
  assert (Z : eps_1980 0 = arcsec 84381.448) by (unfold eps_1980; f_equal; ring).
  split.
  - rewrite obliq_exact. replace (centuries (MkTT (A := realA) 2451545 0)) with 0 by (unfold centuries; cbn [tt_1 tt_2]; field). exact Z.
  - intros lm. destruct lit_mjd0 as [V1 F1].
    assert (K : B2R (Flit 515445 (-1)) = 51544.5 /\ fin (Flit 515445 (-1)) = true).
    { split; [|reflexivity]. replace 51544.5 with (51544 + / 2) by lra. destruct lit_x as [E _]. exact E. }
    destruct K as [V2 F2]. destruct (C81_obliquity_b64_mjd_pf lm _ _ F1 F2) as [H _].
    { rewrite V1. lra. } { rewrite V2. rewrite Rabs_pos_eq; lra. }
    match type of H with near _ (eps_1980 ?c) _ => assert (E0 : c = 0) by (unfold centuries; cbn [tt_1 tt_2]; rewrite V1, V2; lra) end.
    rewrite E0, Z in H. exact H.
Qed.
