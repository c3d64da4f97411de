(** * Earth position series in exact arithmetic: derivative and size *)

From Coq Require Import ZArith Reals Lra Lia Bool List.
From Flocq Require Import Core.
From Verif Require Import Outcome Arith ArithR M_Common M_Time M_Earth T_Epv00 Spec_Matrix Spec_Series.
From Verif Require Import L_ArithR L_Series L_SeriesR L_Matrix L_Pi.
Import ListNotations.
Open Scope R_scope.

Lemma years_R : forall d, epv_years (A := realA) d = years d.
Proof.
  intros [d1 d2]. unfold epv_years, years, DJ00, DJY. cbn [tdb_1 tdb_2]. realA_ops. rlit_in_goal.
  unfold Rlit. change (Z.pow_pos 10 2) with 100%Z. lra.
Qed.

(** ** Derivatives *)

Definition D (s : R -> R * R) : Prop := forall t, derivable_pt_lim (fun t => fst (s t)) t (snd (s t)).

Lemma D_fold : forall (step : R -> R * R -> nat -> R * R),
  (forall s j, D s -> D (fun t => step t (s t) j)) ->
  forall l s, D s -> D (fun t => fold_left (step t) l (s t)).
Proof.
  intros step H l. induction l as [|j l IH]; intros s Hs; [exact Hs|].
  cbn [fold_left]. apply (IH (fun t => step t (s t) j)). apply H. exact Hs.
Qed.

Lemma lin_der : forall b c t, derivable_pt_lim (fun t => b + c * t) t c.
Proof.
  intros b c t. assert (E : 0 + (0 * t + c * 1) = c) by ring.
  cut (derivable_pt_lim (fun t => b + c * t) t (0 + (0 * t + c * 1))); [rewrite E; trivial|].
  apply (derivable_pt_lim_plus (fct_cte b) (fun t => c * t)).
  - apply derivable_pt_lim_const.
  - apply (derivable_pt_lim_mult (fct_cte c) id); [apply derivable_pt_lim_const|apply derivable_pt_lim_id].
Qed.
Lemma cos_lin : forall b c t, derivable_pt_lim (fun t => cos (b + c * t)) t (- sin (b + c * t) * c).
Proof.
  intros b c t. apply (derivable_pt_lim_comp (fun t => b + c * t) cos); [apply lin_der|apply derivable_pt_lim_cos].
Qed.
Lemma scal_der : forall a f t l, derivable_pt_lim f t l -> derivable_pt_lim (fun t => a * f t) t (a * l).
Proof. intros a f t l H. apply (derivable_pt_lim_scal f a t l H). Qed.

Lemma D_f0 : forall tab k s j, D s -> D (fun t => f0 realA tab k t (s t) j).
Proof.
  intros tab k s j H t. unfold f0. cbn [fst snd]. realA_ops.
  set (a := Rlit _ _). set (b := Rlit _ _). set (c := Rlit _ _).
  replace (snd (s t) - a * c * sin (b + c * t)) with (snd (s t) + a * (- sin (b + c * t) * c)) by ring.
  apply (derivable_pt_lim_plus (fun t => fst (s t)) (fun t => a * cos (b + c * t))); [apply H|].
  apply scal_der. apply cos_lin.
Qed.
Lemma D_f1 : forall tab k s j, D s -> D (fun t => f1 realA tab k t (s t) j).
Proof.
  intros tab k s j H t. unfold f1. cbn [fst snd]. realA_ops.
  set (a := Rlit _ _). set (b := Rlit _ _). set (c := Rlit _ _).
  replace (snd (s t) + a * (cos (b + c * t) - c * t * sin (b + c * t)))
    with (snd (s t) + (a * 1 * cos (b + c * t) + a * t * (- sin (b + c * t) * c))) by ring.
  apply (derivable_pt_lim_plus (fun t => fst (s t)) (fun t => a * t * cos (b + c * t))); [apply H|].
  apply (derivable_pt_lim_mult (fun t => a * t) (fun t => cos (b + c * t))); [|apply cos_lin].
  apply (scal_der a id). apply derivable_pt_lim_id.
Qed.
Lemma D_f2 : forall tab k s j, D s -> D (fun t => f2 realA tab k t (t * t) (s t) j).
Proof.
  intros tab k s j H t. unfold f2. cbn [fst snd]. realA_ops. rewrite (Rlit_0 2).
  set (a := Rlit _ _). set (b := Rlit _ _). set (c := Rlit _ _).
  replace (snd (s t) + a * t * (2 * cos (b + c * t) - c * t * sin (b + c * t)))
    with (snd (s t) + (a * (1 * t + t * 1) * cos (b + c * t) + a * (t * t) * (- sin (b + c * t) * c))) by ring.
  apply (derivable_pt_lim_plus (fun t => fst (s t)) (fun t => a * (t * t) * cos (b + c * t))); [apply H|].
  apply (derivable_pt_lim_mult (fun t => a * (t * t)) (fun t => cos (b + c * t))); [|apply cos_lin].
  apply scal_der. apply (derivable_pt_lim_mult id id); apply derivable_pt_lim_id.
Qed.

Lemma D_helio : forall k, D (helio_st realA k).
Proof.
  intros k. unfold helio_st. 
  apply (D_fold (fun t => f2 realA E2 k t (t * t))); [intros; apply D_f2; assumption|].
  apply (D_fold (fun t => f1 realA E1 k t)); [intros; apply D_f1; assumption|].
  apply (D_fold (fun t => f0 realA E0 k t) (D_f0 E0 k) _ (fun _ => (Rlit 0 0, Rlit 0 0))).
  intros t. cbn [fst snd]. rlit_in_goal. apply derivable_pt_lim_const.
Qed.
Lemma D_bary : forall k, D (bary_st realA k).
Proof.
  intros k. unfold bary_st.
  apply (D_fold (fun t => f2 realA S2 k t (t * t))); [intros; apply D_f2; assumption|].
  apply (D_fold (fun t => f1 realA S1 k t)); [intros; apply D_f1; assumption|].
  apply (D_fold (fun t => f0 realA S0 k t)); [intros; apply D_f0; assumption|].
  apply D_helio.
Qed.

(** ** Sums of amplitudes *)

Lemma term_bound : forall a b, Rabs (a * cos b) <= Rabs a.
Proof. intros a b. rewrite Rabs_mult. pose proof (cos_abs b). pose proof (Rabs_pos a). nra. Qed.

Definition amp (tab : table) (k : nat) (l : list nat) : R := sumR (fun j => Rabs (rl (getd tab 0 j k))) l.

Lemma f0_bound : forall tab k t l s,
  Rabs (fst (fold_left (f0 realA tab k t) l s) - fst s) <= amp tab k l.
Proof.
  intros tab k t l. apply (fold_bound (R * R) fst (f0 realA tab k t)). intros s j _. unfold f0. cbn [fst]. realA_ops.
  match goal with |- Rabs (?a + ?b - ?a) <= _ => replace (a + b - a) with b by ring end. apply term_bound.
Qed.
Lemma f1_bound : forall tab k t l s,
  Rabs (fst (fold_left (f1 realA tab k t) l s) - fst s) <= Rabs t * amp tab k l.
Proof.
  intros tab k t l. unfold amp. rewrite <- sumR_scal. apply (fold_bound (R * R) fst (f1 realA tab k t)).
  intros s j _. unfold f1. cbn [fst]. realA_ops.
  match goal with |- Rabs (?a + ?b - ?a) <= _ => replace (a + b - a) with b by ring end.
  eapply Rle_trans; [apply term_bound|]. rewrite Rabs_mult. unfold rl. lra.
Qed.
Lemma f2_bound : forall tab k t l s,
  Rabs (fst (fold_left (f2 realA tab k t (t * t)) l s) - fst s) <= t * t * amp tab k l.
Proof.
  intros tab k t l. unfold amp. rewrite <- sumR_scal. apply (fold_bound (R * R) fst (f2 realA tab k t (t * t))).
  intros s j _. unfold f2. cbn [fst]. realA_ops.
  match goal with |- Rabs (?a + ?b - ?a) <= _ => replace (a + b - a) with b by ring end.
  eapply Rle_trans; [apply term_bound|]. rewrite Rabs_mult. unfold rl. rewrite (Rabs_pos_eq (t * t)) by nra. lra.
Qed.

Definition expo_ok (tab : table) (k : nat) (l : list nat) : bool := forallb (fun j => (- 40 <=? snd (getd tab 0 j k))%Z) l.
Definition ampZ (tab : table) (k : nat) (l : list nat) : Z := sumZ (fun j => Z.abs (sc 40 (getd tab 0 j k))) l.

Lemma amp_bound : forall tab k l z, expo_ok tab k l = true -> (ampZ tab k l <=? z)%Z = true ->
  amp tab k l <= IZR z / IZR (10 ^ 40).
Proof.
  intros tab k l z H1 H2. unfold amp. rewrite (sumR_abs_lit 40) by (try lia; exact H1).
  fold (ampZ tab k l). apply Z.leb_le in H2. apply IZR_le in H2.
  unfold Rdiv. apply Rmult_le_compat_r; [|exact H2]. apply Rlt_le, Rinv_0_lt_compat. apply IZR_lt. reflexivity.
Qed.

(** ** Size of the heliocentric vector *)

Lemma sin_abs_le : forall x, Rabs (sin x) <= Rabs x.
Proof.
  assert (P : forall x, 0 <= x -> Rabs (sin x) <= x).
  { intros x Hx. destruct (Req_dec x 0) as [->|N]; [rewrite sin_0, Rabs_R0; lra|].
    pose proof (sin_lt_x x ltac:(lra)) as L. pose proof (SIN_bound x). apply Rabs_le. split; [|lra].
    destruct (Rlt_dec x 1); [|lra]. assert (0 <= sin x) by (pose proof PI_bounds; apply sin_ge_0; lra). lra. }
  intros x. destruct (Rle_dec 0 x) as [H|H].
  - rewrite (Rabs_pos_eq x) by exact H. apply P. exact H.
  - rewrite (Rabs_left x) by lra. rewrite <- (Rabs_Ropp (sin x)), <- sin_neg. apply P. lra.
Qed.

Lemma sin_lip : forall x y, Rabs (sin x - sin y) <= Rabs (x - y).
Proof.
  intros x y. rewrite form4. rewrite !Rabs_mult, (Rabs_pos_eq 2) by lra.
  pose proof (cos_abs ((x + y) / 2)). pose proof (sin_abs_le ((x - y) / 2)) as S.
  unfold Rdiv in S at 2. rewrite Rabs_mult, (Rabs_pos_eq (/ 2)) in S by lra.
  pose proof (Rabs_pos (cos ((x + y) / 2))). pose proof (Rabs_pos (sin ((x - y) / 2))). nra.
Qed.

(** Bound in units of 1e-12. *)
Lemma amp_le : forall tab k l n, expo_ok tab k l = true -> (ampZ tab k l <=? n * 10 ^ 28)%Z = true ->
  amp tab k l <= IZR n / 1000000000000.
Proof.
  intros tab k l n H1 H2. eapply Rle_trans; [apply (amp_bound tab k l (n * 10 ^ 28)); assumption|].
  apply Req_le. rewrite mult_IZR. change (10 ^ 40)%Z with (1000000000000 * 10 ^ 28)%Z. rewrite mult_IZR.
  field. apply IZR_neq. discriminate.
Qed.

Lemma amps :
  amp E0 0 (seq 1 500) <= IZR 14354000000 / 1000000000000 /\ amp E0 1 (seq 1 500) <= IZR 33175000000 / 1000000000000 /\
  amp E0 2 (seq 0 137) <= IZR 8400000 / 1000000000000 /\
  amp E1 0 (seq 0 79) <= IZR 1800000 / 1000000000000 /\ amp E1 1 (seq 0 80) <= IZR 1500000 / 1000000000000 /\
  amp E1 2 (seq 0 12) <= IZR 2400000 / 1000000000000 /\
  amp E2 0 (seq 0 5) <= IZR 100 / 1000000000000 /\ amp E2 1 (seq 0 5) <= IZR 100 / 1000000000000 /\
  amp E2 2 (seq 0 3) <= IZR 200 / 1000000000000.
Proof. repeat split; apply amp_le; vm_compute; reflexivity. Qed.

Lemma helio_split : forall k t l, seq 0 (nn NE0 k) = 0%nat :: l ->
  Rabs (fst (helio_st realA k t) - rl (getd E0 0 0 k) * cos (rl (getd E0 1 0 k) + rl (getd E0 2 0 k) * t)) <=
  amp E0 k l + Rabs t * amp E1 k (seq 0 (nn NE1 k)) + t * t * amp E2 k (seq 0 (nn NE2 k)).
Proof.
  intros k t l E. unfold helio_st. rewrite E. cbn [fold_left].
  pose proof (f0_bound E0 k t l (f0 realA E0 k t (lit realA 0 0, lit realA 0 0) 0)) as B0.
  set (s0 := fold_left (f0 realA E0 k t) l (f0 realA E0 k t (lit realA 0 0, lit realA 0 0) 0)) in *.
  pose proof (f1_bound E1 k t (seq 0 (nn NE1 k)) s0) as B1. set (s1 := fold_left _ _ s0) in *.
  pose proof (f2_bound E2 k t (seq 0 (nn NE2 k)) s1) as B2. set (s2 := fold_left _ _ s1) in *.
  assert (F : fst (f0 realA E0 k t (lit realA 0 0, lit realA 0 0) 0) =
    rl (getd E0 0 0 k) * cos (rl (getd E0 1 0 k) + rl (getd E0 2 0 k) * t)).
  { unfold f0. cbn [fst]. realA_ops. rewrite (Rlit_0 0). unfold rl. ring. }
  rewrite F in B0. apply Rabs_le_inv in B0. apply Rabs_le_inv in B1. apply Rabs_le_inv in B2. apply Rabs_le. lra.
Qed.

Lemma helio_all : forall k t,
  Rabs (fst (helio_st realA k t)) <=
  amp E0 k (seq 0 (nn NE0 k)) + Rabs t * amp E1 k (seq 0 (nn NE1 k)) + t * t * amp E2 k (seq 0 (nn NE2 k)).
Proof.
  intros k t. unfold helio_st.
  pose proof (f0_bound E0 k t (seq 0 (nn NE0 k)) (lit realA 0 0, lit realA 0 0)) as B0.
  set (s0 := fold_left (f0 realA E0 k t) _ _) in *.
  pose proof (f1_bound E1 k t (seq 0 (nn NE1 k)) s0) as B1. set (s1 := fold_left _ _ s0) in *.
  pose proof (f2_bound E2 k t (seq 0 (nn NE2 k)) s1) as B2. set (s2 := fold_left _ _ s1) in *.
  cbn [fst] in B0. change (lit realA 0 0) with (Rlit 0 0) in B0. rewrite (Rlit_0 0) in B0.
  apply Rabs_le_inv in B0. apply Rabs_le_inv in B1. apply Rabs_le_inv in B2. apply Rabs_le. lra.
Qed.

Lemma main_term : forall q k m p, getd E0 q 0 k = (m, Zneg p) -> rl (getd E0 q 0 k) = IZR m / IZR (Z.pow_pos 10 p).
Proof. intros q k m p E. unfold rl. rewrite E. reflexivity. Qed.

(** The ecliptic coordinates: a circular motion plus a bounded remainder. *)
Lemma ecliptic_position : forall t, Rabs t <= 100 -> exists phi ex ey ez,
  fst (helio_st realA 0 t) = 0.9998292878132 * cos phi + ex /\
  fst (helio_st realA 1 t) = 0.9998292878132 * sin phi + ey /\
  fst (helio_st realA 2 t) = ez /\ Rabs ex <= 0.01454 /\ Rabs ey <= 0.03345 /\ Rabs ez <= 0.0003.
Proof.
  intros t Ht.
  destruct amps as (A00 & A01 & A02 & A10 & A11 & A12 & A20 & A21 & A22).
  assert (T2 : 0 <= t * t <= 10000) by (apply Rabs_le_inv in Ht; nra). pose proof (Rabs_pos t) as T0.
  assert (B0 := helio_split 0 t (seq 1 500) eq_refl). assert (B1 := helio_split 1 t (seq 1 500) eq_refl).
  assert (B2 := helio_all 2 t).
  change (nn NE0 2) with 137%nat in B2. change (nn NE1 0) with 79%nat in B0. change (nn NE1 1) with 80%nat in B1. change (nn NE1 2) with 12%nat in B2.
  change (nn NE2 0) with 5%nat in B0. change (nn NE2 1) with 5%nat in B1. change (nn NE2 2) with 3%nat in B2.
  rewrite (main_term 0 0 9998292878132 13 eq_refl), (main_term 1 0 1753485171504 12 eq_refl), (main_term 2 0 6283075850446 12 eq_refl) in B0.
  rewrite (main_term 0 1 9998921098898 13 eq_refl), (main_term 1 1 1826583913846 13 eq_refl), (main_term 2 1 6283075850446 12 eq_refl) in B1.
  change (Z.pow_pos 10 13) with 10000000000000%Z in *. change (Z.pow_pos 10 12) with 1000000000000%Z in *.
  set (w := 6283075850446 / 1000000000000 * t) in *.
  set (phi := 1753485171504 / 1000000000000 + w) in *.
  set (psi := 1826583913846 / 10000000000000 + w) in *.
  assert (C : Rabs (cos psi - sin phi) <= 0.0000305).
  { rewrite (cos_sin psi). eapply Rle_trans; [apply sin_lip|]. unfold psi, phi. apply Rabs_le. pose proof PI_bounds. lra. }
  set (x := fst (helio_st realA 0 t)) in *. set (y := fst (helio_st realA 1 t)) in *. set (z := fst (helio_st realA 2 t)) in *.
  exists phi, (x - 0.9998292878132 * cos phi), (y - 0.9998292878132 * sin phi), z.
  assert (P0 : forall tab k l, 0 <= amp tab k l).
  { intros tab k l. unfold amp, sumR. induction l as [|j l IH]; cbn [fold_right]; [lra|]. pose proof (Rabs_pos (rl (getd tab 0 j k))). lra. }
  pose proof (P0 E1 0%nat (seq 0 79)). pose proof (P0 E1 1%nat (seq 0 80)). pose proof (P0 E1 2%nat (seq 0 12)).
  pose proof (P0 E2 0%nat (seq 0 5)). pose proof (P0 E2 1%nat (seq 0 5)). pose proof (P0 E2 2%nat (seq 0 3)).
  assert (M : forall a b c d, 0 <= a <= b -> 0 <= c <= d -> a * c <= b * d) by (intros; apply Rmult_le_compat; lra).
  pose proof (M _ 100 _ _ (conj T0 Ht) (conj H A10)). pose proof (M _ 100 _ _ (conj T0 Ht) (conj H0 A11)). pose proof (M _ 100 _ _ (conj T0 Ht) (conj H1 A12)).
  pose proof (M _ 10000 _ _ T2 (conj H2 A20)). pose proof (M _ 10000 _ _ T2 (conj H3 A21)). pose proof (M _ 10000 _ _ T2 (conj H4 A22)).
  pose proof (SIN_bound phi) as SB.
  change (num realA) with R in *. clearbody x y z.
  split; [ring|]. split; [ring|]. split; [reflexivity|].
  apply Rabs_le_inv in B0. apply Rabs_le_inv in B1. apply Rabs_le_inv in B2. apply Rabs_le_inv in C.
  split; [apply Rabs_le; lra|]. split; [|apply Rabs_le; lra].
  apply Rabs_le. split; lra.
Qed.

(** The axes of [ecl_to_icrf] are orthonormal up to 1e-11. *)
Lemma ecl_to_icrf_norm : forall x y z, Rabs x <= 2 -> Rabs y <= 2 -> Rabs z <= 2 ->
  Rabs (sprod (ecl_to_icrf (A := realA) x y z) (ecl_to_icrf (A := realA) x y z) - (x * x + y * y + z * z)) <= 0.000000001.
Proof.
  intros x y z Hx Hy Hz. unfold ecl_to_icrf, sprod, coord, AM12, AM13, AM21, AM22, AM23, AM32, AM33. cbn [vget v0 v1 v2]. realA_ops.
  unfold Rlit. change (Z.pow_pos 10 12) with 1000000000000%Z.
  apply Rabs_le_inv in Hx. apply Rabs_le_inv in Hy. apply Rabs_le_inv in Hz.
  assert (XX : 0 <= x * x <= 4) by nra. assert (YY : 0 <= y * y <= 4) by nra. assert (ZZ : 0 <= z * z <= 4) by nra.
  assert (XY : -4 <= x * y <= 4) by (split; nra). assert (XZ : -4 <= x * z <= 4) by (split; nra). assert (YZ : -4 <= y * z <= 4) by (split; nra).
  apply Rabs_le. split; lra.
Qed.
