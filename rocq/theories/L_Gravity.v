(** * Second derivative of the Earth series, and Newton's law *)

From Coq Require Import ZArith Reals Lra Lia Bool List.
From Flocq Require Import Core.
From Verif Require Import Outcome Arith ArithR M_Common M_Time M_Earth T_Epv00 Spec_Matrix Spec_Frames Spec_Series Spec_Orbit Spec_Gravity.
From Verif Require Import L_ArithR L_Series L_SeriesR L_Matrix L_Pi L_Epv L_Kepler L_Orbit L_OrbitV L_Near L_PSeries L_POrbit.
Import ListNotations.
Open Scope R_scope.

(** ** Velocity and acceleration as a pair *)

Section Steps.
Variables (tab : table) (k : nat).
Let a j := rl (getd tab 0 j k).
Let b j := rl (getd tab 1 j k).
Let c j := rl (getd tab 2 j k).
Definition h0 (t : R) (s : R * R) (j : nat) : R * R :=
  (fst s - a j * c j * sin (b j + c j * t), snd s - a j * c j * c j * cos (b j + c j * t)).
Definition h1 (t : R) (s : R * R) (j : nat) : R * R :=
  (fst s + a j * (cos (b j + c j * t) - c j * t * sin (b j + c j * t)),
   snd s + (- (2 * (a j * c j)) * sin (b j + c j * t) - t * (a j * c j * c j) * cos (b j + c j * t))).
Definition h2 (t : R) (s : R * R) (j : nat) : R * R :=
  (fst s + a j * t * (2 * cos (b j + c j * t) - c j * t * sin (b j + c j * t)),
   snd s + (2 * a j * cos (b j + c j * t) - 4 * t * (a j * c j) * sin (b j + c j * t) - t * t * (a j * c j * c j) * cos (b j + c j * t))).
End Steps.

Definition helio_va (k : nat) (t : R) : R * R :=
  fold_left (h2 E2 k t) (seq 0 (nn NE2 k)) (fold_left (h1 E1 k t) (seq 0 (nn NE1 k)) (fold_left (h0 E0 k t) (seq 0 (nn NE0 k)) (0, 0))).

Lemma sin_lin : forall b c t, derivable_pt_lim (fun t => sin (b + c * t)) t (cos (b + c * t) * c).
Proof. intros. apply (derivable_pt_lim_comp (fun t => b + c * t) sin); [apply lin_der|apply derivable_pt_lim_sin]. Qed.

Lemma der_eq : forall f x l l', l = l' -> derivable_pt_lim f x l -> derivable_pt_lim f x l'.
Proof. intros f x l l' E H. rewrite <- E. exact H. Qed.

Lemma D_h0 : forall tab k s j, D s -> D (fun t => h0 tab k t (s t) j).
Proof.
  intros tab k s j H t. unfold h0. cbn [fst snd]. set (a := rl (getd tab 0 j k)). set (b := rl (getd tab 1 j k)). set (c := rl (getd tab 2 j k)).
  eapply der_eq; [|apply (derivable_pt_lim_minus (fun t => fst (s t)) (fun t => a * c * sin (b + c * t))); [apply H|apply scal_der; apply sin_lin]]. ring.
Qed.
Lemma D_h1 : forall tab k s j, D s -> D (fun t => h1 tab k t (s t) j).
Proof.
  intros tab k s j H t. unfold h1. cbn [fst snd]. set (a := rl (getd tab 0 j k)). set (b := rl (getd tab 1 j k)). set (c := rl (getd tab 2 j k)).
  apply (der_ext (fun t => fst (s t) + (a * cos (b + c * t) - (a * c) * (t * sin (b + c * t))))); [intros; ring|].
  apply (derivable_pt_lim_plus (fun t => fst (s t)) (fun t => a * cos (b + c * t) - (a * c) * (t * sin (b + c * t)))); [apply H|].
  eapply der_eq; [|apply (derivable_pt_lim_minus (fun t => a * cos (b + c * t)) (fun t => (a * c) * (t * sin (b + c * t)))); apply scal_der; [apply cos_lin|
    apply (derivable_pt_lim_mult (fun t => t) (fun t => sin (b + c * t))); [apply derivable_pt_lim_id|apply sin_lin]]]. ring.
Qed.
Lemma D_h2 : forall tab k s j, D s -> D (fun t => h2 tab k t (s t) j).
Proof.
  intros tab k s j H t. unfold h2. cbn [fst snd]. set (a := rl (getd tab 0 j k)). set (b := rl (getd tab 1 j k)). set (c := rl (getd tab 2 j k)).
  apply (der_ext (fun t => fst (s t) + ((2 * a) * (t * cos (b + c * t)) - (a * c) * ((t * t) * sin (b + c * t))))); [intros; ring|].
  apply (derivable_pt_lim_plus (fun t => fst (s t)) (fun t => (2 * a) * (t * cos (b + c * t)) - (a * c) * ((t * t) * sin (b + c * t)))); [apply H|].
  eapply der_eq; [|apply (derivable_pt_lim_minus (fun t => (2 * a) * (t * cos (b + c * t))) (fun t => (a * c) * ((t * t) * sin (b + c * t)))); apply scal_der;
    [apply (derivable_pt_lim_mult (fun t => t) (fun t => cos (b + c * t))); [apply derivable_pt_lim_id|apply cos_lin]
    |apply (derivable_pt_lim_mult (fun t => t * t) (fun t => sin (b + c * t))); [apply (derivable_pt_lim_mult (fun t => t) (fun t => t)); apply derivable_pt_lim_id|apply sin_lin]]]. ring.
Qed.

Lemma D_helio_va : forall k, D (helio_va k).
Proof.
  intros k. unfold helio_va.
  apply (D_fold (fun t => h2 E2 k t)); [intros; apply D_h2; assumption|].
  apply (D_fold (fun t => h1 E1 k t)); [intros; apply D_h1; assumption|].
  apply (D_fold (fun t => h0 E0 k t) (D_h0 E0 k) _ (fun _ => (0, 0))).
  intros t. cbn [fst snd]. apply derivable_pt_lim_const.
Qed.

Lemma fold_fst : forall (f : R * R -> nat -> R * R) (h : R * R -> nat -> R * R), (forall s s' j, fst s' = snd s -> fst (h s' j) = snd (f s j)) ->
  forall l s s', fst s' = snd s -> fst (fold_left h l s') = snd (fold_left f l s).
Proof. intros f h H l. induction l as [|j l IH]; intros s s' E; [exact E|]. cbn [fold_left]. apply IH. apply H. exact E. Qed.

Lemma helio_va_fst : forall k t, fst (helio_va k t) = snd (helio_st realA k t).
Proof.
  intros k t. unfold helio_va, helio_st.
  apply (fold_fst (f2 realA E2 k t (mul realA t t))).
  { intros s s' j E. unfold h2, f2. cbn [fst snd]. realA_ops. rewrite (Rlit_0 2), E. unfold rl. ring. }
  apply (fold_fst (f1 realA E1 k t)).
  { intros s s' j E. unfold h1, f1. cbn [fst snd]. realA_ops. rewrite E. unfold rl. ring. }
  apply (fold_fst (f0 realA E0 k t)).
  { intros s s' j E. unfold h0, f0. cbn [fst snd]. realA_ops. rewrite E. unfold rl. ring. }
  cbn [fst snd]. realA_ops. rewrite (Rlit_0 0). reflexivity.
Qed.

(** ** Size of the small terms *)

Definition ampa (tab : table) (k : nat) (l : list nat) : R := sumR (fun j => Rabs (rl (getd tab 0 j k) * rl (getd tab 2 j k) * rl (getd tab 2 j k))) l.
Definition dmul3 (tab : table) (k j : nat) : Z * Z := dmul (dmul (getd tab 0 j k) (getd tab 2 j k)) (getd tab 2 j k).
Definition ampaZ (tab : table) (k : nat) (l : list nat) : Z := sumZ (fun j => Z.abs (sc 80 (dmul3 tab k j))) l.
Definition expo3 (tab : table) (k : nat) (l : list nat) : bool :=
  forallb (fun j => (- 25 <=? snd (getd tab 0 j k))%Z && (- 15 <=? snd (getd tab 2 j k))%Z)%bool l.

Lemma rl_dmul3 : forall tab k j, (-25 <= snd (getd tab 0 j k))%Z -> (-15 <= snd (getd tab 2 j k))%Z ->
  rl (dmul3 tab k j) = rl (getd tab 0 j k) * rl (getd tab 2 j k) * rl (getd tab 2 j k).
Proof.
  intros tab k j A B. unfold dmul3. rewrite rl_dmul by (try (unfold dmul; cbn [snd]); lia). rewrite rl_dmul by lia. reflexivity.
Qed.

Lemma ampa_le : forall tab k l n, expo3 tab k l = true -> (ampaZ tab k l <=? n * 10 ^ 68)%Z = true ->
  ampa tab k l <= IZR n / 1000000000000.
Proof.
  intros tab k l n H1 H2. unfold expo3 in H1. rewrite forallb_forall in H1.
  assert (H1' : forall j, In j l -> (-25 <= snd (getd tab 0 j k))%Z /\ (-15 <= snd (getd tab 2 j k))%Z).
  { intros j Hj. specialize (H1 j Hj). apply andb_true_iff in H1. destruct H1 as [A B]. split; apply Z.leb_le; assumption. }
  unfold ampa. rewrite (sumR_ext _ (fun j => Rabs (rl (dmul3 tab k j)))).
  2: { intros j Hj. destruct (H1' j Hj). rewrite rl_dmul3 by assumption. reflexivity. }
  rewrite (sumR_abs_lit 80); [|lia|].
  2: { apply forallb_forall. intros j Hj. destruct (H1' j Hj). apply Z.leb_le. unfold dmul3, dmul. cbn [snd]. lia. }
  fold (ampaZ tab k l). apply Z.leb_le in H2. apply IZR_le in H2. rewrite mult_IZR in H2.
  change (10 ^ 80)%Z with (1000000000000 * 10 ^ 68)%Z. rewrite mult_IZR.
  assert (P : 0 < IZR (10 ^ 68)) by (apply IZR_lt; reflexivity). set (q := IZR (10 ^ 68)) in *. clearbody q. set (s := IZR (ampaZ tab k l)) in *. clearbody s.
  apply (Rmult_le_reg_r (1000000000000 * q)); [lra|].
  replace (s / (1000000000000 * q) * (1000000000000 * q)) with s by (field; lra).
  replace (IZR n / 1000000000000 * (1000000000000 * q)) with (IZR n * q) by field. exact H2.
Qed.
Lemma ampa_nonneg : forall tab k l, 0 <= ampa tab k l.
Proof.
  intros tab k l. unfold ampa, sumR. induction l as [|j l IH]; cbn [fold_right]; [lra|].
  pose proof (Rabs_pos (rl (getd tab 0 j k) * rl (getd tab 2 j k) * rl (getd tab 2 j k))). lra.
Qed.

Lemma h0_abound : forall tab k t l s, Rabs (snd (fold_left (h0 tab k t) l s) - snd s) <= ampa tab k l.
Proof.
  intros tab k t l. apply (fold_bound (R * R) snd (h0 tab k t)). intros s j _. unfold h0. cbn [snd].
  match goal with |- Rabs (?x - ?y - ?x) <= _ => replace (x - y - x) with (- y) by ring end. rewrite Rabs_Ropp. apply term_bound.
Qed.
Lemma h1_abound : forall tab k t l s,
  Rabs (snd (fold_left (h1 tab k t) l s) - snd s) <= 2 * ampv tab k l + Rabs t * ampa tab k l.
Proof.
  intros tab k t l s. unfold ampv, ampa. rewrite <- !sumR_scal, <- sumR_plus. revert s. apply (fold_bound (R * R) snd (h1 tab k t)).
  intros s j _. unfold h1. cbn [snd].
  set (a := rl (getd tab 0 j k)). set (c := rl (getd tab 2 j k)). set (p := _ + c * t).
  replace (snd s + (- (2 * (a * c)) * sin p - t * (a * c * c) * cos p) - snd s) with (- ((2 * (a * c)) * sin p) + - ((t * (a * c * c)) * cos p)) by ring.
  eapply Rle_trans; [apply Rabs_triang|]. rewrite !Rabs_Ropp. pose proof (term_bound (t * (a * c * c)) p) as U. pose proof (Rabs_sin1 (2 * (a * c)) p) as T.
  rewrite (Rabs_mult t) in U. rewrite (Rabs_mult 2), (Rabs_pos_eq 2) in T by lra. lra.
Qed.
Lemma h2_abound : forall tab k t l s,
  Rabs (snd (fold_left (h2 tab k t) l s) - snd s) <= 2 * amp tab k l + 4 * Rabs t * ampv tab k l + t * t * ampa tab k l.
Proof.
  intros tab k t l s. unfold amp, ampv, ampa. rewrite <- !sumR_scal, <- !sumR_plus. revert s. apply (fold_bound (R * R) snd (h2 tab k t)).
  intros s j _. unfold h2. cbn [snd].
  set (a := rl (getd tab 0 j k)). set (c := rl (getd tab 2 j k)). set (p := _ + c * t).
  replace (snd s + (2 * a * cos p - 4 * t * (a * c) * sin p - t * t * (a * c * c) * cos p) - snd s)
    with (2 * a * cos p + - ((4 * t * (a * c)) * sin p) + - ((t * t * (a * c * c)) * cos p)) by ring.
  eapply Rle_trans; [apply Rabs_triang|]. eapply Rle_trans; [apply Rplus_le_compat_r; apply Rabs_triang|]. rewrite !Rabs_Ropp.
  pose proof (term_bound (2 * a) p) as U. pose proof (Rabs_sin1 (4 * t * (a * c)) p) as T. pose proof (term_bound (t * t * (a * c * c)) p) as V.
  rewrite (Rabs_mult 2), (Rabs_pos_eq 2) in U by lra. rewrite (Rabs_mult (4 * t)), (Rabs_mult 4), (Rabs_pos_eq 4) in T by lra.
  rewrite (Rabs_mult (t * t)), (Rabs_pos_eq (t * t)) in V by nra. lra.
Qed.

Definition tra (k j : nat) (t : R) : R :=
  rl (getd E0 0 j k) * rl (getd E0 2 j k) * rl (getd E0 2 j k) * cos (rl (getd E0 1 j k) + rl (getd E0 2 j k) * t).

Lemma helio_asplit : forall k t l, seq 0 (nn NE0 k) = 0%nat :: 1%nat :: 2%nat :: 3%nat :: 4%nat :: l ->
  Rabs (snd (helio_va k t) + (tra k 0 t + tra k 1 t + tra k 2 t + tra k 3 t + tra k 4 t)) <=
  ampa E0 k l + (2 * ampv E1 k (seq 0 (nn NE1 k)) + Rabs t * ampa E1 k (seq 0 (nn NE1 k))) +
  (2 * amp E2 k (seq 0 (nn NE2 k)) + 4 * Rabs t * ampv E2 k (seq 0 (nn NE2 k)) + t * t * ampa E2 k (seq 0 (nn NE2 k))).
Proof.
  intros k t l E. unfold helio_va. rewrite E. cbn [fold_left].
  set (i4 := h0 E0 k t _ 4).
  assert (F : snd i4 = - (tra k 0 t + tra k 1 t + tra k 2 t + tra k 3 t + tra k 4 t)).
  { unfold i4, h0. cbn [snd]. unfold tra. ring. }
  clearbody i4.
  pose proof (h0_abound E0 k t l i4) as B0. set (s0 := fold_left (h0 E0 k t) l i4) in *.
  pose proof (h1_abound E1 k t (seq 0 (nn NE1 k)) s0) as B1. set (s1 := fold_left _ _ s0) in *.
  pose proof (h2_abound E2 k t (seq 0 (nn NE2 k)) s1) as B2. set (s2 := fold_left _ _ s1) in *.
  rewrite F in B0. apply Rabs_le_inv in B0. apply Rabs_le_inv in B1. apply Rabs_le_inv in B2. apply Rabs_le. lra.
Qed.
Lemma helio_aall : forall k t,
  Rabs (snd (helio_va k t)) <=
  ampa E0 k (seq 0 (nn NE0 k)) + (2 * ampv E1 k (seq 0 (nn NE1 k)) + Rabs t * ampa E1 k (seq 0 (nn NE1 k))) +
  (2 * amp E2 k (seq 0 (nn NE2 k)) + 4 * Rabs t * ampv E2 k (seq 0 (nn NE2 k)) + t * t * ampa E2 k (seq 0 (nn NE2 k))).
Proof.
  intros k t. unfold helio_va.
  pose proof (h0_abound E0 k t (seq 0 (nn NE0 k)) (0, 0)) as B0. set (s0 := fold_left (h0 E0 k t) _ _) in *.
  pose proof (h1_abound E1 k t (seq 0 (nn NE1 k)) s0) as B1. set (s1 := fold_left _ _ s0) in *.
  pose proof (h2_abound E2 k t (seq 0 (nn NE2 k)) s1) as B2. set (s2 := fold_left _ _ s1) in *.
  cbn [snd] in B0. apply Rabs_le_inv in B0. apply Rabs_le_inv in B1. apply Rabs_le_inv in B2. apply Rabs_le. lra.
Qed.

Lemma ampas :
  ampa E0 0 (seq 5 496) <= IZR 52700000000 / 1000000000000 /\ ampa E0 1 (seq 5 496) <= IZR 52800000000 / 1000000000000 /\
  ampa E0 2 (seq 0 137) <= IZR 24150000000 / 1000000000000 /\
  ampa E1 0 (seq 0 79) <= IZR 87200000 / 1000000000000 /\ ampa E1 1 (seq 0 80) <= IZR 87200000 / 1000000000000 /\
  ampa E1 2 (seq 0 12) <= IZR 93900000 / 1000000000000 /\
  ampa E2 0 (seq 0 5) <= IZR 5000 / 1000000000000 /\ ampa E2 1 (seq 0 5) <= IZR 5000 / 1000000000000 /\
  ampa E2 2 (seq 0 3) <= IZR 5000 / 1000000000000.
Proof. repeat split; apply ampa_le; vm_compute; reflexivity. Qed.

Lemma sum3a_le : forall t v a1 v1 a2 b2 v2 nv n1 m1 n2 k2 m2, Rabs t <= 100 -> v <= nv -> 0 <= a1 <= n1 -> 0 <= v1 <= m1 ->
  0 <= a2 <= n2 -> 0 <= b2 <= k2 -> 0 <= v2 <= m2 ->
  v + (2 * a1 + Rabs t * v1) + (2 * a2 + 4 * Rabs t * b2 + t * t * v2) <= nv + (2 * n1 + 100 * m1) + (2 * n2 + 400 * k2 + 10000 * m2).
Proof.
  intros t v a1 v1 a2 b2 v2 nv n1 m1 n2 k2 m2 Ht Hv H1 H2 H3 H4 H5. pose proof (Rabs_pos t) as T0.
  assert (T2 : 0 <= t * t <= 10000) by (apply Rabs_le_inv in Ht; nra).
  assert (Rabs t * v1 <= 100 * m1) by (apply Rmult_le_compat; lra). assert (t * t * v2 <= 10000 * m2) by (apply Rmult_le_compat; lra).
  assert (4 * Rabs t * b2 <= 400 * k2) by (apply Rmult_le_compat; lra). lra.
Qed.

Lemma tra_R : forall k j t m0 p0 m1 p1 m2 p2,
  getd E0 0 j k = (m0, Zneg p0) -> getd E0 1 j k = (m1, Zneg p1) -> getd E0 2 j k = (m2, Zneg p2) ->
  tra k j t = IZR m0 / IZR (Z.pow_pos 10 p0) * (IZR m2 / IZR (Z.pow_pos 10 p2)) * (IZR m2 / IZR (Z.pow_pos 10 p2)) * cos (IZR m1 / IZR (Z.pow_pos 10 p1) + IZR m2 / IZR (Z.pow_pos 10 p2) * t).
Proof. intros k j t m0 p0 m1 p1 m2 p2 A B C. unfold tra, rl. rewrite A, B, C. reflexivity. Qed.
Lemma tra_C : forall k j t, getd E0 2 j k = (0, 0)%Z -> tra k j t = 0.
Proof. intros k j t C. unfold tra, rl. rewrite C. cbn [fst snd]. rewrite (Rlit_0 0). ring. Qed.

Lemma rest_le : forall x a b, Rabs x <= a -> a <= b -> Rabs x <= b.
Proof. intros x a b A B. lra. Qed.

(** The acceleration in AU per year squared. *)
Lemma helio_amain : forall t, Rabs t <= 100 ->
  Rabs (snd (helio_va 0 t) + (39.47030293 * cos (1.753485171504 + 6.283075850446 * t) + 1.31894054 * cos (1.710344404582 + 12.56615170089 * t) +
     0.03718729 * cos (1.66722541677 + 18.84922755134 * t) + 0.21948457 * cos (0.6687513390251 + 83.99684731857 * t))) <= 0.0617 /\
  Rabs (snd (helio_va 1 t) + (39.47278296 * cos (0.1826583913846 + 6.283075850446 * t) + 1.31899584 * cos (0.139527799868 + 12.56615170089 * t) +
     0.03718846 * cos (0.09641423109763 + 18.84922755134 * t) + 0.21948453 * cos (5.381140401712 + 83.99684731857 * t))) <= 0.0617 /\
  Rabs (snd (helio_va 2 t)) <= 0.0337.
Proof.
  intros t Ht.
  destruct amps as (_ & _ & _ & _ & _ & _ & A20 & A21 & A22). destruct ampvs as (_ & _ & _ & V10 & V11 & V12 & V20 & V21 & V22).
  destruct ampas as (U00 & U01 & U02 & U10 & U11 & U12 & U20 & U21 & U22).
  assert (N := amp_nonneg). assert (NV := ampv_nonneg). assert (NA := ampa_nonneg).
  assert (B0 := helio_asplit 0 t (seq 5 496) eq_refl). assert (B1 := helio_asplit 1 t (seq 5 496) eq_refl). assert (B2 := helio_aall 2 t).
  change (nn NE0 2) with 137%nat in B2. change (nn NE1 0) with 79%nat in B0. change (nn NE1 1) with 80%nat in B1. change (nn NE1 2) with 12%nat in B2.
  change (nn NE2 0) with 5%nat in B0. change (nn NE2 1) with 5%nat in B1. change (nn NE2 2) with 3%nat in B2.
  pose proof (rest_le _ _ _ B0 (sum3a_le t _ _ _ _ _ _ _ _ _ _ _ _ Ht U00 (conj (NV _ _ _) V10) (conj (NA _ _ _) U10) (conj (N _ _ _) A20) (conj (NV _ _ _) V20) (conj (NA _ _ _) U20))) as C0.
  pose proof (rest_le _ _ _ B1 (sum3a_le t _ _ _ _ _ _ _ _ _ _ _ _ Ht U01 (conj (NV _ _ _) V11) (conj (NA _ _ _) U11) (conj (N _ _ _) A21) (conj (NV _ _ _) V21) (conj (NA _ _ _) U21))) as C1.
  pose proof (rest_le _ _ _ B2 (sum3a_le t _ _ _ _ _ _ _ _ _ _ _ _ Ht U02 (conj (NV _ _ _) V12) (conj (NA _ _ _) U12) (conj (N _ _ _) A22) (conj (NV _ _ _) V22) (conj (NA _ _ _) U22))) as C2.
  clear B0 B1 B2 U00 U01 U02 U10 U11 U12 U20 U21 U22 V10 V11 V12 V20 V21 V22 A20 A21 A22.
  split; [|split].
  - rewrite (tra_R 0 0 t _ _ _ _ _ _ eq_refl eq_refl eq_refl), (tra_R 0 1 t _ _ _ _ _ _ eq_refl eq_refl eq_refl), (tra_C 0 2 t eq_refl),
      (tra_R 0 3 t _ _ _ _ _ _ eq_refl eq_refl eq_refl), (tra_R 0 4 t _ _ _ _ _ _ eq_refl eq_refl eq_refl) in C0. pows. change (Z.pow_pos 10 17) with 100000000000000000%Z in C0.
    replace (1753485171504 / 1000000000000) with 1.753485171504 in C0 by lra.
    replace (6283075850446 / 1000000000000) with 6.283075850446 in C0 by lra.
    replace (1710344404582 / 1000000000000) with 1.710344404582 in C0 by lra.
    replace (1256615170089 / 100000000000) with 12.56615170089 in C0 by lra.
    replace (166722541677 / 100000000000) with 1.66722541677 in C0 by lra.
    replace (1884922755134 / 100000000000) with 18.84922755134 in C0 by lra.
    replace (6687513390251 / 10000000000000) with 0.6687513390251 in C0 by lra.
    replace (8399684731857 / 100000000000) with 83.99684731857 in C0 by lra.
    set (x := snd (helio_va 0 t)) in *. clearbody x.
    pose proof (COS_bound (1.753485171504 + 6.283075850446 * t)). pose proof (COS_bound (1.710344404582 + 12.56615170089 * t)).
    pose proof (COS_bound (1.66722541677 + 18.84922755134 * t)). pose proof (COS_bound (0.6687513390251 + 83.99684731857 * t)).
    set (c1 := cos _) in *. set (c2 := cos _) in *. set (c3 := cos _) in *. set (c4 := cos _) in *. clearbody c1 c2 c3 c4.
    apply Rabs_le_inv in C0. apply Rabs_le. lra.
  - rewrite (tra_R 1 0 t _ _ _ _ _ _ eq_refl eq_refl eq_refl), (tra_R 1 2 t _ _ _ _ _ _ eq_refl eq_refl eq_refl), (tra_C 1 1 t eq_refl),
      (tra_R 1 3 t _ _ _ _ _ _ eq_refl eq_refl eq_refl), (tra_R 1 4 t _ _ _ _ _ _ eq_refl eq_refl eq_refl) in C1. pows. change (Z.pow_pos 10 17) with 100000000000000000%Z in C1.
    replace (1826583913846 / 10000000000000) with 0.1826583913846 in C1 by lra.
    replace (6283075850446 / 1000000000000) with 6.283075850446 in C1 by lra.
    replace (139527799868 / 1000000000000) with 0.139527799868 in C1 by lra.
    replace (1256615170089 / 100000000000) with 12.56615170089 in C1 by lra.
    replace (9641423109763 / 100000000000000) with 0.09641423109763 in C1 by lra.
    replace (1884922755134 / 100000000000) with 18.84922755134 in C1 by lra.
    replace (5381140401712 / 1000000000000) with 5.381140401712 in C1 by lra.
    replace (8399684731857 / 100000000000) with 83.99684731857 in C1 by lra.
    set (x := snd (helio_va 1 t)) in *. clearbody x.
    pose proof (COS_bound (0.1826583913846 + 6.283075850446 * t)). pose proof (COS_bound (0.139527799868 + 12.56615170089 * t)).
    pose proof (COS_bound (0.09641423109763 + 18.84922755134 * t)). pose proof (COS_bound (5.381140401712 + 83.99684731857 * t)).
    set (c1 := cos _) in *. set (c2 := cos _) in *. set (c3 := cos _) in *. set (c4 := cos _) in *. clearbody c1 c2 c3 c4.
    apply Rabs_le_inv in C1. apply Rabs_le. lra.
  - lra.
Qed.

