(** * Size of the Earth's velocity and of the Sun's motion about the barycentre *)

From Coq Require Import ZArith Reals Lra Lia Bool List.
From Flocq Require Import Core.
From Verif Require Import Outcome Arith ArithR M_Common M_Time M_Earth T_Epv00 Spec_Matrix Spec_Frames Spec_Series Spec_Orbit.
From Verif Require Import L_ArithR L_Series L_SeriesR L_Matrix L_Pi L_Epv L_Kepler L_Orbit.
Import ListNotations.
Open Scope R_scope.

Definition dmul (a b : Z * Z) : Z * Z := (fst a * fst b, snd a + snd b)%Z.

Lemma rl_dmul : forall a b, (-40 <= snd a)%Z -> (-40 <= snd b)%Z -> rl (dmul a b) = rl a * rl b.
Proof.
  intros [m e] [n f] Ha Hb. cbn [snd] in *.
  rewrite (rl_sc 80) by (cbn [dmul snd]; lia). rewrite (rl_sc 40 (m, e)), (rl_sc 40 (n, f)) by (cbn [snd]; lia).
  unfold sc, dmul. cbn [fst snd]. replace (e + f + 80)%Z with (e + 40 + (f + 40))%Z by lia. rewrite Z.pow_add_r by lia.
  change (10 ^ 80)%Z with (10 ^ 40 * 10 ^ 40)%Z. rewrite !mult_IZR. field. apply IZR_neq. discriminate.
Qed.

Definition ampv (tab : table) (k : nat) (l : list nat) : R := sumR (fun j => Rabs (rl (getd tab 0 j k) * rl (getd tab 2 j k))) l.
Definition expo2 (tab : table) (k : nat) (l : list nat) : bool :=
  forallb (fun j => (- 40 <=? snd (getd tab 0 j k))%Z && (- 40 <=? snd (getd tab 2 j k))%Z)%bool l.
Definition ampvZ (tab : table) (k : nat) (l : list nat) : Z := sumZ (fun j => Z.abs (sc 80 (dmul (getd tab 0 j k) (getd tab 2 j k)))) l.

Lemma sumR_ext : forall B C l, (forall i, In i l -> B i = C i) -> sumR B l = sumR C l.
Proof.
  intros B C l H. induction l as [|i l IH]; [reflexivity|]. unfold sumR in *. cbn [fold_right].
  rewrite (H i (or_introl eq_refl)), IH; [reflexivity|]. intros j Hj. apply H. right. exact Hj.
Qed.

Lemma ampv_le : forall tab k l n, expo2 tab k l = true -> (ampvZ tab k l <=? n * 10 ^ 68)%Z = true ->
  ampv tab k l <= IZR n / 1000000000000.
Proof.
  intros tab k l n H1 H2. unfold expo2 in H1. rewrite forallb_forall in H1.
  unfold ampv. rewrite (sumR_ext _ (fun j => Rabs (rl (dmul (getd tab 0 j k) (getd tab 2 j k))))).
  2: { intros j Hj. specialize (H1 j Hj). apply andb_true_iff in H1. destruct H1 as [A B]. apply Z.leb_le in A. apply Z.leb_le in B.
       rewrite rl_dmul by assumption. reflexivity. }
  rewrite (sumR_abs_lit 80); [|lia|].
  2: { apply forallb_forall. intros j Hj. specialize (H1 j Hj). apply andb_true_iff in H1. destruct H1 as [A B]. apply Z.leb_le in A. apply Z.leb_le in B.
       apply Z.leb_le. unfold dmul. cbn [snd]. lia. }
  fold (ampvZ tab k l). apply Z.leb_le in H2. apply IZR_le in H2. rewrite mult_IZR in H2.
  change (10 ^ 80)%Z with (1000000000000 * 10 ^ 68)%Z. rewrite mult_IZR.
  assert (P : 0 < IZR (10 ^ 68)) by (apply IZR_lt; reflexivity). set (q := IZR (10 ^ 68)) in *. clearbody q. set (s := IZR (ampvZ tab k l)) in *. clearbody s.
  apply (Rmult_le_reg_r (1000000000000 * q)); [lra|]. 
  replace (s / (1000000000000 * q) * (1000000000000 * q)) with s by (field; lra).
  replace (IZR n / 1000000000000 * (1000000000000 * q)) with (IZR n * q) by field. exact H2.
Qed.
Lemma ampv_nonneg : forall tab k l, 0 <= ampv tab k l.
Proof.
  intros tab k l. unfold ampv, sumR. induction l as [|j l IH]; cbn [fold_right]; [lra|].
  pose proof (Rabs_pos (rl (getd tab 0 j k) * rl (getd tab 2 j k))). lra.
Qed.

Lemma Rabs_sin1 : forall a b, Rabs (a * sin b) <= Rabs a.
Proof. intros a b. rewrite Rabs_mult. pose proof (sin_abs b). pose proof (Rabs_pos a). nra. Qed.

Lemma f0_vbound : forall tab k t l s,
  Rabs (snd (fold_left (f0 realA tab k t) l s) - snd s) <= ampv tab k l.
Proof.
  intros tab k t l. apply (fold_bound (R * R) snd (f0 realA tab k t)). intros s j _. unfold f0. cbn [snd]. realA_ops.
  match goal with |- Rabs (?a - ?b - ?a) <= _ => replace (a - b - a) with (- b) by ring end. rewrite Rabs_Ropp. apply Rabs_sin1.
Qed.
Lemma f1_vbound : forall tab k t l s,
  Rabs (snd (fold_left (f1 realA tab k t) l s) - snd s) <= amp tab k l + Rabs t * ampv tab k l.
Proof.
  intros tab k t l s. unfold amp, ampv. rewrite <- sumR_scal, <- sumR_plus. revert s. apply (fold_bound (R * R) snd (f1 realA tab k t)).
  intros s j _. unfold f1. cbn [snd]. realA_ops. unfold rl.
  set (a := Rlit _ (snd (getd tab 0 j k))). set (c := Rlit _ (snd (getd tab 2 j k))). set (p := Rlit _ _ + _).
  replace (snd s + a * (cos p - c * t * sin p) - snd s) with (a * cos p - (t * (a * c)) * sin p) by ring.
  eapply Rle_trans; [apply Rabs_triang|]. rewrite Rabs_Ropp. pose proof (term_bound a p). pose proof (Rabs_sin1 (t * (a * c)) p) as T. rewrite (Rabs_mult t) in T. lra.
Qed.
Lemma f2_vbound : forall tab k t l s,
  Rabs (snd (fold_left (f2 realA tab k t (t * t)) l s) - snd s) <= 2 * Rabs t * amp tab k l + t * t * ampv tab k l.
Proof.
  intros tab k t l s. unfold amp, ampv. rewrite <- !sumR_scal, <- sumR_plus. revert s. apply (fold_bound (R * R) snd (f2 realA tab k t (t * t))).
  intros s j _. unfold f2. cbn [snd]. realA_ops. rewrite (Rlit_0 2). unfold rl.
  set (a := Rlit _ (snd (getd tab 0 j k))). set (c := Rlit _ (snd (getd tab 2 j k))). set (p := Rlit _ _ + _).
  replace (snd s + a * t * (2 * cos p - c * t * sin p) - snd s) with (2 * t * a * cos p - (t * t * (a * c)) * sin p) by ring.
  eapply Rle_trans; [apply Rabs_triang|]. rewrite Rabs_Ropp. pose proof (term_bound (2 * t * a) p) as U. pose proof (Rabs_sin1 (t * t * (a * c)) p) as T.
  assert (UE : Rabs (2 * t * a) = 2 * Rabs t * Rabs a) by (rewrite !Rabs_mult, (Rabs_pos_eq 2) by lra; reflexivity).
  assert (TE : Rabs (t * t * (a * c)) = t * t * Rabs (a * c)) by (rewrite (Rabs_mult (t * t)), (Rabs_pos_eq (t * t)) by nra; reflexivity).
  rewrite UE in U. rewrite TE in T. lra.
Qed.

Definition trv (k j : nat) (t : R) : R :=
  - (rl (getd E0 0 j k) * rl (getd E0 2 j k) * sin (rl (getd E0 1 j k) + rl (getd E0 2 j k) * t)).

Lemma helio_vsplit : forall k t l, seq 0 (nn NE0 k) = 0%nat :: 1%nat :: 2%nat :: l ->
  Rabs (snd (helio_st realA k t) - (trv k 0 t + trv k 1 t + trv k 2 t)) <=
  ampv E0 k l + (amp E1 k (seq 0 (nn NE1 k)) + Rabs t * ampv E1 k (seq 0 (nn NE1 k))) +
  (2 * Rabs t * amp E2 k (seq 0 (nn NE2 k)) + t * t * ampv E2 k (seq 0 (nn NE2 k))).
Proof.
  intros k t l E. unfold helio_st. rewrite E. cbn [fold_left].
  set (i4 := f0 realA E0 k t _ 2).
  assert (F : snd i4 = trv k 0 t + trv k 1 t + trv k 2 t).
  { unfold i4, f0. cbn [snd]. realA_ops. rewrite (Rlit_0 0). unfold trv, rl. ring. }
  clearbody i4. 
  pose proof (f0_vbound E0 k t l i4) as B0. set (s0 := fold_left (f0 realA E0 k t) l i4) in *.
  pose proof (f1_vbound E1 k t (seq 0 (nn NE1 k)) s0) as B1. set (s1 := fold_left _ _ s0) in *.
  pose proof (f2_vbound E2 k t (seq 0 (nn NE2 k)) s1) as B2. set (s2 := fold_left _ _ s1) in *.
  rewrite F in B0. apply Rabs_le_inv in B0. apply Rabs_le_inv in B1. apply Rabs_le_inv in B2. apply Rabs_le. lra.
Qed.

Lemma helio_vall : forall k t,
  Rabs (snd (helio_st realA k t)) <=
  ampv E0 k (seq 0 (nn NE0 k)) + (amp E1 k (seq 0 (nn NE1 k)) + Rabs t * ampv E1 k (seq 0 (nn NE1 k))) +
  (2 * Rabs t * amp E2 k (seq 0 (nn NE2 k)) + t * t * ampv E2 k (seq 0 (nn NE2 k))).
Proof.
  intros k t. unfold helio_st.
  pose proof (f0_vbound E0 k t (seq 0 (nn NE0 k)) (lit realA 0 0, lit realA 0 0)) as B0.
  set (s0 := fold_left (f0 realA E0 k t) _ _) in *.
  pose proof (f1_vbound E1 k t (seq 0 (nn NE1 k)) s0) as B1. set (s1 := fold_left _ _ s0) in *.
  pose proof (f2_vbound E2 k t (seq 0 (nn NE2 k)) s1) as B2. set (s2 := fold_left _ _ s1) in *.
  cbn [snd] in B0. change (lit realA 0 0) with (Rlit 0 0) in B0. rewrite (Rlit_0 0) in B0.
  apply Rabs_le_inv in B0. apply Rabs_le_inv in B1. apply Rabs_le_inv in B2. apply Rabs_le. lra.
Qed.

(** The Sun's motion about the barycentre: position and velocity. *)
Lemma sun_all : forall k t,
  Rabs (fst (bary_st realA k t) - fst (helio_st realA k t)) <=
    amp S0 k (seq 0 (nn NS0 k)) + Rabs t * amp S1 k (seq 0 (nn NS1 k)) + t * t * amp S2 k (seq 0 (nn NS2 k)) /\
  Rabs (snd (bary_st realA k t) - snd (helio_st realA k t)) <=
    ampv S0 k (seq 0 (nn NS0 k)) + (amp S1 k (seq 0 (nn NS1 k)) + Rabs t * ampv S1 k (seq 0 (nn NS1 k))) +
    (2 * Rabs t * amp S2 k (seq 0 (nn NS2 k)) + t * t * ampv S2 k (seq 0 (nn NS2 k))).
Proof.
  intros k t. unfold bary_st. set (h := helio_st realA k t).
  pose proof (f0_bound S0 k t (seq 0 (nn NS0 k)) h) as B0. pose proof (f0_vbound S0 k t (seq 0 (nn NS0 k)) h) as C0.
  set (s0 := fold_left (f0 realA S0 k t) _ _) in *.
  pose proof (f1_bound S1 k t (seq 0 (nn NS1 k)) s0) as B1. pose proof (f1_vbound S1 k t (seq 0 (nn NS1 k)) s0) as C1. set (s1 := fold_left _ _ s0) in *.
  pose proof (f2_bound S2 k t (seq 0 (nn NS2 k)) s1) as B2. pose proof (f2_vbound S2 k t (seq 0 (nn NS2 k)) s1) as C2. set (s2 := fold_left _ _ s1) in *.
  apply Rabs_le_inv in B0. apply Rabs_le_inv in B1. apply Rabs_le_inv in B2. 
  apply Rabs_le_inv in C0. apply Rabs_le_inv in C1. apply Rabs_le_inv in C2. split; apply Rabs_le; lra.
Qed.

Lemma ampvs :
  ampv E0 0 (seq 3 498) <= IZR 6220000000 / 1000000000000 /\ ampv E0 1 (seq 3 498) <= IZR 6244000000 / 1000000000000 /\
  ampv E0 2 (seq 0 137) <= IZR 295000000 / 1000000000000 /\
  ampv E1 0 (seq 0 79) <= IZR 6900000 / 1000000000000 /\ ampv E1 1 (seq 0 80) <= IZR 6900000 / 1000000000000 /\
  ampv E1 2 (seq 0 12) <= IZR 14600000 / 1000000000000 /\
  ampv E2 0 (seq 0 5) <= IZR 700 / 1000000000000 /\ ampv E2 1 (seq 0 5) <= IZR 700 / 1000000000000 /\
  ampv E2 2 (seq 0 3) <= IZR 700 / 1000000000000.
Proof. repeat split; apply ampv_le; vm_compute; reflexivity. Qed.

Lemma ampss :
  amp S0 0 (seq 0 212) <= IZR 10720000000 / 1000000000000 /\ amp S0 1 (seq 0 213) <= IZR 10770000000 / 1000000000000 /\
  amp S0 2 (seq 0 69) <= IZR 313000000 / 1000000000000 /\
  amp S1 0 (seq 0 50) <= IZR 70000 / 1000000000000 /\ amp S1 1 (seq 0 50) <= IZR 70000 / 1000000000000 /\
  amp S1 2 (seq 0 14) <= IZR 70000 / 1000000000000 /\
  amp S2 0 (seq 0 9) <= IZR 10 / 1000000000000 /\ amp S2 1 (seq 0 9) <= IZR 10 / 1000000000000 /\
  amp S2 2 (seq 0 2) <= IZR 10 / 1000000000000.
Proof. repeat split; apply amp_le; vm_compute; reflexivity. Qed.
Lemma ampsv :
  ampv S0 0 (seq 0 212) <= IZR 3580000000 / 1000000000000 /\ ampv S0 1 (seq 0 213) <= IZR 3580000000 / 1000000000000 /\
  ampv S0 2 (seq 0 69) <= IZR 95000000 / 1000000000000 /\
  ampv S1 0 (seq 0 50) <= IZR 70000 / 1000000000000 /\ ampv S1 1 (seq 0 50) <= IZR 70000 / 1000000000000 /\
  ampv S1 2 (seq 0 14) <= IZR 70000 / 1000000000000 /\
  ampv S2 0 (seq 0 9) <= IZR 10 / 1000000000000 /\ ampv S2 1 (seq 0 9) <= IZR 10 / 1000000000000 /\
  ampv S2 2 (seq 0 2) <= IZR 10 / 1000000000000.
Proof. repeat split; apply ampv_le; vm_compute; reflexivity. Qed.

Lemma sum3_le : forall t a b c na nb nc, Rabs t <= 100 -> a <= na -> 0 <= b <= nb -> 0 <= c <= nc ->
  a + Rabs t * b + t * t * c <= na + 100 * nb + 10000 * nc.
Proof.
  intros t a b c na nb nc Ht Ha Hb Hc. pose proof (Rabs_pos t) as T0.
  assert (T2 : 0 <= t * t <= 10000) by (apply Rabs_le_inv in Ht; nra).
  assert (Rabs t * b <= 100 * nb) by (apply Rmult_le_compat; lra). assert (t * t * c <= 10000 * nc) by (apply Rmult_le_compat; lra). lra.
Qed.
Lemma sum3v_le : forall t v a1 v1 a2 v2 nv n1 m1 n2 m2, Rabs t <= 100 -> v <= nv -> 0 <= a1 <= n1 -> 0 <= v1 <= m1 -> 0 <= a2 <= n2 -> 0 <= v2 <= m2 ->
  v + (a1 + Rabs t * v1) + (2 * Rabs t * a2 + t * t * v2) <= nv + (n1 + 100 * m1) + (200 * n2 + 10000 * m2).
Proof.
  intros t v a1 v1 a2 v2 nv n1 m1 n2 m2 Ht Hv H1 H2 H3 H4. pose proof (Rabs_pos t) as T0.
  assert (T2 : 0 <= t * t <= 10000) by (apply Rabs_le_inv in Ht; nra).
  assert (Rabs t * v1 <= 100 * m1) by (apply Rmult_le_compat; lra). assert (t * t * v2 <= 10000 * m2) by (apply Rmult_le_compat; lra).
  assert (2 * Rabs t * a2 <= 200 * n2) by (apply Rmult_le_compat; lra). lra.
Qed.

Lemma trv_R : forall k j t m0 p0 m1 p1 m2 p2,
  getd E0 0 j k = (m0, Zneg p0) -> getd E0 1 j k = (m1, Zneg p1) -> getd E0 2 j k = (m2, Zneg p2) ->
  trv k j t = - (IZR m0 / IZR (Z.pow_pos 10 p0) * (IZR m2 / IZR (Z.pow_pos 10 p2)) * sin (IZR m1 / IZR (Z.pow_pos 10 p1) + IZR m2 / IZR (Z.pow_pos 10 p2) * t)).
Proof. intros k j t m0 p0 m1 p1 m2 p2 A B C. unfold trv, rl. rewrite A, B, C. reflexivity. Qed.
Lemma trv_C : forall k j t, getd E0 2 j k = (0, 0)%Z -> trv k j t = 0.
Proof. intros k j t C. unfold trv, rl. rewrite C. cbn [fst snd]. rewrite (Rlit_0 0). ring. Qed.

(** Velocity in AU per year. *)
Lemma helio_vmain : forall t, Rabs t <= 100 ->
  Rabs (snd (helio_st realA 0 t) + (0.9998292878132 * 6.283075850446 * sin (1.753485171504 + 6.283075850446 * t) +
     0.008352579567414 * 12.56615170089 * sin (1.710344404582 + 12.56615170089 * t))) <= 0.00693 /\
  Rabs (snd (helio_st realA 1 t) + (0.9998921098898 * 6.283075850446 * sin (0.1826583913846 + 6.283075850446 * t) +
     0.008352929742915 * 12.56615170089 * sin (0.139527799868 + 12.56615170089 * t))) <= 0.00695 /\
  Rabs (snd (helio_st realA 2 t)) <= 0.00177.
Proof.
  intros t Ht.
  destruct amps as (_ & _ & _ & A10 & A11 & A12 & A20 & A21 & A22). destruct ampvs as (V00 & V01 & V02 & V10 & V11 & V12 & V20 & V21 & V22).
  assert (N := amp_nonneg). assert (NV := ampv_nonneg).
  assert (B0 := helio_vsplit 0 t (seq 3 498) eq_refl). assert (B1 := helio_vsplit 1 t (seq 3 498) eq_refl). assert (B2 := helio_vall 2 t).
  change (nn NE0 2) with 137%nat in B2. change (nn NE1 0) with 79%nat in B0. change (nn NE1 1) with 80%nat in B1. change (nn NE1 2) with 12%nat in B2.
  change (nn NE2 0) with 5%nat in B0. change (nn NE2 1) with 5%nat in B1. change (nn NE2 2) with 3%nat in B2.
  split; [|split].
  - rewrite (trv_R 0 0 t _ _ _ _ _ _ eq_refl eq_refl eq_refl), (trv_R 0 1 t _ _ _ _ _ _ eq_refl eq_refl eq_refl), (trv_C 0 2 t eq_refl) in B0. pows.
    replace (1753485171504 / 1000000000000) with 1.753485171504 in B0 by lra. 
    replace (6283075850446 / 1000000000000) with 6.283075850446 in B0 by lra.
    replace (1710344404582 / 1000000000000) with 1.710344404582 in B0 by lra.
    replace (1256615170089 / 100000000000) with 12.56615170089 in B0 by lra.
    pose proof (sum3v_le t _ _ _ _ _ _ _ _ _ _ Ht V00 (conj (N _ _ _) A10) (conj (NV _ _ _) V10) (conj (N _ _ _) A20) (conj (NV _ _ _) V20)).
    change (num realA) with R in *. set (x := snd (helio_st realA 0 t)) in *. clearbody x.
    apply Rabs_le_inv in B0. apply Rabs_le. lra.
  - rewrite (trv_R 1 0 t _ _ _ _ _ _ eq_refl eq_refl eq_refl), (trv_R 1 2 t _ _ _ _ _ _ eq_refl eq_refl eq_refl), (trv_C 1 1 t eq_refl) in B1. pows.
    replace (1826583913846 / 10000000000000) with 0.1826583913846 in B1 by lra. 
    replace (6283075850446 / 1000000000000) with 6.283075850446 in B1 by lra.
    replace (139527799868 / 1000000000000) with 0.139527799868 in B1 by lra.
    replace (1256615170089 / 100000000000) with 12.56615170089 in B1 by lra.
    pose proof (sum3v_le t _ _ _ _ _ _ _ _ _ _ Ht V01 (conj (N _ _ _) A11) (conj (NV _ _ _) V11) (conj (N _ _ _) A21) (conj (NV _ _ _) V21)).
    change (num realA) with R in *. set (x := snd (helio_st realA 1 t)) in *. clearbody x.
    apply Rabs_le_inv in B1. apply Rabs_le. lra.
  - pose proof (sum3v_le t _ _ _ _ _ _ _ _ _ _ Ht V02 (conj (N _ _ _) A12) (conj (NV _ _ _) V12) (conj (N _ _ _) A22) (conj (NV _ _ _) V22)).
    change (num realA) with R in *. set (x := snd (helio_st realA 2 t)) in *. clearbody x.
    apply Rabs_le_inv in B2. apply Rabs_le. lra.
Qed.

Lemma sun_small : forall t, Rabs t <= 100 ->
  (Rabs (fst (bary_st realA 0 t) - fst (helio_st realA 0 t)) <= 0.01073 /\ Rabs (fst (bary_st realA 1 t) - fst (helio_st realA 1 t)) <= 0.01078 /\
   Rabs (fst (bary_st realA 2 t) - fst (helio_st realA 2 t)) <= 0.00033) /\
  (Rabs (snd (bary_st realA 0 t) - snd (helio_st realA 0 t)) <= 0.00359 /\ Rabs (snd (bary_st realA 1 t) - snd (helio_st realA 1 t)) <= 0.00359 /\
   Rabs (snd (bary_st realA 2 t) - snd (helio_st realA 2 t)) <= 0.00011).
Proof.
  intros t Ht.
  destruct ampss as (A00 & A01 & A02 & A10 & A11 & A12 & A20 & A21 & A22). destruct ampsv as (V00 & V01 & V02 & V10 & V11 & V12 & V20 & V21 & V22).
  assert (N := amp_nonneg). assert (NV := ampv_nonneg).
  destruct (sun_all 0 t) as [P0 Q0]. destruct (sun_all 1 t) as [P1 Q1]. destruct (sun_all 2 t) as [P2 Q2].
  change (nn NS0 0) with 212%nat in P0, Q0. change (nn NS0 1) with 213%nat in P1, Q1. change (nn NS0 2) with 69%nat in P2, Q2.
  change (nn NS1 0) with 50%nat in P0, Q0. change (nn NS1 1) with 50%nat in P1, Q1. change (nn NS1 2) with 14%nat in P2, Q2.
  change (nn NS2 0) with 9%nat in P0, Q0. change (nn NS2 1) with 9%nat in P1, Q1. change (nn NS2 2) with 2%nat in P2, Q2.
  pose proof (sum3_le t _ _ _ _ _ _ Ht A00 (conj (N _ _ _) A10) (conj (N _ _ _) A20)).
  pose proof (sum3_le t _ _ _ _ _ _ Ht A01 (conj (N _ _ _) A11) (conj (N _ _ _) A21)).
  pose proof (sum3_le t _ _ _ _ _ _ Ht A02 (conj (N _ _ _) A12) (conj (N _ _ _) A22)).
  pose proof (sum3v_le t _ _ _ _ _ _ _ _ _ _ Ht V00 (conj (N _ _ _) A10) (conj (NV _ _ _) V10) (conj (N _ _ _) A20) (conj (NV _ _ _) V20)).
  pose proof (sum3v_le t _ _ _ _ _ _ _ _ _ _ Ht V01 (conj (N _ _ _) A11) (conj (NV _ _ _) V11) (conj (N _ _ _) A21) (conj (NV _ _ _) V21)).
  pose proof (sum3v_le t _ _ _ _ _ _ _ _ _ _ Ht V02 (conj (N _ _ _) A12) (conj (NV _ _ _) V12) (conj (N _ _ _) A22) (conj (NV _ _ _) V22)).
  repeat split; (eapply Rle_trans; [first [exact P0|exact P1|exact P2|exact Q0|exact Q1|exact Q2]|]; lra).
Qed.
