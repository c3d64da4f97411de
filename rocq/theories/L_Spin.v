(** * Lemmas for C100: rates of the nutation and of the locator as sums of terms *)

From Coq Require Import ZArith Reals Lra Lia Bool List.
From Flocq Require Import Core.
From Verif Require Import Arith ArithR M_Common M_Time T_Nut T_Cio Spec_Matrix Spec_Frames Spec_Series Spec_C2t.
From Verif Require Import L_Poisson L_SeriesR L_Closed L_Pi L_PPole L_CioLow L_Lip.
From Verif Require L_Epv L_PSeries L_Orbit.
Import ListNotations.
Open Scope R_scope.

(** ** Functions with a continuous derivative *)
Definition C1 (f f' : R -> R) : Prop := (forall t, derivable_pt_lim f t (f' t)) /\ (forall t, continuity_pt f' t).
Lemma C1_cont : forall f f', C1 f f' -> forall t, continuity_pt f t.
Proof. intros f f' [H _] t. apply derivable_continuous_pt. exists (f' t). apply H. Qed.
Lemma cont_ext : forall (f g : R -> R) t, (forall x, f x = g x) -> continuity_pt f t -> continuity_pt g t.
Proof. intros f g t E H eps He. destruct (H eps He) as (d & Hd & K). exists d. split; [exact Hd|]. intros x Hx. rewrite <- !E. apply K. exact Hx. Qed.
Lemma C1_ext : forall f f' g g', C1 f f' -> (forall t, f t = g t) -> (forall t, f' t = g' t) -> C1 g g'.
Proof.
  intros f f' g g' [D K] E E'. split; intros t.
  - rewrite <- E'. apply (L_PSeries.der_ext f); [exact E|apply D].
  - apply (cont_ext f'); [exact E'|apply K].
Qed.
Lemma C1_const : forall c, C1 (fun _ => c) (fun _ => 0).
Proof. intros c. split; intros t; [apply derivable_pt_lim_const|apply continuity_pt_const; intros x y; reflexivity]. Qed.
Lemma C1_id : C1 (fun t => t) (fun _ => 1).
Proof. split; intros t; [apply derivable_pt_lim_id|apply continuity_pt_const; intros x y; reflexivity]. Qed.
Lemma C1_plus : forall f f' g g', C1 f f' -> C1 g g' -> C1 (fun t => f t + g t) (fun t => f' t + g' t).
Proof.
  intros f f' g g' [F Fc] [G Gc]. split; intros t; [apply (derivable_pt_lim_plus f g); auto|apply (continuity_pt_plus f' g'); auto].
Qed.
Lemma C1_minus : forall f f' g g', C1 f f' -> C1 g g' -> C1 (fun t => f t - g t) (fun t => f' t - g' t).
Proof.
  intros f f' g g' [F Fc] [G Gc]. split; intros t; [apply (derivable_pt_lim_minus f g); auto|apply (continuity_pt_minus f' g'); auto].
Qed.
Lemma C1_mult : forall f f' g g', C1 f f' -> C1 g g' -> C1 (fun t => f t * g t) (fun t => f' t * g t + f t * g' t).
Proof.
  intros f f' g g' Hf Hg. pose proof (C1_cont _ _ Hf) as Cf. pose proof (C1_cont _ _ Hg) as Cg. destruct Hf as [F Fc]. destruct Hg as [G Gc].
  split; intros t; [apply (derivable_pt_lim_mult f g); auto|].
  apply (continuity_pt_plus (fun t => f' t * g t) (fun t => f t * g' t)); [apply (continuity_pt_mult f' g); auto|apply (continuity_pt_mult f g'); auto].
Qed.
Lemma C1_scal : forall a f f', C1 f f' -> C1 (fun t => a * f t) (fun t => a * f' t).
Proof. intros a f f' H. apply (C1_ext _ _ _ _ (C1_mult _ _ _ _ (C1_const a) H)); intros; ring. Qed.
Lemma C1_pow : forall n, C1 (fun t => t ^ n) (fun t => INR n * t ^ Nat.pred n).
Proof.
  induction n as [|n IH]; [apply (C1_ext _ _ _ _ (C1_const 1)); intros; cbn; ring|].
  apply (C1_ext _ _ _ _ (C1_mult _ _ _ _ C1_id IH)); intros t; [reflexivity|]. cbn [Nat.pred]. rewrite S_INR. destruct n as [|n]; [cbn [pow INR Nat.pred]; ring|].
  cbn [Nat.pred pow]. ring.
Qed.
Lemma C1_sin : forall f f', C1 f f' -> C1 (fun t => sin (f t)) (fun t => cos (f t) * f' t).
Proof.
  intros f f' Hf. pose proof (C1_cont _ _ Hf) as Cf. destruct Hf as [F Fc]. split; intros t.
  - apply (derivable_pt_lim_comp f sin); [apply F|apply derivable_pt_lim_sin].
  - apply (continuity_pt_mult (fun t => cos (f t)) f'); [|apply Fc]. apply (continuity_pt_comp f cos); [apply Cf|apply continuity_cos].
Qed.
Lemma C1_cos : forall f f', C1 f f' -> C1 (fun t => cos (f t)) (fun t => - (sin (f t) * f' t)).
Proof.
  intros f f' Hf. pose proof (C1_cont _ _ Hf) as Cf. destruct Hf as [F Fc]. split; intros t.
  - replace (- (sin (f t) * f' t)) with (- sin (f t) * f' t) by ring. apply (derivable_pt_lim_comp f cos); [apply F|apply derivable_pt_lim_cos].
  - apply (continuity_pt_opp (fun t => sin (f t) * f' t)). apply (continuity_pt_mult (fun t => sin (f t)) f'); [|apply Fc].
    apply (continuity_pt_comp f sin); [apply Cf|apply continuity_sin].
Qed.
Lemma C1_sumn : forall n (f f' : nat -> R -> R), (forall i, C1 (f i) (f' i)) -> C1 (fun t => sumn n (fun i => f i t)) (fun t => sumn n (fun i => f' i t)).
Proof.
  intros n f f' H. induction n as [|n IH]; cbn [sumn]; [apply C1_const|]. apply C1_plus; [exact IH|apply H].
Qed.

(** ** Constants *)
Definition kap : R := PI / 648000.
(** pi / 648000 in units of 1e-24, and its square in units of 1e-30. *)
Definition KA : Z := 4848136811095359936%Z.
Definition KK : Z := 23504430539097885752%Z.
Lemma kap_b : 4848136811095359935.8 / 10 ^ 24 <= kap <= 4848136811095359936 / 10 ^ 24.
Proof. unfold kap. pose proof PI_bounds_24. lra. Qed.
Lemma kap2_b : Rabs (kap * kap - IZR KK / 10 ^ 30) <= 3 / 10 ^ 30.
Proof.
  pose proof kap_b as K. set (a := 4848136811095359935.8 / 10 ^ 24) in *. set (b := 4848136811095359936 / 10 ^ 24) in *.
  assert (A : a * a <= kap * kap) by (apply Rmult_le_compat; unfold a in *; lra). assert (B : kap * kap <= b * b) by (apply Rmult_le_compat; unfold a, b in *; lra).
  set (z := kap * kap) in *. clearbody z. unfold a, b in *. clear K. unfold KK. apply Rabs_le. split; lra.
Qed.

Definition val (z : Z) : R := IZR z / 10 ^ 18.
Lemma val_plus : forall a b, val (a + b) = val a + val b.
Proof. intros. unfold val. rewrite plus_IZR. lra. Qed.
Lemma val_minus : forall a b, val (a - b) = val a - val b.
Proof. intros. unfold val. rewrite minus_IZR. lra. Qed.
Lemma val_opp : forall a, val (- a) = - val a.
Proof. intros. unfold val. rewrite opp_IZR. lra. Qed.
Lemma floor_ok : forall a p, (0 < p)%Z -> Rabs (IZR a / IZR p - IZR (a / p)) <= 1.
Proof.
  intros a p Hp. pose proof (Z.div_mod a p ltac:(lia)) as E. pose proof (Z.mod_pos_bound a p Hp) as B. apply (f_equal IZR) in E.
  rewrite plus_IZR, mult_IZR in E. destruct B as [B1 B2]. apply IZR_le in B1. apply IZR_lt in B2. apply (IZR_lt 0) in Hp.
  replace (IZR a / IZR p - IZR (a / p)) with (IZR (a mod p) / IZR p) by (rewrite E; field; lra).
  apply Rabs_le. split.
  - apply Rle_trans with 0; [lra|]. apply Rmult_le_pos; [lra|left; apply Rinv_0_lt_compat; lra].
  - apply (Rmult_le_reg_r (IZR p)); [lra|]. unfold Rdiv. rewrite Rmult_assoc, Rinv_l, Rmult_1_r by lra. lra.
Qed.
Lemma scale_ok : forall g K p d B z, (0 < p)%Z -> Rabs (g * 10 ^ 18 - IZR K / IZR p) <= d -> Rabs (IZR z) <= B ->
  Rabs (g * IZR z - val (z * K / p)) <= (1 + d * B) / 10 ^ 18.
Proof.
  intros g K p d B z Hp Hg Hz. pose proof (floor_ok (z * K) p Hp) as F. rewrite mult_IZR in F. apply (IZR_lt 0) in Hp as Hp'.
  unfold val. set (w := IZR (z * K / p)) in *. clearbody w.
  assert (M : Rabs ((g * 10 ^ 18 - IZR K / IZR p) * IZR z) <= d * B) by (rewrite Rabs_mult; apply Rmult_le_compat; try apply Rabs_pos; assumption).
  replace (g * IZR z - w / 10 ^ 18) with (((g * 10 ^ 18 - IZR K / IZR p) * IZR z + (IZR z * IZR K / IZR p - w)) / 10 ^ 18) by (field; lra).
  unfold Rdiv at 1. rewrite Rabs_mult, (Rabs_pos_eq (/ 10 ^ 18)) by lra. unfold Rdiv. apply Rmult_le_compat_r; [lra|].
  eapply Rle_trans; [apply Rabs_triang|]. unfold Rdiv in *. lra.
Qed.
Lemma zabs_le : forall z b, (Z.abs z <=? b)%Z = true -> Rabs (IZR z) <= IZR b.
Proof. intros z b H. apply Z.leb_le in H. rewrite <- abs_IZR. apply IZR_le. exact H. Qed.

Definition amp (z : Z) : Z := (z * KA / 10 ^ 13)%Z.
Definition amr (z : Z) : Z := (z * KK / 10 ^ 23)%Z.
Definition samp (z : Z) : Z := (z * KA / 10 ^ 16)%Z.
Definition samr (z : Z) : Z := (z * KA / 10 ^ 26)%Z.
Lemma amp_ok : forall z, (Z.abs z <=? 10 ^ 12)%Z = true -> Rabs (kap / 10 ^ 7 * IZR z - val (amp z)) <= 4 / 10 ^ 18.
Proof.
  intros z H. apply zabs_le in H. eapply Rle_trans; [apply (scale_ok _ KA (10 ^ 13) (1 / 10 ^ 13) (IZR (10 ^ 12)) z)|]; [reflexivity| |exact H|].
  - pose proof kap_b. unfold KA. change (10 ^ 13)%Z with 10000000000000%Z. apply Rabs_le. lra.
  - change (10 ^ 12)%Z with 1000000000000%Z. lra.
Qed.
Lemma amr_ok : forall z, (Z.abs z <=? 10 ^ 22)%Z = true -> Rabs (kap * kap / 10 ^ 11 * IZR z - val (amr z)) <= 4 / 10 ^ 18.
Proof.
  intros z H. apply zabs_le in H. eapply Rle_trans; [apply (scale_ok _ KK (10 ^ 23) (3 / 10 ^ 23) (IZR (10 ^ 22)) z)|]; [reflexivity| |exact H|].
  - pose proof kap2_b as K. apply Rabs_le_inv in K. change (10 ^ 23)%Z with 100000000000000000000000%Z. set (k := kap * kap) in *. clearbody k. set (q := IZR KK) in *. clearbody q. apply Rabs_le. lra.
  - change (10 ^ 22)%Z with 10000000000000000000000%Z. lra.
Qed.
Lemma samp_ok : forall z, (Z.abs z <=? 10 ^ 15)%Z = true -> Rabs (kap / 10 ^ 10 * IZR z - val (samp z)) <= 4 / 10 ^ 18.
Proof.
  intros z H. apply zabs_le in H. eapply Rle_trans; [apply (scale_ok _ KA (10 ^ 16) (1 / 10 ^ 16) (IZR (10 ^ 15)) z)|]; [reflexivity| |exact H|].
  - pose proof kap_b. unfold KA. change (10 ^ 16)%Z with 10000000000000000%Z. apply Rabs_le. lra.
  - change (10 ^ 15)%Z with 1000000000000000%Z. lra.
Qed.
Lemma samr_ok : forall z, (Z.abs z <=? 10 ^ 25)%Z = true -> Rabs (kap / 10 ^ 20 * IZR z - val (samr z)) <= 4 / 10 ^ 18.
Proof.
  intros z H. apply zabs_le in H. eapply Rle_trans; [apply (scale_ok _ KA (10 ^ 26) (1 / 10 ^ 26) (IZR (10 ^ 25)) z)|]; [reflexivity| |exact H|].
  - pose proof kap_b. unfold KA. change (10 ^ 26)%Z with 100000000000000000000000000%Z. apply Rabs_le. lra.
  - change (10 ^ 25)%Z with 10000000000000000000000000%Z. lra.
Qed.

(** ** Arguments linear in time *)
Definition th (t : R) : list R := nut_angles t ++ [iers_ve t; iers_e t; 0.024381750 * t].
Fixpoint zcombo (row fa : list Z) : Z :=
  match row, fa with n :: row', x :: fa' => (n * x + zcombo row' fa')%Z | _, _ => 0%Z end.
(** Rates: 0.0001 arcseconds per century, and 1e-10 radians per century. *)
Definition rates5 : list Z := [17179159232178; 1295965810481; 17395272628478; 16029616012090; -69628905431]%Z.
Definition planets : list Z := [10213285546211; 6283075849991; 243817500]%Z.
Definition rate (n : list Z) : R := kap / 10 ^ 4 * IZR (zcombo n rates5) + IZR (zcombo (skipn 5 n) planets) / 10 ^ 10.
Lemma th_split : forall n t, combo n (th t) = combo n (th 0) + rate n * t.
Proof.
  intros n t. unfold th, nut_angles, iers_ve, iers_e, rate, kap, rates5, planets.
  do 8 (destruct n as [|? n]; [cbn [app combo zcombo skipn]; rewrite ?plus_IZR, ?mult_IZR; unfold arcsec; lra|]).
  cbn [app combo zcombo skipn]. rewrite combo_r. assert (Z0 : zcombo n [] = 0%Z) by (destruct n; reflexivity). rewrite Z0, !plus_IZR, !mult_IZR. unfold arcsec. lra.
Qed.
Lemma th_C1 : forall n, C1 (fun t => combo n (th t)) (fun _ => rate n).
Proof.
  intros n. apply (C1_ext _ _ _ _ (C1_plus _ _ _ _ (C1_const (combo n (th 0))) (C1_scal (rate n) _ _ C1_id))); intros t; [symmetry; apply th_split|ring].
Qed.
Lemma pad_th : forall n t, length n = 5%nat -> combo n (nut_angles t) = combo (n ++ [0; 0; 0]%Z) (th t).
Proof.
  intros n t H. do 6 (destruct n as [|? n]; try discriminate H). unfold th, nut_angles. cbn [app combo]. ring.
Qed.
Lemma pad_rate : forall n, length n = 5%nat -> rate (n ++ [0; 0; 0]%Z) = kap / 10 ^ 4 * IZR (zcombo n rates5).
Proof.
  intros n H. do 6 (destruct n as [|? n]; try discriminate H). unfold rate, rates5, planets. cbn [app skipn zcombo]. rewrite ?plus_IZR, ?mult_IZR. lra.
Qed.

(** ** Nutation *)
Definition nrow (i : nat) : list Z := nth i NALS [].
Definition ncz (i q : nat) : Z := fst (clsd i q).
Definition nrho (i : nat) : Z := zcombo (nrow i) rates5.
Definition pad (i : nat) : list Z := nrow i ++ [0; 0; 0]%Z.
Definition z8 : list Z := [0; 0; 0; 0; 0; 0; 0; 0]%Z.

Lemma nth_forall : forall (A : Type) (P : A -> Prop) (d : A) l i, P d -> Forall P l -> P (nth i l d).
Proof. intros A P d l i Hd F. revert i. induction F as [|x l Hx F IH]; intros [|i]; cbn [nth]; auto. Qed.
Lemma coef_int : forall i q, nut_coef i q = IZR (ncz i q).
Proof.
  intros i q. unfold nut_coef, ncz, clsd. set (d := nth q (nth i CLS []) (0, 0)%Z).
  assert (E : snd d = 0%Z).
  { unfold d. apply (nth_forall _ (fun d => snd d = 0%Z)); [reflexivity|]. apply (nth_forall _ (fun l => Forall (fun d => snd d = 0%Z) l)); [constructor|].
    assert (F : forallb (forallb (fun d : Z * Z => (snd d =? 0)%Z)) CLS = true) by (vm_compute; reflexivity).
    rewrite forallb_forall in F. apply Forall_forall. intros l Hl. specialize (F l Hl). rewrite forallb_forall in F. apply Forall_forall. intros x Hx. apply Z.eqb_eq, F, Hx. }
  unfold dec. rewrite E. cbn [powerRZ]. ring.
Qed.
Lemma ncz_b : forall i q, (i < 77)%nat -> (q < 6)%nat -> (Z.abs (ncz i q) <=? 10 ^ 12)%Z = true /\ (Z.abs (ncz i q * nrho i) <=? 10 ^ 22)%Z = true /\ length (nrow i) = 5%nat.
Proof.
  intros i q Hi Hq.
  assert (F : forallb (fun i => Nat.eqb (length (nrow i)) 5 && forallb (fun q => (Z.abs (ncz i q) <=? 10 ^ 12)%Z && (Z.abs (ncz i q * nrho i) <=? 10 ^ 22)%Z) (seq 0 6)) (seq 0 77) = true) by (vm_compute; reflexivity).
  rewrite forallb_forall in F. specialize (F i ltac:(apply in_seq; lia)). apply andb_prop in F. destruct F as [F0 F]. apply Nat.eqb_eq in F0.
  rewrite forallb_forall in F. specialize (F q ltac:(apply in_seq; lia)). apply andb_prop in F. destruct F as [F1 F2]. auto.
Qed.
Lemma lin4 : forall e x0 x1 x2 x3 u0 u1 u2 u3, Rabs x0 <= e -> Rabs x1 <= e -> Rabs x2 <= e -> Rabs x3 <= e ->
  Rabs u0 <= 1 -> Rabs u1 <= 1 -> Rabs u2 <= 1 -> Rabs u3 <= 1 -> Rabs (x0 * u0 + x1 * u1 + x2 * u2 + x3 * u3) <= 4 * e.
Proof.
  intros. assert (M : forall x u, Rabs x <= e -> Rabs u <= 1 -> Rabs (x * u) <= e) by (intros x u Hx Hu; replace e with (e * 1) by ring; apply mulb; assumption).
  pose proof (M x0 u0 ltac:(assumption) ltac:(assumption)) as A0. pose proof (M x1 u1 ltac:(assumption) ltac:(assumption)) as A1.
  pose proof (M x2 u2 ltac:(assumption) ltac:(assumption)) as A2. pose proof (M x3 u3 ltac:(assumption) ltac:(assumption)) as A3.
  apply Rabs_le_inv in A0. apply Rabs_le_inv in A1. apply Rabs_le_inv in A2. apply Rabs_le_inv in A3. apply Rabs_le. lra.
Qed.
Lemma zero_small : Rabs 0 <= 4 / 10 ^ 18.
Proof. rewrite Rabs_R0. lra. Qed.

(** Units of 1e-18. *)
Definition psi_t (i : nat) : list term := [(0%nat, pad i, amp (ncz i 0), amp (ncz i 2)); (1%nat, pad i, amp (ncz i 1), 0%Z)].
Definition eps_t (i : nat) : list term := [(0%nat, pad i, amp (ncz i 5), amp (ncz i 3)); (1%nat, pad i, 0%Z, amp (ncz i 4))].
Definition dpsi_t (i : nat) : list term :=
  [(0%nat, pad i, (amp (ncz i 1) - amr (ncz i 2 * nrho i))%Z, amr (ncz i 0 * nrho i)); (1%nat, pad i, 0%Z, amr (ncz i 1 * nrho i))].
Definition deps_t (i : nat) : list term :=
  [(0%nat, pad i, (- amr (ncz i 3 * nrho i))%Z, (amp (ncz i 4) + amr (ncz i 5 * nrho i))%Z); (1%nat, pad i, (- amr (ncz i 4 * nrho i))%Z, 0%Z)].
Definition LPSI : list term := (0%nat, z8, 0%Z, amp (-1350)) :: flat_map psi_t (seq 0 77).
Definition LEPS : list term := (0%nat, z8, 0%Z, amp 3880) :: flat_map eps_t (seq 0 77).
Definition LDPSI : list term := flat_map dpsi_t (seq 0 77).
Definition LDEPS : list term := flat_map deps_t (seq 0 77).

Definition narg (i : nat) (t : R) : R := combo (nth i NALS []) (nut_angles t).
Definition nrate (i : nat) : R := rate (pad i).
Definition dpsi1 (t : R) : R := kap / 10 ^ 7 * sumn 77 (fun i =>
  nut_coef i 1 * sin (narg i t) + (nut_coef i 0 + nut_coef i 1 * t) * (cos (narg i t) * nrate i) - nut_coef i 2 * (sin (narg i t) * nrate i)).
Definition deps1 (t : R) : R := kap / 10 ^ 7 * sumn 77 (fun i =>
  nut_coef i 4 * cos (narg i t) - (nut_coef i 3 + nut_coef i 4 * t) * (sin (narg i t) * nrate i) + nut_coef i 5 * (cos (narg i t) * nrate i)).

Lemma sumn_lt : forall n f g, (forall i, (i < n)%nat -> f i = g i) -> sumn n f = sumn n g.
Proof. intros n f g H. induction n as [|n IH]; [reflexivity|]. cbn [sumn]. rewrite IH by (intros; apply H; lia). rewrite H by lia. reflexivity. Qed.
Lemma C1_sumn_lt : forall n (f f' : nat -> R -> R), (forall i, (i < n)%nat -> C1 (f i) (f' i)) -> C1 (fun t => sumn n (fun i => f i t)) (fun t => sumn n (fun i => f' i t)).
Proof.
  intros n f f' H. induction n as [|n IH]; cbn [sumn]; [apply C1_const|]. apply C1_plus; [apply IH; intros; apply H; lia|apply H; lia].
Qed.
Lemma narg_pad : forall i t, (i < 77)%nat -> narg i t = combo (pad i) (th t).
Proof. intros i t H. unfold narg, pad. apply pad_th. apply (ncz_b i 0 H ltac:(lia)). Qed.
Lemma narg_C1 : forall i, (i < 77)%nat -> C1 (narg i) (fun _ => nrate i).
Proof. intros i H. apply (C1_ext _ _ _ _ (th_C1 (pad i))); intros t; [symmetry; apply narg_pad; exact H|reflexivity]. Qed.
Lemma dpsi_C1 : C1 nut_dpsi dpsi1.
Proof.
  pose (f i t := (nut_coef i 0 + nut_coef i 1 * t) * sin (narg i t) + nut_coef i 2 * cos (narg i t)).
  pose (f' i t := nut_coef i 1 * sin (narg i t) + (nut_coef i 0 + nut_coef i 1 * t) * (cos (narg i t) * nrate i) - nut_coef i 2 * (sin (narg i t) * nrate i)).
  assert (S : C1 (fun t => sumn 77 (fun i => f i t)) (fun t => sumn 77 (fun i => f' i t))).
  { apply C1_sumn_lt. intros i Hi. pose proof (narg_C1 i Hi) as A.
    assert (L : C1 (fun t => nut_coef i 0 + nut_coef i 1 * t) (fun _ => nut_coef i 1))
      by (apply (C1_ext _ _ _ _ (C1_plus _ _ _ _ (C1_const (nut_coef i 0)) (C1_scal (nut_coef i 1) _ _ C1_id))); intros; ring).
    apply (C1_ext _ _ _ _ (C1_plus _ _ _ _ (C1_mult _ _ _ _ L (C1_sin _ _ A)) (C1_scal (nut_coef i 2) _ _ (C1_cos _ _ A)))); intros t; unfold f, f'; ring. }
  apply (C1_ext _ _ _ _ (C1_plus _ _ _ _ (C1_scal (kap / 10 ^ 7) _ _ S) (C1_const (kap * (- 0.000135))))); intros t; [|unfold dpsi1, f'; ring].
  unfold nut_dpsi, arcsec. fold kap. change (length NALS) with 77%nat. change (sumn 77 (fun i => f i t)) with
    (sumn 77 (fun i => let a := combo (nth i NALS []) (nut_angles t) in (nut_coef i 0 + nut_coef i 1 * t) * sin a + nut_coef i 2 * cos a)). lra.
Qed.
Lemma deps_C1 : C1 nut_deps deps1.
Proof.
  pose (f i t := (nut_coef i 3 + nut_coef i 4 * t) * cos (narg i t) + nut_coef i 5 * sin (narg i t)).
  pose (f' i t := nut_coef i 4 * cos (narg i t) - (nut_coef i 3 + nut_coef i 4 * t) * (sin (narg i t) * nrate i) + nut_coef i 5 * (cos (narg i t) * nrate i)).
  assert (S : C1 (fun t => sumn 77 (fun i => f i t)) (fun t => sumn 77 (fun i => f' i t))).
  { apply C1_sumn_lt. intros i Hi. pose proof (narg_C1 i Hi) as A.
    assert (L : C1 (fun t => nut_coef i 3 + nut_coef i 4 * t) (fun _ => nut_coef i 4))
      by (apply (C1_ext _ _ _ _ (C1_plus _ _ _ _ (C1_const (nut_coef i 3)) (C1_scal (nut_coef i 4) _ _ C1_id))); intros; ring).
    apply (C1_ext _ _ _ _ (C1_plus _ _ _ _ (C1_mult _ _ _ _ L (C1_cos _ _ A)) (C1_scal (nut_coef i 5) _ _ (C1_sin _ _ A)))); intros t; unfold f, f'; ring. }
  apply (C1_ext _ _ _ _ (C1_plus _ _ _ _ (C1_scal (kap / 10 ^ 7) _ _ S) (C1_const (kap * 0.000388)))); intros t; [|unfold deps1, f'; ring].
  unfold nut_deps, arcsec. fold kap. change (length NALS) with 77%nat. change (sumn 77 (fun i => f i t)) with
    (sumn 77 (fun i => let a := combo (nth i NALS []) (nut_angles t) in (nut_coef i 3 + nut_coef i 4 * t) * cos a + nut_coef i 5 * sin a)). lra.
Qed.

Lemma sum_close : forall t (g : R) (f : nat -> R) (T : nat -> list term) d n, (forall i, (i < n)%nat -> Rabs (g * f i - ev (th t) t (T i) / 10 ^ 18) <= d) ->
  Rabs (g * sumn n f - ev (th t) t (flat_map T (seq 0 n)) / 10 ^ 18) <= INR n * d.
Proof.
  intros t g f T d n H. induction n as [|n IH]; [cbn [sumn seq flat_map ev INR]; rewrite Rmult_0_r; unfold Rdiv; rewrite Rmult_0_l, Rminus_0_r, Rabs_R0; lra|].
  rewrite seq_S, flat_map_app, ev_app, S_INR. cbn [sumn flat_map Nat.add]. rewrite app_nil_r.
  replace (g * (sumn n f + f n) - (ev (th t) t (flat_map T (seq 0 n)) + ev (th t) t (T n)) / 10 ^ 18)
    with ((g * sumn n f - ev (th t) t (flat_map T (seq 0 n)) / 10 ^ 18) + (g * f n - ev (th t) t (T n) / 10 ^ 18)) by (unfold Rdiv; ring).
  eapply Rle_trans; [apply Rabs_triang|]. rewrite Rmult_plus_distr_r, Rmult_1_l. apply Rplus_le_compat; [apply IH; intros; apply H; lia|apply H; lia].
Qed.
Lemma const_close : forall t z, Rabs (kap / 10 ^ 7 * IZR z - ev1 (th t) t (0%nat, z8, 0%Z, amp z) / 10 ^ 18) = Rabs (kap / 10 ^ 7 * IZR z - val (amp z)).
Proof.
  intros t z. f_equal. cbn [ev1]. assert (C : combo z8 (th t) = 0) by (unfold z8, th, nut_angles; cbn [app combo]; ring). rewrite C, sin_0, cos_0. unfold val. cbn [pow]. lra.
Qed.
Ltac row_ok t i Hi :=
  rewrite !coef_int, ?(narg_pad i t Hi); cbn [ev ev1 psi_t eps_t dpsi_t deps_t];
  set (sa := sin (combo (pad i) (th t))); set (ca := cos (combo (pad i) (th t))).
Lemma psi_close : forall t, Rabs t <= 1 -> Rabs (nut_dpsi t - ev (th t) t LPSI / 10 ^ 18) <= 1300 / 10 ^ 18 /\ Rabs (nut_deps t - ev (th t) t LEPS / 10 ^ 18) <= 1300 / 10 ^ 18.
Proof.
  intros t Ht.
  assert (SC : forall i, Rabs (sin (combo (pad i) (th t))) <= 1 /\ Rabs (cos (combo (pad i) (th t))) <= 1) by (intros; split; [apply sin_abs|apply cos_abs]).
  assert (TU : forall x, Rabs x <= 1 -> Rabs (t * x) <= 1) by (intros x Hx; replace 1 with (1 * 1) by ring; apply mulb; assumption).
  assert (A : forall i q, (i < 77)%nat -> (q < 6)%nat -> Rabs (kap / 10 ^ 7 * IZR (ncz i q) - val (amp (ncz i q))) <= 4 / 10 ^ 18) by (intros; apply amp_ok, ncz_b; assumption).
  assert (P : Rabs (kap / 10 ^ 7 * sumn 77 (fun i => (nut_coef i 0 + nut_coef i 1 * t) * sin (narg i t) + nut_coef i 2 * cos (narg i t)) - ev (th t) t (flat_map psi_t (seq 0 77)) / 10 ^ 18) <= INR 77 * (4 * (4 / 10 ^ 18))).
  { apply sum_close. intros i Hi. row_ok t i Hi. destruct (SC i) as [S C].
    pose proof (lin4 _ _ _ _ _ _ _ _ _ (A i 0%nat Hi ltac:(lia)) (A i 1%nat Hi ltac:(lia)) (A i 2%nat Hi ltac:(lia)) zero_small S (TU _ S) C C) as L.
    fold sa ca in L. eapply Rle_trans; [|exact L]. right. f_equal. unfold val. cbn [pow]. lra. }
  assert (E : Rabs (kap / 10 ^ 7 * sumn 77 (fun i => (nut_coef i 3 + nut_coef i 4 * t) * cos (narg i t) + nut_coef i 5 * sin (narg i t)) - ev (th t) t (flat_map eps_t (seq 0 77)) / 10 ^ 18) <= INR 77 * (4 * (4 / 10 ^ 18))).
  { apply sum_close. intros i Hi. row_ok t i Hi. destruct (SC i) as [S C].
    pose proof (lin4 _ _ _ _ _ _ _ _ _ (A i 3%nat Hi ltac:(lia)) (A i 4%nat Hi ltac:(lia)) (A i 5%nat Hi ltac:(lia)) zero_small C (TU _ C) S S) as L.
    fold sa ca in L. eapply Rle_trans; [|exact L]. right. f_equal. unfold val. cbn [pow]. lra. }
  pose proof (const_close t (-1350)) as K1. pose proof (const_close t 3880) as K2. pose proof (amp_ok (-1350) eq_refl) as B1. pose proof (amp_ok 3880 eq_refl) as B2.
  rewrite <- K1 in B1. rewrite <- K2 in B2. clear K1 K2.
  replace (INR 77) with 77 in P, E by (cbn [INR]; lra).
  unfold nut_dpsi, nut_deps, LPSI, LEPS, arcsec. fold kap. change (length NALS) with 77%nat. cbn [ev]. cbv zeta.
  set (e1 := ev1 _ _ _) in B1 |- *. set (e2 := ev1 _ _ _) in B2 |- *. clearbody e1 e2.
  fold (narg 0 t). 
  change (sumn 77 (fun i => (nut_coef i 0 + nut_coef i 1 * t) * sin (combo (nth i NALS []) (nut_angles t)) + nut_coef i 2 * cos (combo (nth i NALS []) (nut_angles t))))
    with (sumn 77 (fun i => (nut_coef i 0 + nut_coef i 1 * t) * sin (narg i t) + nut_coef i 2 * cos (narg i t))).
  change (sumn 77 (fun i => (nut_coef i 3 + nut_coef i 4 * t) * cos (combo (nth i NALS []) (nut_angles t)) + nut_coef i 5 * sin (combo (nth i NALS []) (nut_angles t))))
    with (sumn 77 (fun i => (nut_coef i 3 + nut_coef i 4 * t) * cos (narg i t) + nut_coef i 5 * sin (narg i t))).
  set (s1 := sumn 77 _) in P |- *. set (s2 := sumn 77 _) in E |- *. set (l1 := ev _ _ (flat_map psi_t _)) in *. set (l2 := ev _ _ (flat_map eps_t _)) in *.
  clearbody s1 s2 l1 l2. apply Rabs_le_inv in P. apply Rabs_le_inv in E. apply Rabs_le_inv in B1. apply Rabs_le_inv in B2.
  set (k := kap) in *. clearbody k. split; apply Rabs_le; lra.
Qed.
Lemma dpsi_close : forall t, Rabs t <= 1 -> Rabs (dpsi1 t - ev (th t) t LDPSI / 10 ^ 18) <= 1300 / 10 ^ 18 /\ Rabs (deps1 t - ev (th t) t LDEPS / 10 ^ 18) <= 1300 / 10 ^ 18.
Proof.
  intros t Ht.
  assert (SC : forall i, Rabs (sin (combo (pad i) (th t))) <= 1 /\ Rabs (cos (combo (pad i) (th t))) <= 1) by (intros; split; [apply sin_abs|apply cos_abs]).
  assert (TU : forall x, Rabs x <= 1 -> Rabs (t * x) <= 1) by (intros x Hx; replace 1 with (1 * 1) by ring; apply mulb; assumption).
  assert (NU : forall x, Rabs x <= 1 -> Rabs (- x) <= 1) by (intros x Hx; rewrite Rabs_Ropp; exact Hx).
  assert (A : forall i q, (i < 77)%nat -> (q < 6)%nat -> Rabs (kap / 10 ^ 7 * IZR (ncz i q) - val (amp (ncz i q))) <= 4 / 10 ^ 18) by (intros; apply amp_ok, ncz_b; assumption).
  assert (B : forall i q, (i < 77)%nat -> (q < 6)%nat -> Rabs (kap / 10 ^ 7 * (IZR (ncz i q) * nrate i) - val (amr (ncz i q * nrho i))) <= 4 / 10 ^ 18).
  { intros i q Hi Hq. destruct (ncz_b i q Hi Hq) as (_ & N & L). unfold nrate, pad. rewrite (pad_rate _ L). fold (nrho i).
    pose proof (amr_ok _ N) as R. rewrite mult_IZR in R. eapply Rle_trans; [|exact R]. right. f_equal. unfold Rdiv. cbn [pow]. lra. }
  replace (1300 / 10 ^ 18) with (1300 / 10 ^ 18) by reflexivity.
  assert (Q : INR 77 * (4 * (4 / 10 ^ 18)) <= 1300 / 10 ^ 18) by (cbn [INR]; lra).
  split; (eapply Rle_trans; [|exact Q]); unfold dpsi1, deps1, LDPSI, LDEPS; apply sum_close; intros i Hi; row_ok t i Hi; destruct (SC i) as [S C]; rewrite ?val_minus, ?val_plus.
  - pose proof (lin4 _ _ _ _ _ _ _ _ _ (A i 1%nat Hi ltac:(lia)) (B i 0%nat Hi ltac:(lia)) (B i 1%nat Hi ltac:(lia)) (B i 2%nat Hi ltac:(lia)) S C (TU _ C) (NU _ S)) as L.
    fold sa ca in L. eapply Rle_trans; [|exact L]. right. f_equal. rewrite minus_IZR. unfold val. cbn [pow]. lra.
  - pose proof (lin4 _ _ _ _ _ _ _ _ _ (A i 4%nat Hi ltac:(lia)) (B i 3%nat Hi ltac:(lia)) (B i 4%nat Hi ltac:(lia)) (B i 5%nat Hi ltac:(lia)) C (NU _ S) (NU _ (TU _ S)) C) as L.
    fold sa ca in L. eapply Rle_trans; [|exact L]. right. f_equal. rewrite plus_IZR, !opp_IZR. unfold val. cbn [pow]. lra.
Qed.

(** ** The locator *)
Definition sorder (ang : R -> list R) (k : nat) (t : R) : R :=
  dec (nth k SP (0, 0)%Z) +
  sumn (length (nth k KSS [])) (fun i => let a := combo (nth i (nth k KSS []) []) (ang t) in cio_coef k i 0 * sin a + cio_coef k i 1 * cos a).
Definition sgen (ang : R -> list R) (t : R) : R := arcsec (sumn 6 (fun k => sorder ang k t * t ^ k)).
Definition dorder (ang ra : R -> list R) (k : nat) (t : R) : R :=
  sumn (length (nth k KSS [])) (fun i => let a := combo (nth i (nth k KSS []) []) (ang t) in let r := combo (nth i (nth k KSS []) []) (ra t) in
    cio_coef k i 0 * (cos a * r) - cio_coef k i 1 * (sin a * r)).
Definition dsgen (ang ra : R -> list R) (t : R) : R :=
  kap * sumn 6 (fun k => dorder ang ra k t * t ^ k + sorder ang k t * (INR k * t ^ Nat.pred k)).
Lemma sgen_cio : forall t, sgen cio_angles t = cio_sxy2 t.
Proof. reflexivity. Qed.
Lemma sgen_C1 : forall ang ra, (forall n, C1 (fun t => combo n (ang t)) (fun t => combo n (ra t))) -> C1 (sgen ang) (dsgen ang ra).
Proof.
  intros ang ra H.
  assert (O : forall k, C1 (sorder ang k) (dorder ang ra k)).
  { intros k. unfold sorder, dorder. 
    pose proof (C1_sumn (length (nth k KSS [])) (fun i t => cio_coef k i 0 * sin (combo (nth i (nth k KSS []) []) (ang t)) + cio_coef k i 1 * cos (combo (nth i (nth k KSS []) []) (ang t)))
      (fun i t => cio_coef k i 0 * (cos (combo (nth i (nth k KSS []) []) (ang t)) * combo (nth i (nth k KSS []) []) (ra t))
        + cio_coef k i 1 * - (sin (combo (nth i (nth k KSS []) []) (ang t)) * combo (nth i (nth k KSS []) []) (ra t)))) as S.
    assert (S' := S (fun i => C1_plus _ _ _ _ (C1_scal (cio_coef k i 0) _ _ (C1_sin _ _ (H (nth i (nth k KSS []) [])))) (C1_scal (cio_coef k i 1) _ _ (C1_cos _ _ (H (nth i (nth k KSS []) [])))))). clear S.
    apply (C1_ext _ _ _ _ (C1_plus _ _ _ _ (C1_const (dec (nth k SP (0, 0)%Z))) S')); intros t; [reflexivity|]. rewrite Rplus_0_l. cbv zeta.
    apply sumn_lt. intros i _. ring. }
  pose proof (C1_sumn 6 (fun k t => sorder ang k t * t ^ k) (fun k t => dorder ang ra k t * t ^ k + sorder ang k t * (INR k * t ^ Nat.pred k))
    (fun k => C1_mult _ _ _ _ (O k) (C1_pow k))) as S.
  apply (C1_ext _ _ _ _ (C1_scal kap _ _ S)); intros t; [unfold sgen, arcsec; fold kap; ring|reflexivity].
Qed.

(** The arguments of the locator and their linear parts. *)
Lemma combo_near : forall d A B, 0 <= d -> Forall2 (fun x y => Rabs (x - y) <= d) A B -> forall row, Rabs (combo row A - combo row B) <= IZR (sumabs row) * d.
Proof.
  intros d A B Hd F. induction F as [|x y A B H F IH]; intros row.
  - rewrite !combo_r, Rminus_0_r, Rabs_R0. apply Rmult_le_pos; [apply IZR_le, sumabs_nonneg|exact Hd].
  - destruct row as [|n row]; [rewrite !combo_nil, Rminus_0_r, Rabs_R0; cbn [sumabs fold_right]; lra|]. cbn [combo sumabs fold_right]. rewrite plus_IZR, abs_IZR.
    fold (sumabs row). replace (IZR n * x + combo row A - (IZR n * y + combo row B)) with (IZR n * (x - y) + (combo row A - combo row B)) by ring.
    eapply Rle_trans; [apply Rabs_triang|]. rewrite Rabs_mult, Rmult_plus_distr_r. apply Rplus_le_compat; [apply Rmult_le_compat_l; [apply Rabs_pos|exact H]|apply IH].
Qed.
Lemma cio_th : forall t, Rabs t <= 1 -> Forall2 (fun x y => Rabs (x - y) <= 0.000155) (cio_angles t) (th t).
Proof.
  intros t Ht. apply Rabs_le_inv in Ht. pose proof PI_bounds as P.
  assert (T2 : 0 <= t ^ 2 <= 1) by nra. assert (T3 : -1 <= t ^ 3 <= 1) by (replace (t ^ 3) with (t * t ^ 2) by ring; split; nra).
  assert (T4 : 0 <= t ^ 4 <= 1) by (replace (t ^ 4) with (t ^ 2 * t ^ 2) by ring; split; nra).
  assert (G : forall x y, -31.96 <= x - y <= 31.96 -> Rabs (arcsec x - arcsec y) <= 0.000155).
  { intros x y B. unfold arcsec. replace (x * (PI / 648000) - y * (PI / 648000)) with ((x - y) * (PI / 648000)) by ring.
    set (k := PI / 648000). assert (0 <= k <= 0.000004849) by (unfold k; lra). apply Rabs_le. split; nra. }
  unfold cio_angles, th, nut_angles, iers_l, iers_lp, iers_f, iers_d, iers_om, iers_pa. cbn [app].
  repeat (constructor; [first [apply G; lra|apply Rabs_le; lra]|]). constructor.
Qed.
Lemma sgen_near : forall t, Rabs t <= 1 -> Rabs (sgen cio_angles t - sgen th t) <= 0.00000000007.
Proof.
  intros t Ht. destruct camp_all as (V0 & V1 & V2 & V3 & V4 & V5).
  assert (O : forall k n, length (nth k KSS []) = n -> Rabs ((sorder cio_angles k t - sorder th k t) * t ^ k) <= 0.003565 * camp k 0 n).
  { intros k n Hn. rewrite Rabs_mult. pose proof (pow_abs1 k t Ht) as TK.
    assert (B : Rabs (sorder cio_angles k t - sorder th k t) <= 0.003565 * camp k 0 n).
    { unfold sorder. rewrite Hn, !sumn_sumR. 
      replace (_ - _) with (sumR (fun i => (cio_coef k i 0 * sin (combo (nth i (nth k KSS []) []) (cio_angles t)) + cio_coef k i 1 * cos (combo (nth i (nth k KSS []) []) (cio_angles t)))
        - (cio_coef k i 0 * sin (combo (nth i (nth k KSS []) []) (th t)) + cio_coef k i 1 * cos (combo (nth i (nth k KSS []) []) (th t)))) (seq 0 n)).
      2:{ cbv zeta. generalize (seq 0 n). intros l. induction l as [|i l IH]; [cbn [sumR fold_right]; ring|]. cbn [sumR fold_right]. unfold sumR in IH |- *. rewrite IH. ring. }
      unfold camp. rewrite <- sumR_plus, <- sumR_scal. apply sumR_abs. intros i _. unfold cd. rewrite !rl_dec. fold (cio_coef k i 0). fold (cio_coef k i 1).
      pose proof (combo_near 0.000155 _ _ ltac:(lra) (cio_th t Ht) (nth i (nth k KSS []) [])) as N.
      assert (NB : Rabs (combo (nth i (nth k KSS []) []) (cio_angles t) - combo (nth i (nth k KSS []) []) (th t)) <= 0.003565).
      { eapply Rle_trans; [exact N|]. pose proof (rows_cio k i) as RC. apply IZR_le in RC. lra. }
      set (a := combo _ (cio_angles t)) in *. set (b := combo _ (th t)) in *.
      replace (_ - _) with (cio_coef k i 0 * (sin a - sin b) + cio_coef k i 1 * (cos a - cos b)) by ring.
      eapply Rle_trans; [apply Rabs_triang|]. rewrite !Rabs_mult. pose proof (L_Epv.sin_lip a b) as Sl. pose proof (L_Orbit.cos_lip a b) as Cl.
      rewrite Rmult_plus_distr_l. apply Rplus_le_compat; (rewrite Rmult_comm; apply Rmult_le_compat_r; [apply Rabs_pos|lra]). }
    pose proof (Rabs_pos (t ^ k)). pose proof (Rabs_pos (sorder cio_angles k t - sorder th k t)). nra. }
  unfold sgen. replace (arcsec (sumn 6 (fun k => sorder cio_angles k t * t ^ k)) - arcsec (sumn 6 (fun k => sorder th k t * t ^ k)))
    with (kap * (sumn 6 (fun k => (sorder cio_angles k t - sorder th k t) * t ^ k))) by (unfold arcsec; fold kap; cbn [sumn]; ring).
  pose proof (O 0%nat 33%nat eq_refl) as O0. pose proof (O 1%nat 3%nat eq_refl) as O1. pose proof (O 2%nat 25%nat eq_refl) as O2. pose proof (O 3%nat 4%nat eq_refl) as O3.
  pose proof (O 4%nat 1%nat eq_refl) as O4. pose proof (O 5%nat 0%nat eq_refl) as O5.
  cbn [sumn]. set (o0 := _ * t ^ 0) in *. set (o1 := _ * t ^ 1) in *. set (o2 := _ * t ^ 2) in *. set (o3 := _ * t ^ 3) in *. set (o4 := _ * t ^ 4) in *. set (o5 := _ * t ^ 5) in *.
  clearbody o0 o1 o2 o3 o4 o5. rewrite Rabs_mult. pose proof kap_b as K. rewrite (Rabs_pos_eq kap) by lra.
  assert (S : Rabs (0 + o0 + o1 + o2 + o3 + o4 + o5) <= 0.0000131).
  { apply Rabs_le_inv in O0. apply Rabs_le_inv in O1. apply Rabs_le_inv in O2. apply Rabs_le_inv in O3. apply Rabs_le_inv in O4. apply Rabs_le_inv in O5. apply Rabs_le. lra. }
  pose proof (Rabs_pos (0 + o0 + o1 + o2 + o3 + o4 + o5)). set (s := Rabs _) in *. clearbody s. set (k := kap) in *. clearbody k. nra.
Qed.

(** Rates: units of 1e-10 radians per century. *)
Definition srate (n : list Z) : Z := (zcombo n rates5 * KA / 10 ^ 18 + zcombo (skipn 5 n) planets)%Z.
Lemma srate_ok : forall n, (Z.abs (zcombo n rates5) <=? 10 ^ 17)%Z = true -> Rabs (rate n - IZR (srate n) / 10 ^ 10) <= 1.2 / 10 ^ 10.
Proof.
  intros n H. apply zabs_le in H. unfold rate, srate. rewrite plus_IZR. set (z := zcombo n rates5) in *. set (p := IZR (zcombo (skipn 5 n) planets)). clearbody z p.
  pose proof (floor_ok (z * KA) (10 ^ 18) ltac:(lia)) as F. rewrite mult_IZR in F. set (w := IZR (z * KA / 10 ^ 18)) in *. clearbody w.
  pose proof kap_b as K. assert (M : Rabs ((kap - IZR KA / 10 ^ 24) * IZR z) <= 1 / 10 ^ 24 * IZR (10 ^ 17)).
  { rewrite Rabs_mult. apply Rmult_le_compat; try apply Rabs_pos; [|exact H]. unfold KA. apply Rabs_le. lra. }
  change (10 ^ 17)%Z with 100000000000000000%Z in M. change (10 ^ 18)%Z with 1000000000000000000%Z in F.
  apply Rabs_le_inv in F. apply Rabs_le_inv in M. set (y := IZR z) in *. clearbody y. set (q := IZR KA) in *. clearbody q.
  replace (kap / 10 ^ 4 * y + p / 10 ^ 10 - (w + p) / 10 ^ 10) with (kap / 10 ^ 4 * y - w / 10 ^ 10) by (unfold Rdiv; ring).
  replace ((kap - q / 10 ^ 24) * y) with (kap * y - q * y / 10 ^ 24) in M by (unfold Rdiv; ring).
  replace (kap / 10 ^ 4 * y) with (kap * y / 10 ^ 4) by (unfold Rdiv; ring). rewrite (Rmult_comm y q) in F.
  set (ky := kap * y) in *. set (qy := q * y) in *. clearbody ky qy. apply Rabs_le. lra.
Qed.

Definition scz (k i q : nat) : Z := let d := nth q (nth i (nth k SSS []) []) (0, 0)%Z in (fst d * 10 ^ (10 + snd d))%Z.
Definition spz (k : nat) : Z := let d := nth k SP (0, 0)%Z in (fst d * 10 ^ (10 + snd d))%Z.
Lemma dec10 : forall d, (0 <=? 10 + snd d)%Z = true -> dec d = IZR (fst d * 10 ^ (10 + snd d)) / 10 ^ 10.
Proof.
  intros [m e] H. cbn [fst snd] in *. apply Z.leb_le in H. unfold dec. cbn [fst snd]. rewrite mult_IZR. 
  replace (powerRZ 10 e) with (powerRZ 10 (10 + e) * powerRZ 10 (-10)) by (rewrite <- powerRZ_add by lra; f_equal; lia).
  rewrite <- (Z2Nat.id (10 + e)) by lia. rewrite <- pow_powerRZ, pow_IZR.
  replace (powerRZ 10 (-10)) with (/ 10 ^ 10) by (cbn [powerRZ]; f_equal; cbn; ring). unfold Rdiv. ring.
Qed.
Lemma scz_ok : forall k i q, cio_coef k i q = IZR (scz k i q) / 10 ^ 10.
Proof.
  intros k i q. unfold cio_coef, scz. apply dec10. 
  apply (nth_forall _ (fun d => (0 <=? 10 + snd d)%Z = true)); [reflexivity|].
  apply (nth_forall _ (fun l => Forall (fun d => (0 <=? 10 + snd d)%Z = true) l)); [constructor|].
  apply (nth_forall _ (fun l => Forall (fun l => Forall (fun d => (0 <=? 10 + snd d)%Z = true) l) l)); [constructor|].
  assert (F : forallb (forallb (forallb (fun d : Z * Z => (0 <=? 10 + snd d)%Z))) SSS = true) by (vm_compute; reflexivity).
  rewrite forallb_forall in F. apply Forall_forall. intros l Hl. specialize (F l Hl). rewrite forallb_forall in F. apply Forall_forall. intros x Hx.
  specialize (F x Hx). rewrite forallb_forall in F. apply Forall_forall. exact F.
Qed.
Lemma spz_ok : forall k, dec (nth k SP (0, 0)%Z) = IZR (spz k) / 10 ^ 10.
Proof.
  intros k. unfold spz. apply dec10. apply (nth_forall _ (fun d => (0 <=? 10 + snd d)%Z = true)); [reflexivity|].
  assert (F : forallb (fun d : Z * Z => (0 <=? 10 + snd d)%Z) SP = true) by (vm_compute; reflexivity). rewrite forallb_forall in F. apply Forall_forall. exact F.
Qed.
Definition s_t (k i : nat) : list term :=
  let n := nth i (nth k KSS []) [] in
  [(Nat.pred k, n, samp (Z.of_nat k * scz k i 0), samp (Z.of_nat k * scz k i 1)); (k, n, (- samr (scz k i 1 * srate n))%Z, samr (scz k i 0 * srate n))].
Definition s_k (k : nat) : list term := (Nat.pred k, z8, 0%Z, samp (Z.of_nat k * spz k)) :: flat_map (s_t k) (seq 0 (length (nth k KSS []))).
Definition LS : list term := flat_map s_k (seq 0 6).
Lemma s_b : forall k i q, (k < 6)%nat -> (i < length (nth k KSS []))%nat -> (q < 2)%nat ->
  (Z.abs (Z.of_nat k * scz k i q) <=? 10 ^ 15)%Z = true /\ (Z.abs (scz k i q * srate (nth i (nth k KSS []) [])) <=? 10 ^ 25)%Z = true /\
  (Z.abs (zcombo (nth i (nth k KSS []) []) rates5) <=? 10 ^ 17)%Z = true /\ (Z.abs (scz k i q) <=? 10 ^ 9)%Z = true /\ (Z.abs (Z.of_nat k * spz k) <=? 10 ^ 15)%Z = true.
Proof.
  intros k i q Hk Hi Hq.
  assert (F : forallb (fun k => forallb (fun i => forallb (fun q => 
    (Z.abs (Z.of_nat k * scz k i q) <=? 10 ^ 15)%Z && ((Z.abs (scz k i q * srate (nth i (nth k KSS []) [])) <=? 10 ^ 25)%Z &&
    ((Z.abs (zcombo (nth i (nth k KSS []) []) rates5) <=? 10 ^ 17)%Z && ((Z.abs (scz k i q) <=? 10 ^ 9)%Z && (Z.abs (Z.of_nat k * spz k) <=? 10 ^ 15)%Z)))) (seq 0 2)) (seq 0 (length (nth k KSS [])))) (seq 0 6) = true) by (vm_compute; reflexivity).
  rewrite forallb_forall in F. specialize (F k ltac:(apply in_seq; lia)). rewrite forallb_forall in F. specialize (F i ltac:(apply in_seq; lia)).
  rewrite forallb_forall in F. specialize (F q ltac:(apply in_seq; lia)). apply andb_prop in F. destruct F as [F1 F]. apply andb_prop in F. destruct F as [F2 F].
  apply andb_prop in F. destruct F as [F3 F]. apply andb_prop in F. tauto.
Qed.

(** ** The rate of the locator, arguments linear in time *)
Definition rt : list R :=
  [arcsec 1717915923.2178; arcsec 129596581.0481; arcsec 1739527262.8478; arcsec 1602961601.2090; arcsec (- 6962890.5431);
   1021.3285546211; 628.3075849991; 0.024381750].
Lemma rt_rate : forall n, combo n rt = rate n.
Proof.
  intros n. unfold rt, rate, kap, rates5, planets.
  do 8 (destruct n as [|? n]; [cbn [app combo zcombo skipn]; rewrite ?plus_IZR, ?mult_IZR; unfold arcsec; lra|]).
  cbn [app combo zcombo skipn]. rewrite combo_r. assert (Z0 : zcombo n [] = 0%Z) by (destruct n; reflexivity). rewrite Z0, !plus_IZR, !mult_IZR. unfold arcsec. lra.
Qed.
Definition dsth : R -> R := dsgen th (fun _ => rt).
Lemma sth_C1 : C1 (sgen th) dsth.
Proof. apply sgen_C1. intros n. apply (C1_ext _ _ _ _ (th_C1 n)); intros t; [reflexivity|symmetry; apply rt_rate]. Qed.
Definition ds_k (k : nat) (t : R) : R := dorder th (fun _ => rt) k t * t ^ k + sorder th k t * (INR k * t ^ Nat.pred k).
Definition ds_i (k : nat) (t : R) (i : nat) : R :=
  let n := nth i (nth k KSS []) [] in
  (cio_coef k i 0 * (cos (combo n (th t)) * rate n) - cio_coef k i 1 * (sin (combo n (th t)) * rate n)) * t ^ k
  + (cio_coef k i 0 * sin (combo n (th t)) + cio_coef k i 1 * cos (combo n (th t))) * (INR k * t ^ Nat.pred k).
Lemma sumn_lin : forall n (f g : nat -> R) a b, sumn n (fun i => f i * a + g i * b) = sumn n f * a + sumn n g * b.
Proof. intros n f g a b. induction n as [|n IH]; cbn [sumn]; [ring|rewrite IH; ring]. Qed.
Lemma ds_k_sum : forall k t, ds_k k t = dec (nth k SP (0, 0)%Z) * (INR k * t ^ Nat.pred k) + sumn (length (nth k KSS [])) (ds_i k t).
Proof.
  intros k t. unfold ds_k, dorder, sorder. cbv zeta.
  rewrite (sumn_lt _ (ds_i k t) (fun i => (cio_coef k i 0 * (cos (combo (nth i (nth k KSS []) []) (th t)) * combo (nth i (nth k KSS []) []) rt) - cio_coef k i 1 * (sin (combo (nth i (nth k KSS []) []) (th t)) * combo (nth i (nth k KSS []) []) rt)) * t ^ k
    + (cio_coef k i 0 * sin (combo (nth i (nth k KSS []) []) (th t)) + cio_coef k i 1 * cos (combo (nth i (nth k KSS []) []) (th t))) * (INR k * t ^ Nat.pred k))).
  - rewrite sumn_lin. set (x := sumn _ _). set (y := sumn _ _). clearbody x y. ring.
  - intros i _. unfold ds_i. cbv zeta. rewrite rt_rate. reflexivity.
Qed.
Lemma ds_row : forall k i t, Rabs t <= 1 -> (k < 6)%nat -> (i < length (nth k KSS []))%nat ->
  Rabs (kap * ds_i k t i - ev (th t) t (s_t k i) / 10 ^ 18) <= 4 * (70 / 10 ^ 18).
Proof.
  intros k i t Ht Hk Hi. pose proof (pow_abs1 k t Ht) as TK. pose proof (pow_abs1 (Nat.pred k) t Ht) as TP.
  set (n := nth i (nth k KSS []) []).
  assert (P : forall q, (q < 2)%nat -> Rabs (kap / 10 ^ 10 * (INR k * IZR (scz k i q)) - val (samp (Z.of_nat k * scz k i q))) <= 70 / 10 ^ 18).
  { intros q Hq. destruct (s_b k i q Hk Hi Hq) as (B & _). apply samp_ok in B. rewrite mult_IZR, <- INR_IZR_INZ in B. eapply Rle_trans; [exact B|lra]. }
  assert (Q : forall q, (q < 2)%nat -> Rabs (kap / 10 ^ 10 * (IZR (scz k i q) * rate n) - val (samr (scz k i q * srate n))) <= 70 / 10 ^ 18).
  { intros q Hq. destruct (s_b k i q Hk Hi Hq) as (_ & B & C & D & _). fold n in B, C. apply samr_ok in B. apply srate_ok in C. apply zabs_le in D. change (10 ^ 9)%Z with 1000000000%Z in D. rewrite mult_IZR in B.
    set (c := IZR (scz k i q)) in *. set (w := val _) in *. set (z := IZR (srate n)) in *. set (r := rate n) in *. clearbody c w z r.
    pose proof (mulb _ _ _ _ D C) as M. pose proof kap_b as K. assert (N : Rabs (kap * (c * (r - z / 10 ^ 10))) <= 0.0000049 * (1000000000 * (1.2 / 10 ^ 10))).
    { apply mulb; [apply Rabs_le; lra|exact M]. }
    replace (kap / 10 ^ 10 * (c * r) - w) with ((kap / 10 ^ 20 * (c * z) - w) + / 10 ^ 10 * (kap * (c * (r - z / 10 ^ 10)))) by (field; lra).
    eapply Rle_trans; [apply Rabs_triang|]. rewrite Rabs_mult, (Rabs_pos_eq (/ 10 ^ 10)) by lra. set (x := Rabs (_ - w)) in *. set (y := Rabs (kap * _)) in *. clearbody x y. lra. }
  unfold ds_i, s_t. cbv zeta. fold n. cbn [ev ev1]. pose proof (sin_abs (combo n (th t))) as S. pose proof (cos_abs (combo n (th t))) as C.
  set (sa := sin (combo n (th t))) in *. set (ca := cos (combo n (th t))) in *.
  assert (M : forall a b, Rabs a <= 1 -> Rabs b <= 1 -> Rabs (a * b) <= 1) by (intros a b Ha Hb; replace 1 with (1 * 1) by ring; apply mulb; assumption).
  assert (NS : Rabs (- sa) <= 1) by (rewrite Rabs_Ropp; exact S).
  pose proof (lin4 _ _ _ _ _ _ _ _ _ (P 0%nat ltac:(lia)) (P 1%nat ltac:(lia)) (Q 0%nat ltac:(lia)) (Q 1%nat ltac:(lia)) (M _ _ TP S) (M _ _ TP C) (M _ _ TK C) (M _ _ TK NS)) as L.
  eapply Rle_trans; [|exact L]. right. f_equal. rewrite !scz_ok, opp_IZR. unfold val, Rdiv. ring.
Qed.
Lemma ds_order : forall k t, Rabs t <= 1 -> (k < 6)%nat -> Rabs (kap * ds_k k t - ev (th t) t (s_k k) / 10 ^ 18) <= (4 + INR (length (nth k KSS [])) * 280) / 10 ^ 18.
Proof.
  intros k t Ht Hk. rewrite ds_k_sum. unfold s_k. cbn [ev].
  pose proof (sum_close t kap (ds_i k t) (s_t k) (4 * (70 / 10 ^ 18)) (length (nth k KSS [])) (fun i Hi => ds_row k i t Ht Hk Hi)) as S.
  assert (B : (Z.abs (Z.of_nat k * spz k) <=? 10 ^ 15)%Z = true).
  { assert (F : forallb (fun k => (Z.abs (Z.of_nat k * spz k) <=? 10 ^ 15)%Z) (seq 0 6) = true) by (vm_compute; reflexivity). rewrite forallb_forall in F. apply F, in_seq. lia. }
  apply samp_ok in B. rewrite mult_IZR, <- INR_IZR_INZ in B. cbn [ev1].
  assert (C : combo z8 (th t) = 0) by (unfold z8, th, nut_angles; cbn [app combo]; ring). rewrite C, sin_0, cos_0.
  pose proof (pow_abs1 (Nat.pred k) t Ht) as TP. rewrite spz_ok.
  assert (M : Rabs ((kap / 10 ^ 10 * (INR k * IZR (spz k)) - val (samp (Z.of_nat k * spz k))) * t ^ Nat.pred k) <= 4 / 10 ^ 18 * 1) by (apply mulb; assumption).
  set (s := sumn _ _) in *. set (l := ev _ _ _) in *. set (N := INR (length _)) in *. clearbody s l N. unfold val in *. set (a := IZR (samp _)) in *. clearbody a.
  set (p := t ^ Nat.pred k) in *. clearbody p. set (b := IZR (spz k)) in *. clearbody b.
  replace (kap * (b / 10 ^ 10 * (INR k * p) + s) - (p * (0 * 0 + a * 1) + l) / 10 ^ 18) with ((kap / 10 ^ 10 * (INR k * b) - a / 10 ^ 18) * p + (kap * s - l / 10 ^ 18)) by (unfold Rdiv; ring).
  eapply Rle_trans; [apply Rabs_triang|]. set (u := Rabs _) in *. set (v := Rabs _) in *. clearbody u v. lra.
Qed.
Lemma ds_close : forall t, Rabs t <= 1 -> Rabs (dsth t - ev (th t) t LS / 10 ^ 18) <= 20000 / 10 ^ 18.
Proof.
  intros t Ht. unfold dsth, dsgen, LS. fold (ds_k 0 t). change (sumn 6 _) with (sumn 6 (fun k => ds_k k t)).
  change (seq 0 6) with [0; 1; 2; 3; 4; 5]%nat. cbn [flat_map]. rewrite !ev_app. cbn [ev sumn].
  pose proof (ds_order 0 t Ht ltac:(lia)) as H0. pose proof (ds_order 1 t Ht ltac:(lia)) as H1. pose proof (ds_order 2 t Ht ltac:(lia)) as H2.
  pose proof (ds_order 3 t Ht ltac:(lia)) as H3. pose proof (ds_order 4 t Ht ltac:(lia)) as H4. pose proof (ds_order 5 t Ht ltac:(lia)) as H5.
  change (length (nth 0 KSS [])) with 33%nat in H0. change (length (nth 1 KSS [])) with 3%nat in H1. change (length (nth 2 KSS [])) with 25%nat in H2.
  change (length (nth 3 KSS [])) with 4%nat in H3. change (length (nth 4 KSS [])) with 1%nat in H4. change (length (nth 5 KSS [])) with 0%nat in H5.
  rewrite INR_IZR_INZ in H0, H1, H2, H3, H4, H5. cbn [Z.of_nat Pos.of_succ_nat Pos.succ] in H0, H1, H2, H3, H4, H5.
  set (e0 := ev _ _ (s_k 0)) in *. set (e1 := ev _ _ (s_k 1)) in *. set (e2 := ev _ _ (s_k 2)) in *. set (e3 := ev _ _ (s_k 3)) in *. set (e4 := ev _ _ (s_k 4)) in *. set (e5 := ev _ _ (s_k 5)) in *.
  set (d0 := ds_k 0 t) in *. set (d1 := ds_k 1 t) in *. set (d2 := ds_k 2 t) in *. set (d3 := ds_k 3 t) in *. set (d4 := ds_k 4 t) in *. set (d5 := ds_k 5 t) in *.
  clearbody e0 e1 e2 e3 e4 e5 d0 d1 d2 d3 d4 d5. 
  replace (kap * (0 + d0 + d1 + d2 + d3 + d4 + d5)) with (kap * d0 + kap * d1 + kap * d2 + kap * d3 + kap * d4 + kap * d5) by ring.
  apply Rabs_le_inv in H0. apply Rabs_le_inv in H1. apply Rabs_le_inv in H2. apply Rabs_le_inv in H3. apply Rabs_le_inv in H4. apply Rabs_le_inv in H5.
  set (k0 := kap * d0) in *. set (k1 := kap * d1) in *. set (k2 := kap * d2) in *. set (k3 := kap * d3) in *. set (k4 := kap * d4) in *. set (k5 := kap * d5) in *.
  clearbody k0 k1 k2 k3 k4 k5. apply Rabs_le. lra.
Qed.
