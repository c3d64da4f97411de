(** * Lemmas on the trigonometric series and their tables *)

From Coq Require Import ZArith Reals Lra Lia Bool List.
From Flocq Require Import Core.
From Verif Require Import Outcome Arith ArithR M_Common M_Time M_Earth M_Locator M_Frames T_Epv00 T_Nut T_Cio.
From Verif Require Import L_ArithR.
Import ListNotations.
Open Scope R_scope.

Lemma for_each_val : forall (I S : Type) (body : S -> I -> outcome S) (f : S -> I -> S) l,
  (forall s i, In i l -> body s i = Val (f s i)) ->
  forall s, for_each l s body = Val (fold_left f l s).
Proof.
  intros I S body f l. induction l as [|i l IH]; intros H s; [reflexivity|].
  cbn [for_each fold_left]. rewrite (H s i (or_introl eq_refl)). cbn [bind].
  apply IH. intros s' j Hj. apply H. right. exact Hj.
Qed.

Lemma index_nth : forall (T : Type) (l : list T) i d, (i < length l)%nat -> index l i = Val (nth i l d).
Proof. intros T l i d H. unfold index. rewrite (nth_error_nth' l d H). reflexivity. Qed.

(** ** Tables *)

Definition getd (tab : table) (q j k : nat) : Z * Z := nth k (nth j (nth q tab []) []) (0, 0)%Z.

Definition shape (n : nat) (tab : table) : bool :=
  (length tab =? 3)%nat &&
  forallb (fun b => (n <=? length b)%nat && forallb (fun r => (length r =? 3)%nat) b) tab.

Lemma tab_get_val : forall (A : arith) tab n, shape n tab = true ->
  forall q j k, (q < 3)%nat -> (j < n)%nat -> (k < 3)%nat ->
  tab_get (A := A) tab q j k = Val (lit A (fst (getd tab q j k)) (snd (getd tab q j k))).
Proof.
  intros A tab n H q j k Hq Hj Hk. unfold shape in H. apply andb_true_iff in H. destruct H as [H1 H2].
  apply Nat.eqb_eq in H1. rewrite forallb_forall in H2.
  unfold tab_get, getd. rewrite (index_nth _ tab q []) by lia. cbn [bind].
  assert (Hb : In (nth q tab []) tab) by (apply nth_In; lia).
  apply H2 in Hb. apply andb_true_iff in Hb. destruct Hb as [Hb1 Hb2].
  apply Nat.leb_le in Hb1. rewrite forallb_forall in Hb2.
  rewrite (index_nth _ _ j []) by lia. cbn [bind].
  assert (Hr : In (nth j (nth q tab []) []) (nth q tab [])) by (apply nth_In; lia).
  apply Hb2 in Hr. apply Nat.eqb_eq in Hr.
  rewrite (index_nth _ _ k (0, 0)%Z) by lia. reflexivity.
Qed.

Section AnyArith.
Context (A : arith).
Local Notation tv tab q j k := (lit A (fst (getd tab q j k)) (snd (getd tab q j k))).
Local Open Scope num_scope.

Definition f0 (tab : table) (k : nat) (t : num A) (st : num A * num A) (j : nat) : num A * num A :=
  let p := tv tab 1%nat j k + tv tab 2%nat j k * t in
  (fst st + tv tab 0%nat j k * ncos A p, snd st - tv tab 0%nat j k * tv tab 2%nat j k * nsin A p).
Definition f1 (tab : table) (k : nat) (t : num A) (st : num A * num A) (j : nat) : num A * num A :=
  let ct := tv tab 2%nat j k * t in
  let p := tv tab 1%nat j k + ct in
  (fst st + tv tab 0%nat j k * t * ncos A p, snd st + tv tab 0%nat j k * (ncos A p - ct * nsin A p)).
Definition f2 (tab : table) (k : nat) (t t2 : num A) (st : num A * num A) (j : nat) : num A * num A :=
  let ct := tv tab 2%nat j k * t in
  let p := tv tab 1%nat j k + ct in
  (fst st + tv tab 0%nat j k * t2 * ncos A p,
   snd st + tv tab 0%nat j k * t * (lit A 2 0 * ncos A p - ct * nsin A p)).

Ltac do_terms H :=
  intros; unfold terms0, terms1, terms2; apply for_each_val; intros [x xd] j Hj; apply in_seq in Hj;
  rewrite !(tab_get_val A _ _ H) by lia; reflexivity.

Lemma terms0_val : forall tab n k t st, shape n tab = true -> (k < 3)%nat ->
  terms0 (A := A) tab n k t st = Val (fold_left (f0 tab k t) (seq 0 n) st).
Proof. intros tab n k t st H Hk. do_terms H. Qed.
Lemma terms1_val : forall tab n k t st, shape n tab = true -> (k < 3)%nat ->
  terms1 (A := A) tab n k t st = Val (fold_left (f1 tab k t) (seq 0 n) st).
Proof. intros tab n k t st H Hk. do_terms H. Qed.
Lemma terms2_val : forall tab n k t t2 st, shape n tab = true -> (k < 3)%nat ->
  terms2 (A := A) tab n k t t2 st = Val (fold_left (f2 tab k t t2) (seq 0 n) st).
Proof. intros tab n k t t2 st H Hk. do_terms H. Qed.

Definition nn (l : list nat) (k : nat) : nat := nth k l 0%nat.

Definition helio_st (k : nat) (t : num A) : num A * num A :=
  fold_left (f2 E2 k t (t * t)) (seq 0 (nn NE2 k))
    (fold_left (f1 E1 k t) (seq 0 (nn NE1 k))
      (fold_left (f0 E0 k t) (seq 0 (nn NE0 k)) (lit A 0 0, lit A 0 0))).
Definition bary_st (k : nat) (t : num A) : num A * num A :=
  fold_left (f2 S2 k t (t * t)) (seq 0 (nn NS2 k))
    (fold_left (f1 S1 k t) (seq 0 (nn NS1 k))
      (fold_left (f0 S0 k t) (seq 0 (nn NS0 k)) (helio_st k t))).

Lemma shapes : forallb (fun k => shape (nn NE0 k) E0 && shape (nn NE1 k) E1 && shape (nn NE2 k) E2 &&
  shape (nn NS0 k) S0 && shape (nn NS1 k) S1 && shape (nn NS2 k) S2)%bool [0; 1; 2]%nat = true.
Proof. vm_compute. reflexivity. Qed.

Lemma epv_component_val : forall k t, (k < 3)%nat ->
  epv_component (A := A) k t = Val (fst (helio_st k t), snd (helio_st k t) / DJY,
                                    (fst (bary_st k t), snd (bary_st k t) / DJY)).
Proof.
  intros k t Hk. pose proof shapes as H. rewrite forallb_forall in H.
  assert (Hin : In k [0; 1; 2]%nat) by (destruct k as [|[|[|k]]]; cbn; auto; lia).
  specialize (H k Hin). repeat rewrite andb_true_iff in H. destruct H as [[[[[H1 H2] H3] H4] H5] H6].
  unfold epv_component.
  assert (I0 : index NE0 k = Val (nn NE0 k)) by (apply index_nth; exact Hk).
  assert (I1 : index NE1 k = Val (nn NE1 k)) by (apply index_nth; exact Hk).
  assert (I2 : index NE2 k = Val (nn NE2 k)) by (apply index_nth; exact Hk).
  assert (J0 : index NS0 k = Val (nn NS0 k)) by (apply index_nth; exact Hk).
  assert (J1 : index NS1 k = Val (nn NS1 k)) by (apply index_nth; exact Hk).
  assert (J2 : index NS2 k = Val (nn NS2 k)) by (apply index_nth; exact Hk).
  rewrite I0, I1, I2, J0, J1, J2. cbn [bind].
  rewrite terms0_val by assumption. cbn [bind]. rewrite terms1_val by assumption. cbn [bind].
  rewrite terms2_val by assumption. cbn [bind]. rewrite terms0_val by assumption. cbn [bind].
  rewrite terms1_val by assumption. cbn [bind]. rewrite terms2_val by assumption. cbn [bind].
  reflexivity.
Qed.

Definition epv_val (d : TDB A) : EarthPosVel A :=
  let t := epv_years d in
  let h k := helio_st k t in let b k := bary_st k t in
  MkEPV
    (MkPosVel (ecl_to_icrf (fst (h 0%nat)) (fst (h 1%nat)) (fst (h 2%nat)))
              (ecl_to_icrf (snd (h 0%nat) / DJY) (snd (h 1%nat) / DJY) (snd (h 2%nat) / DJY)))
    (MkPosVel (ecl_to_icrf (fst (b 0%nat)) (fst (b 1%nat)) (fst (b 2%nat)))
              (ecl_to_icrf (snd (b 0%nat) / DJY) (snd (b 1%nat) / DJY) (snd (b 2%nat) / DJY)))
    (if nabs A t <? lit A 100 0 then None else Some DateOutOfRange).

Lemma earth_pos_vel_val : forall d, earth_pos_vel (A := A) d = Val (epv_val d).
Proof.
  intros d. unfold earth_pos_vel. rewrite !epv_component_val by lia. reflexivity.
Qed.

(** ** Nutation *)

Definition nut_arg (i : nat) (t : num A) : num A :=
  let n q := of_int A (nth q (nth i NALS []) 0%Z) in
  (n 0%nat * nut_el t + n 1%nat * nut_elp t + n 2%nat * nut_f t + n 3%nat * nut_d t + n 4%nat * nut_om t) %% c_two_pi A.
Definition cls (i q : nat) : num A :=
  let d := nth q (nth i CLS []) (0, 0)%Z in lit A (fst d) (snd d).
Definition nut_step (t : num A) (st : num A * num A) (i : nat) : num A * num A :=
  (fst st + ((cls i 0 + cls i 1 * t) * nsin A (nut_arg i t) + cls i 2 * ncos A (nut_arg i t)),
   snd st + ((cls i 3 + cls i 4 * t) * ncos A (nut_arg i t) + cls i 5 * nsin A (nut_arg i t))).

Lemma nut_shape : (length NALS = 77 /\ length CLS = 77)%nat /\
  forallb (fun r => (length r =? 5)%nat) NALS = true /\ forallb (fun r => (length r =? 6)%nat) CLS = true.
Proof. repeat split. Qed.

Definition nut_sum (t : num A) : num A * num A :=
  fold_left (nut_step t) (rev (seq 0 77)) (lit A 0 0, lit A 0 0).

Lemma nut_series_val : forall t, nut_series (A := A) t = Val (nut_sum t).
Proof.
  intros t. unfold nut_series, nut_sum. apply for_each_val. intros [dp de] i Hi.
  apply in_rev in Hi. apply in_seq in Hi. destruct nut_shape as [[L1 L2] [S1 S2]].
  rewrite forallb_forall in S1, S2.
  assert (R1 : length (nth i NALS []) = 5%nat) by (apply Nat.eqb_eq, S1, nth_In; lia).
  assert (R2 : length (nth i CLS []) = 6%nat) by (apply Nat.eqb_eq, S2, nth_In; lia).
  rewrite (index_nth _ NALS i []) by lia. cbn [bind].
  rewrite (index_nth _ (nth i NALS []) 0 0%Z) by lia. cbn [bind].
  rewrite (index_nth _ (nth i NALS []) 1 0%Z) by lia. cbn [bind].
  rewrite (index_nth _ (nth i NALS []) 2 0%Z) by lia. cbn [bind].
  rewrite (index_nth _ (nth i NALS []) 3 0%Z) by lia. cbn [bind].
  rewrite (index_nth _ (nth i NALS []) 4 0%Z) by lia. cbn [bind].
  rewrite (index_nth _ CLS i []) by lia. cbn [bind].
  rewrite (index_nth _ (nth i CLS []) 0 (0, 0)%Z) by lia. cbn [bind].
  rewrite (index_nth _ (nth i CLS []) 1 (0, 0)%Z) by lia. cbn [bind].
  rewrite (index_nth _ (nth i CLS []) 2 (0, 0)%Z) by lia. cbn [bind].
  rewrite (index_nth _ (nth i CLS []) 3 (0, 0)%Z) by lia. cbn [bind].
  rewrite (index_nth _ (nth i CLS []) 4 (0, 0)%Z) by lia. cbn [bind].
  rewrite (index_nth _ (nth i CLS []) 5 (0, 0)%Z) by lia. cbn [bind].
  reflexivity.
Qed.

Lemma nutation_val : forall d, nutation (A := A) d =
  Val (fst (nut_sum (tt_centuries d)) * U2R + DPPLAN, snd (nut_sum (tt_centuries d)) * U2R + DEPLAN).
Proof.
  intros d. unfold nutation. rewrite nut_series_val. cbn [bind].
  destruct (nut_sum (tt_centuries d)) as [dp de]. reflexivity.
Qed.

(** ** CIO locator *)

Definition cioarg_val (row : list Z) (fa : list (num A)) : num A :=
  fold_left (fun a j => a + of_int A (nth j row 0%Z) * nth j fa (lit A 0 0)) (seq 0 8) (lit A 0 0).
Definition sss (k i q : nat) : num A :=
  let d := nth q (nth i (nth k SSS []) []) (0, 0)%Z in lit A (fst d) (snd d).
Definition cio_step (k : nat) (fa : list (num A)) (s : num A) (i : nat) : num A :=
  let a := cioarg_val (nth i (nth k KSS []) []) fa in
  s + (sss k i 0 * nsin A a + sss k i 1 * ncos A a).
Definition cio_sum (k : nat) (fa : list (num A)) (s : num A) : num A :=
  fold_left (cio_step k fa) (rev (seq 0 (length (nth k KSS [])))) s.

Lemma cio_shape : forallb (fun k => (length (nth k KSS []) =? length (nth k SSS []))%nat &&
   forallb (fun r => (length r =? 8)%nat) (nth k KSS []) && forallb (fun r => (length r =? 2)%nat) (nth k SSS []))%bool
   [0; 1; 2; 3; 4]%nat = true.
Proof. reflexivity. Qed.

Lemma cio_arg_val : forall row fa, length row = 8%nat -> length fa = 8%nat ->
  cio_arg (A := A) row fa = Val (cioarg_val row fa).
Proof.
  intros row fa R F. unfold cio_arg, cioarg_val. apply for_each_val. intros s j Hj. apply in_seq in Hj.
  rewrite (index_nth _ row j 0%Z) by lia. cbn [bind]. rewrite (index_nth _ fa j (lit A 0 0)) by lia. reflexivity.
Qed.

Lemma cio_series_val : forall k fa s, (k < 5)%nat -> length fa = 8%nat ->
  cio_series (A := A) k fa s = Val (cio_sum k fa s).
Proof.
  intros k fa s Hk F. unfold cio_series, cio_sum.
  pose proof cio_shape as H. rewrite forallb_forall in H.
  assert (Hin : In k [0; 1; 2; 3; 4]%nat) by (destruct k as [|[|[|[|[|k]]]]]; cbn; auto; lia).
  specialize (H k Hin). rewrite !andb_true_iff in H. destruct H as [[H1 H2] H3].
  apply Nat.eqb_eq in H1. rewrite forallb_forall in H2, H3.
  rewrite (index_nth _ KSS k []) by exact Hk. cbn [bind].
  rewrite (index_nth _ SSS k []) by exact Hk. cbn [bind].
  apply for_each_val. intros s' i Hi. apply in_rev in Hi. apply in_seq in Hi.
  assert (R1 : length (nth i (nth k KSS []) []) = 8%nat) by (apply Nat.eqb_eq, H2, nth_In; lia).
  assert (R2 : length (nth i (nth k SSS []) []) = 2%nat) by (apply Nat.eqb_eq, H3, nth_In; lia).
  rewrite (index_nth _ (nth k KSS []) i []) by lia. cbn [bind].
  rewrite cio_arg_val by assumption. cbn [bind].
  rewrite (index_nth _ (nth k SSS []) i []) by lia. cbn [bind].
  rewrite (index_nth _ (nth i (nth k SSS []) []) 0 (0, 0)%Z) by lia. cbn [bind].
  rewrite (index_nth _ (nth i (nth k SSS []) []) 1 (0, 0)%Z) by lia. reflexivity.
Qed.

Definition spv (k : nat) : num A := let d := nth k SP (0, 0)%Z in lit A (fst d) (snd d).

Lemma cio_coeffs_val : forall fa, length fa = 8%nat -> cio_coeffs (A := A) fa =
  Val [cio_sum 0 fa (spv 0); cio_sum 1 fa (spv 1); cio_sum 2 fa (spv 2); cio_sum 3 fa (spv 3);
       cio_sum 4 fa (spv 4); spv 5].
Proof.
  intros fa F. unfold cio_coeffs. cbn [seq for_each map SP].
  do 5 (cbn [index nth_error bind]; rewrite cio_series_val by (try lia; assumption); cbn [bind firstn skipn app]).
  reflexivity.
Qed.

Definition cio_poly (t : num A) : num A :=
  let fa := cio_args t in
  (cio_sum 0 fa (spv 0) + (cio_sum 1 fa (spv 1) + (cio_sum 2 fa (spv 2) + (cio_sum 3 fa (spv 3) +
    (cio_sum 4 fa (spv 4) + spv 5 * t) * t) * t) * t) * t) * c_as2r A.

Lemma cio_val : forall d x y, cio (A := A) d x y =
  Val (cio_poly (tt_centuries d) - x * y / lit A 2 0).
Proof.
  intros d x y. unfold cio. rewrite cio_coeffs_val by reflexivity. reflexivity.
Qed.
End AnyArith.
