(** * Lemmas about delta_at *)

From Coq Require Import ZArith Reals Lra Lia Bool List.
From Verif Require Import Outcome Arith ArithR L_ArithR M_Common M_Calendar M_DeltaAt
  Spec_Calendar Spec_TaiUtc L_Calendar L_PCalendar.
Import ListNotations.
Open Scope Z_scope.

Ltac Zify.zify_post_hook ::= Z.to_euclidean_division_equations.

Definition key (e : DatData) : Z := 12 * d_year e + d_month e.

Fixpoint sortedb (l : list DatData) : bool :=
  match l with
  | [] => true
  | e :: l' => forallb (fun e' => key e <? key e') l' && sortedb l'
  end.

Lemma table_sorted : sortedb DAT_DATA = true.
Proof. vm_compute. reflexivity. Qed.

Lemma rposition_sorted : forall m l, sortedb l = true ->
  match rposition (fun e => 12 * d_year e + d_month e <? m) l with
  | Some i => exists e, nth_error l i = Some e /\ In e l /\ key e < m /\
                (forall e', In e' l -> key e' < m -> key e' <= key e)
  | None => forall e, In e l -> m <= key e
  end.
Proof.
  intros m l. induction l as [|a l IH]; intros S; [cbn; contradiction|].
  cbn [sortedb] in S. apply andb_true_iff in S. destruct S as [S1 S2].
  rewrite forallb_forall in S1. specialize (IH S2). cbn [rposition].
  destruct (rposition (fun e => 12 * d_year e + d_month e <? m) l) as [i|].
  - destruct IH as (e & N & I & K & M). exists e. split; [exact N|]. split; [right; exact I|].
    split; [exact K|]. intros e' [->|I'] K'; [|apply M; assumption].
    specialize (S1 e I). apply Z.ltb_lt in S1. lia.
  - change (12 * d_year a + d_month a) with (key a). destruct (Z.ltb_spec (key a) m) as [L|L].
    + exists a. split; [reflexivity|]. split; [left; reflexivity|]. split; [exact L|].
      intros e' [->|I'] K'; [lia|]. specialize (IH e' I'). lia.
    + intros e [->|I']; [exact L|apply IH; exact I'].
Qed.

(** Decimal literal in units of 1e-7. *)
Definition dec7 (d : Z * Z) : Z := fst d * 10 ^ (7 + snd d).

Definition step_of (e : DatData) : step :=
  match d_drift e with
  | None => MkStep (d_year e) (d_month e) (dec7 (d_dat e)) 0 0
  | Some (o, r) => MkStep (d_year e) (d_month e) (dec7 (d_dat e)) (dec7 o / 10000000) (dec7 r)
  end.

Lemma table_is_spec : map step_of DAT_DATA = steps.
Proof. reflexivity. Qed.

(** What the table entries look like: decimals of at most 7 places, drift only
    before 1972, then whole seconds. *)
Definition entry_ok (e : DatData) : bool :=
  let dec_ok (d : Z * Z) := (-7 <=? snd d) && (snd d <=? 0) in
  dec_ok (d_dat e) && (1 <=? d_month e) && (d_month e <=? 12) && (1960 <=? d_year e) &&
  match d_drift e with
  | None => (1972 <=? d_year e) && (snd (d_dat e) =? 0) && (0 <? fst (d_dat e)) && (fst (d_dat e) <? 1000)
  | Some (o, r) => (d_year e <? 1972) && (snd o =? 0) && dec_ok r
  end.

Lemma table_ok : forallb entry_ok DAT_DATA = true.
Proof. vm_compute. reflexivity. Qed.

Lemma Rlit_dec7 : forall d, -7 <= snd d <= 0 -> Rlit (fst d) (snd d) = (IZR (dec7 d) / 10000000)%R.
Proof.
  intros [m e] H. cbn [fst snd] in *. unfold dec7. cbn [fst snd].
  assert (e = 0 \/ e = -1 \/ e = -2 \/ e = -3 \/ e = -4 \/ e = -5 \/ e = -6 \/ e = -7) as K by lia.
  destruct K as [->|[->|[->|[->|[->|[->|[->| ->]]]]]]]; unfold Rlit;
    repeat match goal with
    | |- context [10 ^ ?k] => let v := eval vm_compute in (10 ^ k) in change (10 ^ k) with v
    | |- context [Z.pow_pos 10 ?k] =>
        let v := eval vm_compute in (Z.pow_pos 10 k) in change (Z.pow_pos 10 k) with v
    end;
    rewrite ?Z.mul_1_r, ?mult_IZR; lra.
Qed.

Definition mkey (g : GregorianDate) : Z := 12 * year g + month g.

(** The entry selected by the code. *)
Definition selected (g : GregorianDate) (e : DatData) : Prop :=
  In e DAT_DATA /\
  ((key e < mkey g /\ forall e', In e' DAT_DATA -> key e' < mkey g -> key e' <= key e)
   \/ (mkey g <= 23521 /\ key e = 23521)).

Lemma first_key : forall e, In e DAT_DATA -> 23521 <= key e.
Proof.
  assert (H : forallb (fun e => 23521 <=? key e) DAT_DATA = true) by (vm_compute; reflexivity).
  rewrite forallb_forall in H. intros e I. apply Z.leb_le, H, I.
Qed.

Lemma delta_at_eval : forall (A : arith) p g (fd : num A),
  (ltb A fd (lit A 0 0)) || (ltb A (lit A 1 0) fd) = false ->
  1960 <= year g < 178956970 -> 1 <= month g <= 12 ->
  exists e, selected g e /\
  delta_at (A := A) p g fd =
    match d_drift e with
    | None => Val (Ok (Some (lit A (fst (d_dat e)) (snd (d_dat e)))))
    | Some (o, r) =>
        bind (to_mjd p g) (fun n =>
          Val (Ok (Some (add A (lit A (fst (d_dat e)) (snd (d_dat e)))
            (mul A (sub A (add A (of_int A n) fd) (lit A (fst o) (snd o)))
                   (lit A (fst r) (snd r)))))))
    end.
Proof.
  intros A p g fd Hf Hy Hm. unfold delta_at. rewrite Hf.
  change (index DAT_DATA 0) with (Val (MkDat 1960 1 (1417818, (-6)) (Some ((37300, 0), (1296, (-6)))))).
  cbn [bind d_year]. destruct (Z.ltb_spec (year g) 1960); [lia|].
  unfold i32_mul, i32_add. ok32. ok32.
  change (12 * year g + month g) with (mkey g).
  pose proof (rposition_sorted (mkey g) DAT_DATA table_sorted) as R.
  assert (F : forall e, index DAT_DATA 0 = Val e -> key e = 23521 /\ In e DAT_DATA).
  { intros e E. inversion E. split; [reflexivity|left; reflexivity]. }
  destruct (rposition (fun e => 12 * d_year e + d_month e <? mkey g) DAT_DATA) as [i|].
  - destruct R as (e & N & I & K & M). exists e. split; [split; [exact I|left; auto]|].
    unfold index. rewrite N. cbn [bind]. destruct (d_drift e) as [[o r]|]; [|reflexivity].
    unfold to_julian. destruct (to_mjd p g); reflexivity.
  - exists (MkDat 1960 1 (1417818, (-6)) (Some ((37300, 0), (1296, (-6))))). split.
    + split; [left; reflexivity|]. right. split; [|reflexivity].
      apply (R (MkDat 1960 1 (1417818, (-6)) (Some ((37300, 0), (1296, (-6)))))). left; reflexivity.
    + cbn [bind index nth_error DAT_DATA d_drift]. unfold to_julian. destruct (to_mjd p g); reflexivity.
Qed.

Lemma entry_facts : forall e, In e DAT_DATA -> entry_ok e = true.
Proof. intros e I. pose proof table_ok as T. rewrite forallb_forall in T. apply T, I. Qed.

(** When the selected entry has a drift the date is before February 1972. *)
Lemma selected_drift : forall g e, selected g e -> d_drift e <> None -> mkey g <= 23665.
Proof.
  intros g e [I H] D. destruct (Z.le_gt_cases (mkey g) 23665) as [L|L]; [exact L|]. exfalso.
  pose proof (entry_facts e I) as E. unfold entry_ok in E.
  assert (K : key e < 23665).
  { destruct (d_drift e) as [[o r]|]; [|congruence].
    rewrite !andb_true_iff in E. destruct E as [[[[E1 E2] E3] E4] [[E5 E6] E7]].
    apply Z.leb_le in E2, E3, E4. apply Z.ltb_lt in E5. unfold key. lia. }
  destruct H as [[_ M]|[H _]]; [|lia].
  assert (I72 : In (MkDat 1972 1 (10, 0) None) DAT_DATA) by (cbn; tauto).
  specialize (M _ I72). change (key (MkDat 1972 1 (10, 0) None)) with 23665 in M. lia.
Qed.
