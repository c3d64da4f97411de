(** * Lemmas about the integer part of the calendar model *)

From Coq Require Import ZArith Bool List Lia.
From Verif Require Import Outcome Arith M_Common M_Calendar Spec_Calendar.
From Verif Require Export Spec_Api.
Import ListNotations.
Open Scope Z_scope.

Ltac Zify.zify_post_hook ::= Z.to_euclidean_division_equations.

Lemma i32_ok : forall p z, i32_min <= z <= i32_max -> i32 p z = Val z.
Proof.
  intros p z H. unfold i32, in_i32.
  rewrite (proj2 (Z.leb_le _ _) (proj1 H)), (proj2 (Z.leb_le _ _) (proj2 H)). reflexivity.
Qed.

Lemma i32_debug_panic : forall z, ~ (i32_min <= z <= i32_max) -> i32 Debug z = Panic.
Proof.
  intros z H. unfold i32, in_i32.
  destruct (Z.leb_spec i32_min z), (Z.leb_spec z i32_max); simpl; try reflexivity. lia.
Qed.

Lemma i32_div_ok : forall a b, 0 <= a -> 0 < b -> i32_div a b = Val (a / b).
Proof.
  intros a b Ha Hb. unfold i32_div.
  destruct (Z.eqb_spec b 0); [lia|].
  destruct (Z.eqb_spec b (-1)); [lia|]. rewrite andb_false_r.
  rewrite Z.quot_div_nonneg by lia. reflexivity.
Qed.

(** Month shift: -1 for January and February. *)
Definition my (m : Z) : Z := if m <=? 2 then -1 else 0.

(** Closed form of the Modified Julian Date. *)
Definition mjd (c : civil) : Z :=
  let '(y, m, d) := c in
  1461 * (y + my m + 4800) / 4 + 367 * (m - 2 - 12 * my m) / 12
  - 3 * ((y + my m + 4900) / 100) / 4 + d - 2432076.

Definition date_ok (g : GregorianDate) : Prop :=
  valid_civil (of_date g) /\ -4799 <= year g.

Lemma my_quot : forall m, 1 <= m <= 12 -> Z.quot (m - 14) 12 = my m.
Proof. intros m H. unfold my. destruct (Z.leb_spec m 2); lia. Qed.

Ltac ok32 := rewrite i32_ok by (unfold i32_min, i32_max; lia); cbn [bind].

Lemma month_length_bounds : forall y m, 28 <= month_length y m <= 31.
Proof.
  intros y m. unfold month_length.
  destruct m as [|p|p]; try lia.
  destruct p as [[[[]|[]|]|[[]|[]|]|]|[[[]|[]|]|[[]|[]|]|]|]; try lia; destruct (leap y); lia.
Qed.

Lemma to_mjd_ok : forall p g, 1 <= month g <= 12 -> 1 <= day g <= 31 ->
  -4800 <= year g + my (month g) <= 1465072 ->
  to_mjd p g = Val (mjd (of_date g)).
Proof.
  intros p [y m d] Hm Hd Hy. cbn [month year day] in *. unfold to_mjd, i32_add, i32_sub, i32_mul; cbn [month year day].
  ok32. unfold i32_div at 1. cbn [Z.eqb]. rewrite andb_false_r. cbn [bind].
  rewrite my_quot by lia.
  assert (Hmy : my m = -1 \/ my m = 0) by (unfold my; destruct (m <=? 2); lia).
  assert (Hmm : 1 <= m - 2 - 12 * my m <= 12) by (unfold my; destruct (Z.leb_spec m 2); lia).
  set (z := y + my m) in *.
  ok32. ok32. ok32. rewrite i32_div_ok by lia. cbn [bind].
  ok32. ok32. ok32. ok32. rewrite i32_div_ok by lia. cbn [bind].
  ok32. rewrite i32_div_ok by lia. cbn [bind].
  ok32. rewrite i32_div_ok by lia. cbn [bind].
  ok32. ok32. ok32. rewrite i32_ok by (unfold i32_min, i32_max; lia).
  f_equal.
Qed.

(** ** The constructor *)

Lemma rem_eqb_mod : forall y n, 0 < n -> (Z.rem y n =? 0) = (y mod n =? 0).
Proof.
  intros y n Hn. destruct (Z.eqb_spec (Z.rem y n) 0) as [E|E], (Z.eqb_spec (y mod n) 0) as [F|F];
    try reflexivity; exfalso.
  - apply F. apply Z.mod_divide; [lia|]. apply Z.rem_divide in E; [assumption|lia].
  - apply E. apply Z.rem_divide; [lia|]. apply Z.mod_divide in F; [assumption|lia].
Qed.

Lemma i32_rem_ok : forall y n, 0 < n -> i32_rem y n = Val (Z.rem y n).
Proof.
  intros y n Hn. unfold i32_rem.
  destruct (Z.eqb_spec n 0); [lia|]. destruct (Z.eqb_spec n (-1)); [lia|].
  rewrite andb_false_r. reflexivity.
Qed.

Lemma date_new_spec : forall y m d,
  date_new y m d =
  Val (if y <? -4799 then Err BadYear
       else if (m <? 1) || (12 <? m) then Err BadMonth
       else if (d <? 1) || (month_length y m <? d) then Err BadDay
       else Ok (MkDate y m d)).
Proof.
  intros y m d. unfold date_new, YEAR_MIN.
  destruct (y <? -4799); [reflexivity|].
  destruct (Z.ltb_spec m 1); [reflexivity|].
  destruct (Z.ltb_spec 12 m); [reflexivity|]. cbn [orb].
  destruct (Z.eqb_spec m 2) as [->|N2].
  - change (index MTAB (Z.to_nat 2 - 1)) with (@Val Z 28). cbn [bind].
    rewrite !i32_rem_ok by lia. cbn [bind]. rewrite !rem_eqb_mod by lia.
    replace (if (y mod 100 =? 0) && negb (y mod 400 =? 0) then 28
             else if y mod 4 =? 0 then 29 else 28) with (month_length y 2).
    + destruct ((d <? 1) || (month_length y 2 <? d)); reflexivity.
    + unfold month_length, leap.
      destruct (y mod 4 =? 0) eqn:E4, (y mod 100 =? 0) eqn:E100, (y mod 400 =? 0) eqn:E400;
        try reflexivity; exfalso; rewrite ?Z.eqb_eq, ?Z.eqb_neq in *; lia.
  - replace (index MTAB (Z.to_nat m - 1)) with (Val (month_length y m)).
    + cbn [bind]. destruct ((d <? 1) || (month_length y m <? d)); reflexivity.
    + assert (Hm : m = 1 \/ m = 3 \/ m = 4 \/ m = 5 \/ m = 6 \/ m = 7 \/ m = 8
               \/ m = 9 \/ m = 10 \/ m = 11 \/ m = 12) by lia.
      destruct Hm as [->|[->|[->|[->|[->|[->|[->|[->|[->|[->| ->]]]]]]]]]]; reflexivity.
Qed.

(** ** Order *)

Ltac my_eval := repeat match goal with |- context [my ?t] =>
  let v := eval vm_compute in (my t) in change (my t) with v end.

Lemma my_bounds : forall m, my m = -1 \/ my m = 0.
Proof. intros m. unfold my. destruct (m <=? 2); lia. Qed.

Lemma mjd_succ : forall c, valid_civil c ->
  mjd (next_day c) = mjd c + 1.
Proof.
  intros [[y m] d] [Hm Hd]. unfold next_day.
  assert (Hm' : m = 1 \/ m = 2 \/ m = 3 \/ m = 4 \/ m = 5 \/ m = 6 \/ m = 7 \/ m = 8
               \/ m = 9 \/ m = 10 \/ m = 11 \/ m = 12) by lia.
  destruct (Z.ltb_spec d (month_length y m)).
  { unfold mjd. lia. }
  assert (d = month_length y m) by lia. subst d. clear Hd H.
  destruct (Z.ltb_spec m 12); [|assert (m = 12) by lia; subst m; unfold mjd; my_eval;
    cbn [month_length]; lia].
  destruct Hm' as [->|[->|[->|[->|[->|[->|[->|[->|[->|[->|[->| ->]]]]]]]]]]];
    unfold mjd; my_eval; cbn -[Z.div Z.add Z.mul Z.sub leap]; try lia.
  unfold leap.
  destruct (Z.eqb_spec (y mod 4) 0), (Z.eqb_spec (y mod 100) 0), (Z.eqb_spec (y mod 400) 0);
    cbn [andb orb negb]; lia.
Qed.

Lemma next_day_valid : forall c, valid_civil c -> valid_civil (next_day c).
Proof.
  intros [[y m] d] [Hm Hd]. unfold next_day.
  destruct (Z.ltb_spec d (month_length y m)).
  { split; lia. }
  destruct (Z.ltb_spec m 12); split; try lia.
  - pose proof (month_length_bounds y (m+1)); lia.
  - pose proof (month_length_bounds (y+1) 1); lia.
Qed.

Lemma next_day_year : forall c, fst (fst c) <= fst (fst (next_day c)).
Proof.
  intros [[y m] d]. unfold next_day.
  destruct (d <? month_length y m); [cbn; lia|]. destruct (m <? 12); cbn; lia.
Qed.

Lemma mjd_month : forall y m d, 1 <= m < 12 ->
  mjd (y, m + 1, d) = mjd (y, m, d) + month_length y m.
Proof.
  intros y m d Hm.
  assert (Hm' : m = 1 \/ m = 2 \/ m = 3 \/ m = 4 \/ m = 5 \/ m = 6 \/ m = 7 \/ m = 8
               \/ m = 9 \/ m = 10 \/ m = 11) by lia.
  destruct Hm' as [->|[->|[->|[->|[->|[->|[->|[->|[->|[->| ->]]]]]]]]]];
    unfold mjd; my_eval; cbn -[Z.div Z.add Z.mul Z.sub leap]; try lia.
  unfold leap.
  destruct (Z.eqb_spec (y mod 4) 0), (Z.eqb_spec (y mod 100) 0), (Z.eqb_spec (y mod 400) 0);
    cbn [andb orb negb]; lia.
Qed.

Lemma mjd_jan1_mono : forall y y' d , y < y' -> mjd (y, 12, d) < mjd (y', 1, 1) + d - 31.
Proof. intros y y' d H. unfold mjd; my_eval; lia. Qed.

Lemma mjd_month_mono : forall y k m d, (1 <= m) -> m + Z.of_nat k <= 12 ->
  mjd (y, m, d) <= mjd (y, m + Z.of_nat k, d).
Proof.
  intros y k. induction k; intros m d Hm Hk.
  - rewrite Z.add_0_r. lia.
  - specialize (IHk (m + 1) d). rewrite mjd_month in IHk by lia.
    pose proof (month_length_bounds y m).
    replace (m + Z.of_nat (S k)) with (m + 1 + Z.of_nat k) by lia. lia.
Qed.

Lemma mjd_lt : forall a b, valid_civil a -> valid_civil b ->
  civil_lt a b -> mjd a < mjd b.
Proof.
  intros [[y1 m1] d1] [[y2 m2] d2] [Hm1 Hd1] [Hm2 Hd2] H.
  assert (lin : forall y m d, mjd (y, m, d) = mjd (y, m, 1) + d - 1) by (intros; unfold mjd; lia).
  destruct H as [H|[-> [H|[-> H]]]].
  - (* last day of the month <= 31 December < 1 January <= *)
    rewrite (lin y1), (lin y2).
    pose proof (month_length_bounds y1 m1) as B.
    assert (mjd (y1, m1, 1) + month_length y1 m1 - 1 <= mjd (y1, 12, 31)).
    { destruct (Z.eq_dec m1 12) as [->|].
      - rewrite (lin y1 12 31). cbn [month_length]. lia.
      - pose proof (mjd_month_mono y1 (Z.to_nat (12 - (m1 + 1))) (m1 + 1) 1).
        replace (m1 + 1 + Z.of_nat (Z.to_nat (12 - (m1 + 1)))) with 12 in H0 by lia.
        rewrite mjd_month in H0 by lia. rewrite (lin y1 12 31). lia. }
    pose proof (mjd_jan1_mono y1 y2 31 H).
    pose proof (mjd_month_mono y2 (Z.to_nat (m2 - 1)) 1 1).
    replace (1 + Z.of_nat (Z.to_nat (m2 - 1))) with m2 in H2 by lia. lia.
  - rewrite (lin y2 m1), (lin y2 m2).
    pose proof (mjd_month_mono y2 (Z.to_nat (m2 - (m1 + 1))) (m1 + 1) 1).
    replace (m1 + 1 + Z.of_nat (Z.to_nat (m2 - (m1 + 1)))) with m2 in H0 by lia.
    rewrite mjd_month in H0 by lia. lia.
  - rewrite (lin y2 m2 d1), (lin y2 m2 d2). lia.
Qed.

Lemma civil_trichotomy : forall a b, civil_lt a b \/ a = b \/ civil_lt b a.
Proof.
  intros [[y1 m1] d1] [[y2 m2] d2]. unfold civil_lt.
  destruct (Z.lt_trichotomy y1 y2) as [?|[->|?]]; [lia| |lia].
  destruct (Z.lt_trichotomy m1 m2) as [?|[->|?]]; [lia| |lia].
  destruct (Z.lt_trichotomy d1 d2) as [?|[->|?]]; [lia|auto|lia].
Qed.

Lemma mjd_lt_iff : forall a b, valid_civil a -> valid_civil b ->
  (civil_lt a b <-> mjd a < mjd b).
Proof.
  intros a b Ha Hb. split; [apply mjd_lt; assumption|]. intros H.
  destruct (civil_trichotomy a b) as [?|[->|?]]; [assumption|lia|].
  pose proof (mjd_lt b a Hb Ha). lia.
Qed.

Lemma mjd_inj : forall a b, valid_civil a -> valid_civil b ->
  mjd a = mjd b -> a = b.
Proof.
  intros a b Ha Hb H.
  destruct (civil_trichotomy a b) as [?|[->|?]]; [|reflexivity|].
  - pose proof (mjd_lt a b Ha Hb). lia.
  - pose proof (mjd_lt b a Hb Ha). lia.
Qed.

Lemma days_after_ok : forall n c, valid_civil c ->
  valid_civil (days_after n c) /\
  mjd (days_after n c) = mjd c + Z.of_nat n.
Proof.
  induction n; intros c Hc.
  - cbn. repeat split; try assumption; try lia.
  - destruct (IHn c Hc) as (V & E). unfold days_after in *. cbn [Nat.iter nat_rect].
    change (nat_rect (fun _ : nat => civil) c (fun _ : nat => next_day) n)
      with (Nat.iter n next_day c).
    split; [apply next_day_valid, V|]. rewrite mjd_succ by assumption. lia.
Qed.

Lemma mjd_day_count : forall a b, valid_civil a -> valid_civil b ->
  day_count a b (mjd b - mjd a).
Proof.
  intros a b Ha Hb. unfold day_count.
  destruct (Z.le_gt_cases 0 (mjd b - mjd a)) as [H|H].
  - left. split; [assumption|].
    destruct (days_after_ok (Z.to_nat (mjd b - mjd a)) a Ha) as (V & E).
    apply mjd_inj; try assumption. lia.
  - right. split; [assumption|].
    destruct (days_after_ok (Z.to_nat (- (mjd b - mjd a))) b Hb) as (V & E).
    apply mjd_inj; try assumption. lia.
Qed.

Lemma mjd_epoch_0 : mjd mjd_epoch = 0.
Proof. reflexivity. Qed.

Lemma mjd_epoch_count : forall c, valid_civil c ->
  day_count mjd_epoch c (mjd c).
Proof.
  intros c Hc. replace (mjd c) with (mjd c - mjd mjd_epoch) by (rewrite mjd_epoch_0; lia).
  apply mjd_day_count; try assumption; cbn; lia.
Qed.
