(** * Proofs of the calendar properties C01-C14 *)

From Coq Require Import ZArith Reals Lra Lia Bool.
From Flocq Require Import Core BinarySingleNaN.
From Verif Require Import Outcome Arith ArithR ArithF Spec_Float M_Calendar Spec_Calendar Spec_Api.
From Verif Require Import L_Calendar L_Civil L_ArithR L_ArithF L_FromJulianR L_FromJulianF L_JulianMono L_Wrap L_Sym.
Open Scope R_scope.

Ltac Zify.zify_post_hook ::= Z.to_euclidean_division_equations.

(** C01.  The four outcomes of the constructor, for every triple of integers. *)
Lemma C01_date_new_characterised_pf : forall y m d : Z,
  exists r, date_new y m d = Val r /\
    (r = Ok (MkDate y m d) <-> (-4799 <= y)%Z /\ valid_civil (y, m, d)) /\
    (r = Err BadYear <-> (y < -4799)%Z) /\
    (r = Err BadMonth <-> (-4799 <= y)%Z /\ ~ (1 <= m <= 12)%Z) /\
    (r = Err BadDay <-> (-4799 <= y)%Z /\ (1 <= m <= 12)%Z /\ ~ (1 <= d <= month_length y m)%Z).
Proof.
  intros y m d. eexists. split; [apply date_new_spec|]. unfold valid_civil.
  destruct (Z.ltb_spec y (-4799)).
  { repeat split; intros; try discriminate; try lia. }
  destruct (Z.ltb_spec m 1); cbn [orb].
  { repeat split; intros; try discriminate; try lia. }
  destruct (Z.ltb_spec 12 m); cbn [orb].
  { repeat split; intros; try discriminate; try lia. }
  destruct (Z.ltb_spec d 1); cbn [orb].
  { repeat split; intros; try discriminate; try lia. }
  destruct (Z.ltb_spec (month_length y m) d).
  { repeat split; intros; try discriminate; try lia. }
  repeat split; intros; try discriminate; try lia.
Qed.

(** C01 is not vacuous: 29 February exists in 2000 and not in 1900. *)
Example C01_example_pf :
  date_new 2000 2 29 = Val (Ok (MkDate 2000 2 29)) /\ date_new 1900 2 29 = Val (Err BadDay) /\
  date_new (-4800) 1 1 = Val (Err BadYear) /\ date_new 2001 13 1 = Val (Err BadMonth).
Proof. repeat split; reflexivity. Qed.

Lemma accepted_spec : forall g, accepted g <-> date_ok g.
Proof.
  intros [y m d]. unfold accepted, date_ok, of_date; cbn [year month day].
  destruct (C01_date_new_characterised_pf y m d) as (r & E & H & _). rewrite E.
  split.
  - intros K. inversion K. tauto.
  - intros K. f_equal. tauto.
Qed.

(** The day count of the specification determines its number of days. *)
Lemma day_count_fun : forall c n, valid_civil c -> day_count mjd_epoch c n -> n = mjd c.
Proof.
  intros c n V [[H E]|[H E]].
  - destruct (days_after_ok (Z.to_nat n) mjd_epoch) as [_ K]; [cbn; lia|].
    rewrite E in K. rewrite mjd_epoch_0 in K. lia.
  - destruct (days_after_ok (Z.to_nat (- n)) c V) as [_ K].
    rewrite E in K. rewrite mjd_epoch_0 in K. lia.
Qed.

Lemma date_ok_range : forall g, date_ok g -> (1 <= month g <= 12)%Z /\ (1 <= day g <= 31)%Z /\
  (-4800 <= year g + my (month g))%Z.
Proof.
  intros g [[Hm Hd] Hy]. pose proof (month_length_bounds (year g) (month g)).
  pose proof (my_bounds (month g)). lia.
Qed.

Lemma to_mjd_accepted : forall p g, accepted g -> (year g <= 1465072)%Z ->
  to_mjd p g = Val (mjd (of_date g)).
Proof.
  intros p g H Hy. apply accepted_spec in H. destruct (date_ok_range g H) as (A & B & C).
  pose proof (my_bounds (month g)). apply to_mjd_ok; lia.
Qed.

Lemma mjd_range : forall g, accepted g -> (year g <= 1465072)%Z ->
  (-2500000 <= mjd (of_date g) <= 600000000)%Z.
Proof.
  intros g H Hy. apply accepted_spec in H. destruct (date_ok_range g H) as (A & B & C).
  pose proof (my_bounds (month g)). unfold mjd, of_date. destruct H as [_ H]. lia.
Qed.

(** C02.  [to_julian] returns (2400000.5, n), both exact, n the number of days
    from 1858-11-17 counted by walking the calendar. *)
Lemma C02_to_julian_exact_pf : forall lm p g, accepted g -> (year g <= 1465072)%Z ->
  exists (a b : b64) (n : Z),
    to_julian (A := b64A lm) p g = Val (a, b) /\
    fin a = true /\ B2R a = 2400000 + / 2 /\
    fin b = true /\ B2R b = IZR n /\ day_count mjd_epoch (of_date g) n.
Proof.
  intros lm p g H Hy. exists (Flit 24000005 (-1)), (FofZ (mjd (of_date g))), (mjd (of_date g)).
  pose proof (mjd_range g H Hy) as R.
  destruct (FofZ_ok (mjd (of_date g))) as (Z1 & Z2 & _); [lia|].
  destruct lit_mjd0 as [L1 L2].
  split. { unfold to_julian. rewrite to_mjd_accepted by assumption. reflexivity. }
  repeat split; try assumption. apply mjd_epoch_count. apply accepted_spec in H. apply H.
Qed.

(** The number of days in C02 is unique. *)
Lemma C02_day_count_unique_pf : forall c n n', valid_civil c ->
  day_count mjd_epoch c n -> day_count mjd_epoch c n' -> n = n'.
Proof.
  intros c n n' V H H'. rewrite (day_count_fun c n V H), (day_count_fun c n' V H'). reflexivity.
Qed.

(** The same in exact arithmetic. *)
Lemma C02_to_julian_exact_reals_pf : forall p g, accepted g -> (year g <= 1465072)%Z ->
  exists n : Z, to_julian (A := realA) p g = Val (2400000 + / 2, IZR n) /\
    day_count mjd_epoch (of_date g) n.
Proof.
  intros p g H Hy. exists (mjd (of_date g)). split.
  - unfold to_julian. rewrite to_mjd_accepted by assumption. cbn [bind]. unfold MJD_ZERO.
    realA_ops. rlit_in_goal. do 2 f_equal. lra.
  - apply mjd_epoch_count. apply accepted_spec in H. apply H.
Qed.

(** 2000-01-01 is MJD 51544. *)
Example C02_example_pf : accepted (MkDate 2000 1 1) /\ to_mjd Debug (MkDate 2000 1 1) = Val 51544%Z.
Proof. split; reflexivity. Qed.

(** C03.  Order of dates and order of day numbers agree (binary64 comparison). *)
Lemma C03_to_julian_order_pf : forall lm p g h, accepted g -> accepted h ->
  (year g <= 1465072)%Z -> (year h <= 1465072)%Z ->
  exists a x y : b64,
    to_julian (A := b64A lm) p g = Val (a, x) /\
    to_julian (A := b64A lm) p h = Val (a, y) /\
    (Bltb x y = true <-> civil_lt (of_date g) (of_date h)) /\
    (x = y <-> g = h).
Proof.
  intros lm p g h Hg Hh Yg Yh.
  pose proof (mjd_range g Hg Yg) as R1. pose proof (mjd_range h Hh Yh) as R2.
  destruct (FofZ_ok (mjd (of_date g))) as (A1 & A2 & _); [lia|].
  destruct (FofZ_ok (mjd (of_date h))) as (B1 & B2 & _); [lia|].
  exists (Flit 24000005 (-1)), (FofZ (mjd (of_date g))), (FofZ (mjd (of_date h))).
  split. { unfold to_julian. rewrite to_mjd_accepted by assumption. reflexivity. }
  split. { unfold to_julian. rewrite to_mjd_accepted by assumption. reflexivity. }
  apply accepted_spec in Hg, Hh.
  split.
  - rewrite (mjd_lt_iff _ _ (proj1 Hg) (proj1 Hh)), (Bltb_correct 53 1024 _ _ A2 B2), A1, B1.
    destruct (Rlt_bool_spec (IZR (mjd (of_date g))) (IZR (mjd (of_date h)))) as [K|K].
    + apply lt_IZR in K. tauto.
    + apply le_IZR in K. split; [discriminate|lia].
  - split; intros K; [|subst; reflexivity].
    apply (f_equal B2R) in K. rewrite A1, B1 in K. apply eq_IZR in K.
    apply (mjd_inj _ _ (proj1 Hg) (proj1 Hh)) in K. destruct g, h. inversion K. reflexivity.
Qed.

(** The last day of 1999 and the first of 2000: days 51543 and 51544. *)
Example C03_example_pf : forall lm p,
  match to_julian (A := b64A lm) p (MkDate 1999 12 31), to_julian (A := b64A lm) p (MkDate 2000 1 1) with
  | Val (a, x), Val (a', y) => (B2SF a, B2SF x, B2SF a', B2SF y, Bltb x y) = (B2SF (Flit 24000005 (-1)), B2SF (FofZ 51543), B2SF (Flit 24000005 (-1)), B2SF (FofZ 51544), true)
  | _, _ => False end.
Proof. intros lm p. destruct p; vm_compute; reflexivity. Qed.

(** C04 is false: 1465073-03-01 is accepted by [new], [to_julian] panics in
    debug builds and in release builds returns a date far in the past. *)
Lemma C04_to_julian_no_overflow_refuted_pf : forall A : arith,
  ~ (forall g, accepted g -> (i32_min <= year g <= i32_max)%Z -> to_julian (A := A) Debug g <> Panic).
Proof.
  intros A H. apply (H (MkDate 1465073 3 1)); [reflexivity|cbn; unfold i32_min, i32_max; lia|reflexivity].
Qed.

(** In release builds 1465073-03-01 gets a negative day number. *)
Lemma C04_release_wraps_refuted_pf : forall A : arith,
  accepted (MkDate 1465073 3 1) /\ (exists a, to_julian (A := A) Release (MkDate 1465073 3 1) = Val (a, of_int A (-539313779)%Z)).
Proof. intros A. split; [reflexivity|]. eexists. reflexivity. Qed.

(** The last accepted date before the boundary and the first one at it, debug builds. *)
Example C04_example_pf : forall A : arith,
  to_julian (A := A) Debug (MkDate 1465073 2 28) <> Panic /\ to_julian (A := A) Debug (MkDate 1465073 3 1) = Panic.
Proof. intros A. split; [vm_compute; discriminate|vm_compute; reflexivity]. Qed.

(** C04, the true part: the exact boundary.  Debug builds panic on an accepted
    date exactly from 1465073-03-01 on; before it, release and debug agree. *)
Lemma C04_to_julian_no_overflow_partial_pf : forall (A : arith) g, accepted g ->
  (year g <= i32_max)%Z ->
  (to_julian (A := A) Debug g = Panic <-> ~ civil_lt (of_date g) (1465073, 3, 1)%Z) /\
  (civil_lt (of_date g) (1465073, 3, 1)%Z ->
   to_julian (A := A) Release g = to_julian (A := A) Debug g).
Proof.
  intros A g H Hm. apply accepted_spec in H. destruct (date_ok_range g H) as (B & C & D).
  assert (P : civil_lt (of_date g) (1465073, 3, 1)%Z <-> (year g + my (month g) <= 1465072)%Z).
  { unfold civil_lt, of_date, my. destruct (Z.leb_spec (month g) 2); lia. }
  rewrite P. unfold to_julian.
  destruct (Z.le_gt_cases (year g + my (month g)) 1465072) as [L|L].
  - rewrite !to_mjd_ok by lia. cbn [bind]. split; [|reflexivity]. split; [discriminate|lia].
  - split; [|lia]. split; [lia|]. intros _.
    assert (E : to_mjd Debug g = Panic); [|rewrite E; reflexivity].
    pose proof (my_bounds (month g)). unfold i32_max in Hm.
    unfold to_mjd, i32_add, i32_sub, i32_mul.
    ok32. unfold i32_div at 1. cbn [Z.eqb]. rewrite andb_false_r. cbn [bind].
    rewrite my_quot by lia. ok32.
    unfold i32 at 1. destruct (in_i32 (year g + my (month g) + 4800)); [|reflexivity].
    cbn [bind]. rewrite i32_debug_panic; [reflexivity|unfold i32_min, i32_max; lia].
Qed.

Lemma wrap32_spec : forall z, exists k, (wrap32 z = z - 4294967296 * k /\ i32_min <= wrap32 z <= i32_max)%Z.
Proof.
  intros z. unfold wrap32, i32_min, i32_max. exists ((z + 2147483648) / 4294967296)%Z.
  pose proof (Z.div_mod (z + 2147483648) 4294967296). pose proof (Z.mod_pos_bound (z + 2147483648) 4294967296). lia.
Qed.
Lemma i32_release : forall z, i32 Release z = Val (wrap32 z).
Proof.
  intros z. unfold i32. destruct (in_i32 z) eqn:E; [|reflexivity]. f_equal. unfold in_i32 in E. apply andb_true_iff in E. destruct E as [E1 E2]. apply Z.leb_le in E1. apply Z.leb_le in E2.
  destruct (wrap32_spec z) as (k & K1 & K2). unfold i32_min, i32_max in *. lia.
Qed.
Lemma i32_div_pos : forall a b, (1 < b)%Z -> i32_div a b = Val (Z.quot a b).
Proof. intros a b H. unfold i32_div. rewrite (proj2 (Z.eqb_neq b 0)), (proj2 (Z.eqb_neq b (-1))) by lia. rewrite andb_false_r. reflexivity. Qed.

(** C04, the false part in full: from 1465073-03-01 on a release build returns a
    wrong day count for every accepted date. *)
Lemma C04_release_wrong_partial_pf : forall (A : arith) g n, accepted g -> (year g <= i32_max)%Z ->
  ~ civil_lt (of_date g) (1465073, 3, 1)%Z -> day_count mjd_epoch (of_date g) n ->
  exists a z, to_julian (A := A) Release g = Val (a, of_int A z) /\ z <> n.
Proof.
  intros A g n H Hm HC HN. pose proof (proj1 (accepted_spec _) H) as OK. destruct (date_ok_range g OK) as (B & C & D).
  assert (P : (1465073 <= year g + my (month g))%Z).
  { unfold civil_lt, of_date in HC. unfold my. destruct (Z.leb_spec (month g) 2); lia. }
  assert (EN : n = mjd (of_date g)) by (apply (C02_day_count_unique_pf (of_date g)); [exact (proj1 OK)|exact HN|apply mjd_epoch_count; exact (proj1 OK)]).
  clear HN H HC. pose proof (my_bounds (month g)) as MB. unfold i32_max in Hm.
  assert (E : exists z, to_mjd Release g = Val z /\ z <> n).
  2:{ destruct E as (z & E & NE). exists MJD_ZERO, z. unfold to_julian. rewrite E. cbn [bind]. split; [reflexivity|exact NE]. }
  unfold to_mjd, i32_add, i32_sub, i32_mul. rewrite !i32_release. cbn [bind]. rewrite i32_div_pos by lia. cbn [bind].
  assert (W : forall z, (-2147483648 <= z <= 2147483647)%Z -> wrap32 z = z).
  { intros z Hz. destruct (wrap32_spec z) as (k & K1 & K2). unfold i32_min, i32_max in *. lia. }
  rewrite (W (month g - 14)%Z) by lia. rewrite my_quot by lia.
  repeat (rewrite ?i32_release, ?i32_div_pos by lia; cbn [bind]).
  eexists. split; [reflexivity|]. rewrite EN. unfold of_date, mjd.
  set (m := my (month g)) in *. set (y := (year g + m)%Z) in *.
  assert (HY : (1465073 <= y <= 2147483647)%Z) by (unfold y; lia). rewrite (W y) by lia.
  assert (MM : (1 <= month g - 2 - 12 * m <= 12)%Z) by (unfold m, my; destruct (Z.leb_spec (month g) 2); lia).
  rewrite (W (month g - 2)%Z), (W (12 * m)%Z), (W (month g - 2 - 12 * m)%Z), (W (367 * (month g - 2 - 12 * m))%Z) by lia.
  set (e := (month g - 2 - 12 * m)%Z) in *. clearbody e. rewrite (Z.quot_div_nonneg (367 * e) 12) by lia.
  assert (QE : (0 <= 367 * e / 12 <= 367)%Z) by (split; [apply Z.div_pos; lia|apply Z.div_le_upper_bound; lia]). set (q := (367 * e / 12)%Z) in *. clearbody q.
  destruct (Z_le_dec y 6000000) as [L|L].
  - rewrite (W (y + 4800)%Z), (W (y + 4900)%Z) by lia. rewrite (Z.quot_div_nonneg (y + 4900) 100) by lia.
    assert (QC : (0 <= (y + 4900) / 100 <= 60049)%Z) by (split; [apply Z.div_pos; lia|apply Z.div_le_upper_bound; lia]). set (c := ((y + 4900) / 100)%Z) in *. clearbody c.
    rewrite (W (3 * c)%Z) by lia. rewrite (Z.quot_div_nonneg (3 * c) 4) by lia.
    assert (QC3 : (0 <= 3 * c / 4 <= 45037)%Z) by (split; [apply Z.div_pos; lia|apply Z.div_le_upper_bound; lia]). set (c3 := (3 * c / 4)%Z) in *. clearbody c3.
    destruct (wrap32_spec (1461 * (y + 4800))) as (k & K1 & K2). set (w := wrap32 (1461 * (y + 4800))) in *.
    assert (K : (k = 1 \/ k = 2)%Z) by (unfold i32_min, i32_max in K2; lia).
    assert (Q4 : (4 * Z.quot w 4 - 3 <= w <= 4 * Z.quot w 4 + 3)%Z) by (pose proof (Z.quot_rem' w 4); pose proof (Z.rem_bound_abs w 4); lia).
    assert (D4 : (4 * (1461 * (y + 4800) / 4) <= 1461 * (y + 4800) <= 4 * (1461 * (y + 4800) / 4) + 3)%Z) by (pose proof (Z.div_mod (1461 * (y + 4800)) 4); pose proof (Z.mod_pos_bound (1461 * (y + 4800)) 4); lia).
    set (qa := Z.quot w 4) in *. set (da := (1461 * (y + 4800) / 4)%Z) in *. clearbody qa da w.
    repeat match goal with |- context [wrap32 ?z] => lazymatch z with context [wrap32 _] => fail | _ => let k := fresh "k" in let R := fresh "R" in let w := fresh "w" in destruct (wrap32_spec z) as (k & R & _); set (w := wrap32 z) in *; clearbody w end end.
    unfold i32_min, i32_max in *. lia.
  - match goal with |- wrap32 ?z <> _ => destruct (wrap32_spec z) as (k & _ & R) end. set (w := wrap32 _) in *. clearbody w.
    assert (DA : (1461 * (y + 4800) < 4 * (1461 * (y + 4800) / 4) + 4)%Z) by (pose proof (Z.div_mod (1461 * (y + 4800)) 4); pose proof (Z.mod_pos_bound (1461 * (y + 4800)) 4); lia).
    assert (DC : (4 * (3 * ((y + 4900) / 100) / 4) <= 3 * ((y + 4900) / 100))%Z) by (apply Z.mul_div_le; lia).
    assert (DD : (100 * ((y + 4900) / 100) <= y + 4900)%Z) by (apply Z.mul_div_le; lia).
    unfold i32_max in R. lia.
Qed.

(** C05.  Date to Julian date and back, in binary64 and in both profiles: same
    date, fraction exactly +0.0, for every accepted date up to 1465002-10-17. *)
Lemma C05_date_roundtrip_pf : forall lm p g, accepted g ->
  ~ civil_lt (1465002, 10, 17)%Z (of_date g) ->
  exists a b : b64, to_julian (A := b64A lm) p g = Val (a, b) /\
    from_julian (A := b64A lm) p a b = Val (Ok (g, B754_zero false)).
Proof.
  intros lm p g H K.
  assert (Hy : (year g <= 1465072)%Z).
  { unfold civil_lt, of_date in K. lia. }
  exists (Flit 24000005 (-1)), (FofZ (mjd (of_date g))).
  split. { unfold to_julian. rewrite to_mjd_accepted by assumption. reflexivity. }
  pose proof (mjd_range g H Hy) as R. apply accepted_spec in H.
  assert (M : (mjd (of_date g) <= 534402341)%Z).
  { change 534402341%Z with (mjd (1465002, 10, 17)%Z).
    assert (V : valid_civil (1465002, 10, 17)%Z) by (cbn; lia).
    destruct (Z.le_gt_cases (mjd (of_date g)) (mjd (1465002, 10, 17)%Z)) as [L|L]; [exact L|].
    exfalso. apply K.
    apply (mjd_lt_iff _ _ V (proj1 H)). exact L. }
  assert (M2 : (-2431739 <= mjd (of_date g))%Z).
  { destruct (date_ok_range g H) as (A & B & C).
    change (-2431739)%Z with (mjd (-4799, 1, 1)%Z).
    assert (V : valid_civil (-4799, 1, 1)%Z) by (cbn; lia).
    destruct (Z.le_gt_cases (mjd (-4799, 1, 1)%Z) (mjd (of_date g))) as [L|L]; [exact L|].
    exfalso.
    apply (mjd_lt_iff _ _ (proj1 H) V) in L. destruct H as [_ H].
    unfold civil_lt, of_date in L. lia. }
  destruct (FofZ_ok (mjd (of_date g))) as (Z1 & Z2 & Z3); [lia|].
  destruct lit_mjd0 as [L1 L2].
  set (n := mjd (of_date g)) in *.
  assert (RM : -2431739 <= IZR n <= 534402341) by (split; apply IZR_le; lia).
  assert (JD : jd_day (2400000 + / 2 + IZR n) = (2400000 + n)%Z).
  { unfold jd_day. apply Zfloor_unique_frac. rewrite plus_IZR. lra. }
  destruct (from_julian_F_grid lm p (Flit 24000005 (-1)) (FofZ n) L2 Z2) as (f & E1 & E2 & E3 & E4).
  - rewrite L1. apply Rabs_le. lra.
  - rewrite Z1. apply Rabs_le. lra.
  - rewrite L1. exists (2400000 * 1048576 + 524288)%Z.
    change (bpow radix2 (-20)) with (/ 1048576). rewrite plus_IZR, mult_IZR. lra.
  - rewrite Z1. exists (n * 1048576)%Z. change (bpow radix2 (-20)) with (/ 1048576).
    rewrite mult_IZR. lra.
  - rewrite L1, Z1. lra.
  - rewrite L1, Z1 in E1, E3. unfold jd_frac in E3. rewrite JD in E1, E3.
    rewrite E1.
    assert (Ef : f = B754_zero false).
    { apply B2R_Bsign_inj.
      - exact E2.
      - reflexivity.
      - rewrite E3. cbn [BinarySingleNaN.B2R]. rewrite plus_IZR. lra.
      - cbn [Bsign]. apply E4.
        + vm_compute. reflexivity.
        + destruct (Z.le_gt_cases 0 n).
          * left. rewrite Z3. apply Z.ltb_ge. lia.
          * right. rewrite L1, Z1. apply Rlt_le_trans with 0; [apply IZR_lt; lia|lra]. }
    rewrite Ef. do 3 f_equal.
    destruct (civil_fn_spec (2400000 + n + 1) ltac:(lia)) as (V & E & _).
    assert (E' : civil_fn (2400000 + n + 1) = of_date g).
    { apply mjd_inj; [exact V|apply H|]. rewrite E. unfold n. lia. }
    rewrite E'. destruct g. reflexivity.
Qed.

(** 29 February 2000 goes to day 51603 and comes back; the first and the last date covered. *)
Example C05_example_pf : accepted (MkDate (-4799) 1 1) /\ accepted (MkDate 1465002 10 17) /\ forall lm p,
  match to_julian (A := b64A lm) p (MkDate 2000 2 29) with
  | Val (a, b) => match from_julian (A := b64A lm) p a b with Val (Ok (g, f)) => (B2SF b, g, B2SF f) = (B2SF (FofZ 51603), MkDate 2000 2 29, SpecFloat.S754_zero false) | _ => False end
  | Panic => False end.
Proof. split; [reflexivity|]. split; [reflexivity|]. intros lm p. destruct p; vm_compute; reflexivity. Qed.

(** C06.  In exact arithmetic, [from_julian] finds the calendar day containing
    the instant and the exact fraction: midnight of the day + f = dj1 + dj2. *)
Lemma C06_from_julian_civil_pf : forall p dj1 dj2,
  -32000 <= dj1 + dj2 < 536802342 + / 2 ->
  exists g f n,
    from_julian (A := realA) p dj1 dj2 = Val (Ok (g, f)) /\
    valid_civil (of_date g) /\ 0 <= f < 1 /\
    day_count mjd_epoch (of_date g) n /\
    2400000 + / 2 + IZR n + f = dj1 + dj2.
Proof.
  intros p dj1 dj2 H. exists (date_of_civil (civil_fn (jd_day (dj1 + dj2) + 1))), (jd_frac (dj1 + dj2)).
  exists (jd_day (dj1 + dj2) - 2400000)%Z.
  pose proof (jd_day_bounds (dj1 + dj2) (-32000) 536802342 H) as B.
  destruct (civil_fn_spec (jd_day (dj1 + dj2) + 1)) as (V & E & _); [lia|].
  split; [apply from_julian_R_ok; exact H|]. rewrite of_date_of_civil.
  split; [exact V|]. split; [apply jd_frac_bounds|].
  split.
  - replace (jd_day (dj1 + dj2) - 2400000)%Z with (mjd (civil_fn (jd_day (dj1 + dj2) + 1))) by lia.
    apply mjd_epoch_count. exact V.
  - unfold jd_frac. rewrite minus_IZR. lra.
Qed.

Lemma from_julian_1859 : forall p a b, a + b = 2400365.75 -> from_julian (A := realA) p a b = Val (Ok (MkDate 1859 11 17, 0.25)).
Proof.
  intros p a b E. destruct (C06_from_julian_civil_pf p a b ltac:(lra)) as (g & f & n & H & V & F & C & S). rewrite H.
  assert (N : n = 365%Z). { assert (L1 : (364 < n)%Z) by (apply lt_IZR; lra). assert (L2 : (n < 366)%Z) by (apply lt_IZR; lra). lia. } subst n.
  assert (G : of_date g = (1859, 11, 17)%Z) by (destruct C as [[_ C]|[C _]]; [rewrite <- C; vm_compute; reflexivity|lia]).
  destruct g as [y m d]. unfold of_date in G. cbn [year month day] in G. injection G as -> -> ->. replace f with 0.25 by lra. reflexivity.
Qed.
(** JD 2400365.75 is a quarter of the day 1859-11-17, a year after the epoch. *)
Example C06_example_pf : forall p, from_julian (A := realA) p 2400000 365.75 = Val (Ok (MkDate 1859 11 17, 0.25)).
Proof. intros p. apply from_julian_1859. lra. Qed.

(** C07.  In binary64, with both parts of magnitude at most 2^51: no panic, a
    valid day, a fraction in [0,1], and an error of at most
    2^-53 (|smaller part| + 3) days. *)
Lemma C07_from_julian_accuracy_pf : forall lm p x y, fin x = true -> fin y = true ->
  Rabs (B2R x) <= 2251799813685248 -> Rabs (B2R y) <= 2251799813685248 ->
  -32000 <= B2R x + B2R y <= 536802342 ->
  exists g (f : b64) n,
    from_julian (A := b64A lm) p x y = Val (Ok (g, f)) /\
    valid_civil (of_date g) /\ fin f = true /\ 0 <= B2R f <= 1 /\
    day_count mjd_epoch (of_date g) n /\
    Rabs (2400000 + / 2 + IZR n + B2R f - (B2R x + B2R y))
      <= bpow radix2 (-53) * (Rabs (Rmin (B2R x) (B2R y)) + 3).
Proof.
  intros lm p x y Hx Hy Bx By H.
  destruct (from_julian_F_ok lm p x y Hx Hy Bx By H) as (n & f & E & N & F1 & F2 & F3).
  exists (date_of_civil (civil_fn (n + 1))), f, (n - 2400000)%Z.
  destruct (civil_fn_spec (n + 1)) as (V & M & _); [lia|].
  rewrite of_date_of_civil. repeat (split; [assumption|]).
  split.
  - replace (n - 2400000)%Z with (mjd (civil_fn (n + 1))) by lia. apply mjd_epoch_count. exact V.
  - rewrite minus_IZR.
    replace (2400000 + / 2 + (IZR n - 2400000) + B2R f - (B2R x + B2R y))
      with (IZR n + B2R f + / 2 - (B2R x + B2R y)) by ring.
    replace (Rmin (B2R x) (B2R y)) with (smaller (B2R x) (B2R y)); [exact F3|].
    unfold smaller, Rmin. destruct (Rle_bool_spec (B2R y) (B2R x)), (Rle_dec (B2R x) (B2R y)); lra.
Qed.

(** JD 2451545.0 + 0.25 is 2000-01-01, three quarters of the day. *)
Example C07_example_pf : forall lm p,
  match from_julian (A := b64A lm) p (Flit 24515450 (-1)) (Flit 25 (-2)) with
  | Val (Ok (g, f)) => (g, B2SF f) = (MkDate 2000 1 1, B2SF (Flit 75 (-2))) | _ => False end.
Proof. intros lm p. destruct p; vm_compute; reflexivity. Qed.

Lemma some_pair : forall (X Y : Type) (a a' : X) (b b' : Y),
  Some (a, b) = Some (a', b') -> a = a' /\ b = b'.
Proof. intros X Y a a' b b' H. inversion H. split; reflexivity. Qed.

Lemma ok_pair : forall (X Y E : Type) (a a' : X) (b b' : Y),
  Val (Ok (E := E) (a, b)) = Val (Ok (a', b')) -> a = a' /\ b = b'.
Proof. intros X Y E a a' b b' H. inversion H. split; reflexivity. Qed.

(** C08 is false: from_julian(2451545.0, 0.5 - 2^-54) returns the day before
    with fraction 1.0. *)
Lemma C08_fraction_below_one_refuted_pf : forall lm p, exists x y f : b64,
  from_julian (A := b64A lm) p x y = Val (Ok (MkDate 2000 1 1, f)) /\
  fin x = true /\ fin y = true /\ B2R x + B2R y < 2451545 + / 2 /\ B2R f = 1.
Proof.
  intros lm p. exists (Fof 2451545 0), (Fof (2^53-1) (-54)).
  assert (K : match from_julian (A := b64A lm) p (Fof 2451545 0) (Fof (2^53-1) (-54)) with
              | Val (Ok (g, f)) => Some (g, B2SF f) | _ => None end
              = Some (MkDate 2000 1 1, B2SF (FofZ 1))).
  { destruct p; vm_compute; reflexivity. }
  destruct (from_julian (A := b64A lm) p (Fof 2451545 0) (Fof (2^53-1) (-54))) as [[[g f]|]|];
    try discriminate.
  apply some_pair in K. destruct K as [-> K]. apply B2SF_inj in K. subst f. exists (FofZ 1).
  split; [reflexivity|]. destruct (FofZ_ok 1) as (A & B & _); [lia|].
  split; [reflexivity|]. split; [reflexivity|]. split.
  - assert (E : B2R (Fof 2451545 0) = 2451545) by (apply (FofZ_ok 2451545); lia). rewrite E.
    rewrite <- SF2R_B2SF.
    replace (B2SF (Fof (2 ^ 53 - 1) (-54))) with (SpecFloat.S754_finite false (2^53-1) (-54)) by (vm_compute; reflexivity).
    unfold SF2R, F2R; cbn [cond_Zopp Fnum Fexp bpow]. change (Z.pow_pos radix2 54) with 18014398509481984%Z.
    change (Z.pos (2^53-1)) with 9007199254740991%Z. lra.
  - exact A.
Qed.

(** C08, the true parts.  First: in exact arithmetic the fraction is below 1
    (this is part of C06).  Second: in binary64 it is at most 1, and below 1
    unless the exact Julian date is within the C07 error of a midnight. *)
Lemma C08_fraction_below_one_partial_pf : forall lm p x y, fin x = true -> fin y = true ->
  Rabs (B2R x) <= 2251799813685248 -> Rabs (B2R y) <= 2251799813685248 ->
  -32000 <= B2R x + B2R y <= 536802342 ->
  exists g (f : b64),
    from_julian (A := b64A lm) p x y = Val (Ok (g, f)) /\ 0 <= B2R f <= 1 /\
    ((forall k : Z, bpow radix2 (-53) * (Rabs (Rmin (B2R x) (B2R y)) + 3)
                    < Rabs (IZR k + / 2 - (B2R x + B2R y))) -> B2R f < 1).
Proof.
  intros lm p x y Hx Hy Bx By H.
  destruct (C07_from_julian_accuracy_pf lm p x y Hx Hy Bx By H) as (g & f & n & E & _ & _ & F & _ & B).
  exists g, f. split; [exact E|]. split; [exact F|]. intros K.
  destruct (Rle_lt_or_eq_dec _ _ (proj2 F)) as [L|L]; [exact L|]. exfalso.
  specialize (K (2400001 + n)%Z). rewrite L in B. rewrite plus_IZR in K.
  replace (2400001 + IZR n + / 2 - (B2R x + B2R y))
    with (2400000 + / 2 + IZR n + 1 - (B2R x + B2R y)) in K by ring. lra.
Qed.

(** Third: below 1, and exact, when both parts are multiples of 2^-20 day (82 ms). *)
Lemma C08_fraction_below_one_grid_partial_pf : forall lm p x y, fin x = true -> fin y = true ->
  Rabs (B2R x) <= 2147483648 -> Rabs (B2R y) <= 2147483648 ->
  (exists k : Z, B2R x = IZR k * bpow radix2 (-20)) ->
  (exists k : Z, B2R y = IZR k * bpow radix2 (-20)) ->
  -32000 <= B2R x + B2R y <= 536802342 ->
  exists g (f : b64) n,
    from_julian (A := b64A lm) p x y = Val (Ok (g, f)) /\ 0 <= B2R f < 1 /\
    valid_civil (of_date g) /\ day_count mjd_epoch (of_date g) n /\
    2400000 + / 2 + IZR n + B2R f = B2R x + B2R y.
Proof.
  intros lm p x y Hx Hy Bx By Gx Gy H.
  destruct (from_julian_F_grid lm p x y Hx Hy Bx By Gx Gy H) as (f & E & F & V & _).
  pose proof (jd_frac_bounds (B2R x + B2R y)) as J.
  pose proof (jd_day_bounds (B2R x + B2R y) (-32000) 536802342 ltac:(lra)) as B.
  destruct (civil_fn_spec (jd_day (B2R x + B2R y) + 1)) as (W & M & _); [lia|].
  exists (date_of_civil (civil_fn (jd_day (B2R x + B2R y) + 1))), f, (jd_day (B2R x + B2R y) - 2400000)%Z.
  rewrite of_date_of_civil, V. repeat (split; [assumption|]). split.
  - replace (jd_day (B2R x + B2R y) - 2400000)%Z with (mjd (civil_fn (jd_day (B2R x + B2R y) + 1))) by lia.
    apply mjd_epoch_count. exact W.
  - unfold jd_frac. rewrite minus_IZR. lra.
Qed.

(** An instant 2^-20 day before midnight keeps its date and fraction. *)
Example C08_example_pf : forall lm p,
  match from_julian (A := b64A lm) p (FofZ 2451545) (Fof (2^19-1) (-20)) with
  | Val (Ok (g, f)) => (g, B2SF f) = (MkDate 2000 1 1, B2SF (Fof (2^20-1) (-20))) | _ => False end.
Proof. intros lm p. destruct p; vm_compute; reflexivity. Qed.

(** C09 is false: JD -32000 is accepted and gives 14 April of year -4800, which
    [new] rejects. *)
Lemma C09_from_julian_accepted_refuted_pf : forall lm p, exists (x y f : b64) g,
  from_julian (A := b64A lm) p x y = Val (Ok (g, f)) /\ ~ accepted g /\
  date_new (year g) (month g) (day g) = Val (Err BadYear).
Proof.
  intros lm p.
  assert (K : match from_julian (A := b64A lm) p (FofZ (-32000)) (FofZ 0) with
              | Val (Ok (g, f)) => Some g | _ => None end = Some (MkDate (-4800) 4 14)).
  { destruct p; vm_compute; reflexivity. }
  exists (FofZ (-32000)), (FofZ 0).
  destruct (from_julian (A := b64A lm) p (FofZ (-32000)) (FofZ 0)) as [[[g f]|]|]; try discriminate.
  injection K as ->. exists f, (MkDate (-4800) 4 14). split; [reflexivity|].
  split; [discriminate|reflexivity].
Qed.

Lemma civil_fn_accepted : forall j, (-68569 <= j)%Z ->
  accepted (date_of_civil (civil_fn j)) <-> (-31738 <= j)%Z.
Proof.
  intros j H. rewrite accepted_spec. unfold date_ok. rewrite of_date_of_civil.
  destruct (civil_fn_spec j H) as (V & M & _).
  set (c := civil_fn j) in *.
  assert (Ey : year (date_of_civil c) = fst (fst c)) by (destruct c as [[? ?] ?]; reflexivity).
  rewrite Ey.
  assert (V1 : valid_civil (-4799, 1, 1)%Z) by (cbn; lia).
  assert (M1 : mjd (-4799, 1, 1)%Z = (-2431739)%Z) by reflexivity.
  pose proof (mjd_lt_iff c (-4799, 1, 1)%Z V V1) as L. rewrite M, M1 in L.
  assert (L2 : civil_lt c (-4799, 1, 1)%Z <-> (fst (fst c) < -4799)%Z).
  { destruct c as [[y m] d]. destruct V as [Vm Vd]. cbn. lia. }
  rewrite L2 in L. split.
  - intros [_ K]. lia.
  - intros K. split; [exact V|]. lia.
Qed.

(** C09, the true part, exact arithmetic: accepted exactly from JD -31738.5
    (-4799-01-01) on. *)
Lemma C09_from_julian_accepted_partial_pf : forall p dj1 dj2 g f,
  -32000 <= dj1 + dj2 < 536802342 + / 2 ->
  from_julian (A := realA) p dj1 dj2 = Val (Ok (g, f)) ->
  (accepted g <-> -31738 - / 2 <= dj1 + dj2).
Proof.
  intros p dj1 dj2 g f H E. rewrite from_julian_R_ok in E by exact H. apply ok_pair in E. destruct E as [<- <-].
  pose proof (jd_day_bounds (dj1 + dj2) (-32000) 536802342 H) as B.
  rewrite civil_fn_accepted by lia.
  unfold jd_day in *. pose proof (Zfloor_lb (dj1 + dj2 - / 2)) as L. pose proof (Zfloor_ub (dj1 + dj2 - / 2)) as U.
  split; intros K.
  - assert (K' : (-31739 <= Zfloor (dj1 + dj2 - / 2))%Z) by lia. apply IZR_le in K'. lra.
  - assert (K' : (-31740 < Zfloor (dj1 + dj2 - / 2))%Z) by (apply lt_IZR; lra). lia.
Qed.

(** C09, the true part, binary64: accepted from JD -31738 on. *)
Lemma C09_from_julian_accepted_b64_partial_pf : forall lm p x y, fin x = true -> fin y = true ->
  Rabs (B2R x) <= 2251799813685248 -> Rabs (B2R y) <= 2251799813685248 ->
  -31738 <= B2R x + B2R y <= 536802342 ->
  exists g (f : b64), from_julian (A := b64A lm) p x y = Val (Ok (g, f)) /\ accepted g.
Proof.
  intros lm p x y Hx Hy Bx By H.
  destruct (from_julian_F_ok lm p x y Hx Hy Bx By ltac:(lra)) as (n & f & E & N & F1 & F2 & F3).
  exists (date_of_civil (civil_fn (n + 1))), f. split; [exact E|].
  apply civil_fn_accepted; [lia|].
  assert (S : Rabs (smaller (B2R x) (B2R y)) <= 2251799813685248) by (unfold smaller; destruct Rle_bool; assumption).
  change (bpow radix2 (-53)) with (/ 9007199254740992) in F3.
  apply Rabs_le_inv in F3.
  assert (K : (-31740 < n)%Z) by (apply lt_IZR; lra). lia.
Qed.

(** The first instant whose date is accepted, and the day before. *)
Example C09_example_pf : forall lm p,
  match from_julian (A := b64A lm) p (Flit (-317385) (-1)) (FofZ 0), from_julian (A := b64A lm) p (Flit (-317395) (-1)) (FofZ 0) with
  | Val (Ok (g, _)), Val (Ok (g', _)) => g = MkDate (-4799) 1 1 /\ accepted g /\ g' = MkDate (-4800) 12 31 /\ ~ accepted g' | _, _ => False end.
Proof. intros lm p. destruct p; vm_compute; (split; [reflexivity|]; split; [reflexivity|]; split; [reflexivity|discriminate]). Qed.

(** C10 is false: NaN is not rejected but gives the date -4713-11-25. *)
Lemma C10_from_julian_rejects_refuted_pf : forall lm p, exists f : b64,
  from_julian (A := b64A lm) p B754_nan (FofZ 0) = Val (Ok (MkDate (-4713) 11 25, f)).
Proof.
  intros lm p.
  assert (K : match from_julian (A := b64A lm) p B754_nan (FofZ 0) with
              | Val (Ok (g, f)) => Some g | _ => None end = Some (MkDate (-4713) 11 25)).
  { destruct p; vm_compute; reflexivity. }
  destruct (from_julian (A := b64A lm) p B754_nan (FofZ 0)) as [[[g f]|]|]; try discriminate.
  injection K as ->. exists f. reflexivity.
Qed.

Lemma from_julian_err_iff : forall (A : arith) p x y,
  from_julian (A := A) p x y = Val (Err BadJulian) <->
  orb (ltb A (add A x y) (DJ_MIN (A := A))) (ltb A (DJ_MAX (A := A)) (add A x y)) = true.
Proof.
  intros A p x y. unfold from_julian.
  destruct (orb (ltb A (add A x y) (DJ_MIN (A := A))) (ltb A (DJ_MAX (A := A)) (add A x y))).
  - tauto.
  - split; [|discriminate]. destruct (split_julian x y) as [d f].
    destruct (i32_add p (to_i32 A d) 1); cbn [bind]; [|discriminate].
    destruct (civil_of_jd p a); cbn [bind]; discriminate.
Qed.

(** C10, the true part: whenever the sum is not NaN, rejection is exactly
    "the binary64 sum is not a finite number in [-32000, 1e9]". *)
Lemma C10_from_julian_rejects_partial_pf : forall lm p x y, is_nan (Fadd x y) = false ->
  (from_julian (A := b64A lm) p x y = Val (Err BadJulian) <->
   ~ (fin (Fadd x y) = true /\ -32000 <= B2R (Fadd x y) <= 1000000000)).
Proof.
  intros lm p x y N. rewrite from_julian_err_iff. unfold DJ_MIN, DJ_MAX. b64A_ops.
  revert N. generalize (Fadd x y). intros s N. destruct lit_djmin as [E1 F1]. destruct lit_djmax as [E2 F2].
  destruct (fin s) eqn:Fs.
  - rewrite (Bltb_correct 53 1024 _ _ Fs F1), (Bltb_correct 53 1024 _ _ F2 Fs), E1, E2.
    clear N Fs F1 F2 E1 E2. destruct (Rlt_bool_spec (B2R s) (-32000)), (Rlt_bool_spec 1000000000 (B2R s)); cbn [orb];
      split; intros K; try discriminate; try reflexivity; try (intros [_ K']; lra).
    exfalso. apply K. split; [reflexivity|lra].
  - split; [intros _ [K _]; discriminate|]. intros _.
    destruct s as [s|s| |s m e B]; try discriminate. destruct s; vm_compute; reflexivity.
Qed.

(** The sum is NaN only for a NaN input or infinities of opposite sign, so the
    hypothesis of the partial theorem holds for all finite inputs. *)
Lemma C10_from_julian_rejects_finite_partial_pf : forall lm p x y, fin x = true -> fin y = true ->
  (from_julian (A := b64A lm) p x y = Val (Err BadJulian) <->
   ~ (fin (Fadd x y) = true /\ -32000 <= B2R (Fadd x y) <= 1000000000)).
Proof.
  intros lm p x y Hx Hy. apply C10_from_julian_rejects_partial_pf.
  pose proof (Bplus_correct 53 1024 _ _ mode_NE x y Hx Hy) as C. fold (Fadd x y) in C.
  destruct (Rlt_bool _ _) in C.
  - destruct C as (_ & C & _). apply fin_not_nan. exact C.
  - destruct C as (C & _). destruct (Fadd x y); try reflexivity. cbn in C.
    destruct (Bsign x); discriminate.
Qed.

Example C10_example_pf : forall lm p,
  from_julian (A := b64A lm) p (FofZ 1000000001) (FofZ 0) = Val (Err BadJulian) /\
  is_nan (Fadd (FofZ 1000000001) (FofZ 0)) = false.
Proof. intros lm p. destruct p; split; vm_compute; reflexivity. Qed.

(** C11 is false: JD 1e9 is accepted; debug builds panic and release builds
    return the "date" -206610, month -3, day 1073741815. *)
Lemma C11_from_julian_no_overflow_refuted_pf : forall lm,
  from_julian (A := b64A lm) Debug (FofZ 1000000000) (FofZ 0) = Panic /\
  exists f : b64, from_julian (A := b64A lm) Release (FofZ 1000000000) (FofZ 0) =
    Val (Ok (MkDate (-206610) (-3) 1073741815, f)).
Proof.
  intros lm. split; [vm_compute; reflexivity|].
  assert (K : match from_julian (A := b64A lm) Release (FofZ 1000000000) (FofZ 0) with
              | Val (Ok (g, f)) => Some g | _ => None end = Some (MkDate (-206610) (-3) 1073741815)).
  { vm_compute; reflexivity. }
  destruct (from_julian (A := b64A lm) Release (FofZ 1000000000) (FofZ 0)) as [[[g f]|]|]; try discriminate.
  injection K as ->. exists f. reflexivity.
Qed.

(** C11, the true part in exact arithmetic: debug builds panic exactly for
    536802342.5 <= dj <= 1e9. *)
Lemma C11_from_julian_no_overflow_partial_pf : forall dj1 dj2,
  from_julian (A := realA) Debug dj1 dj2 = Panic <->
  536802342 + / 2 <= dj1 + dj2 <= 1000000000.
Proof.
  intros dj1 dj2. split.
  - intros E. destruct (Rlt_le_dec (dj1 + dj2) (-32000)) as [L|L].
    { rewrite from_julian_R_err in E by lra. discriminate. }
    destruct (Rlt_le_dec 1000000000 (dj1 + dj2)) as [L2|L2].
    { rewrite from_julian_R_err in E by lra. discriminate. }
    destruct (Rlt_le_dec (dj1 + dj2) (536802342 + / 2)) as [L3|L3].
    { rewrite from_julian_R_ok in E by lra. discriminate. }
    lra.
  - intros H. unfold from_julian, DJ_MIN, DJ_MAX. rewrite split_julian_R.
    fold (jd_day (dj1 + dj2)).
    pose proof (jd_day_bounds (dj1 + dj2) 536802342 1000000000 ltac:(lra)) as B.
    assert (B' : (536802342 <= jd_day (dj1 + dj2))%Z).
    { unfold jd_day. apply Zfloor_lub. lra. }
    cbn [ltb realA num add lit to_i32]. rlit_in_goal.
    rewrite !Rlt_bool_false by lra. cbn [orb].
    rewrite Ztrunc_IZR. unfold clampZ, i32_min, i32_max, i32_add.
    rewrite Z.min_r, Z.max_r by lia. ok32.
    unfold civil_of_jd, i32_add, i32_mul. ok32.
    rewrite i32_debug_panic; [reflexivity|unfold i32_min, i32_max; lia].
Qed.

(** C11, release builds, exact arithmetic: below the boundary both profiles agree. *)
Lemma C11_profiles_agree_partial_pf : forall dj1 dj2,
  ~ (536802342 + / 2 <= dj1 + dj2 <= 1000000000) ->
  from_julian (A := realA) Release dj1 dj2 = from_julian (A := realA) Debug dj1 dj2.
Proof.
  intros dj1 dj2 H.
  destruct (Rlt_le_dec (dj1 + dj2) (-32000)) as [L|L].
  { rewrite !from_julian_R_err by lra. reflexivity. }
  destruct (Rlt_le_dec 1000000000 (dj1 + dj2)) as [L2|L2].
  { rewrite !from_julian_R_err by lra. reflexivity. }
  rewrite !from_julian_R_ok by lra. reflexivity.
Qed.

(** C11, release builds, exact arithmetic: past the boundary the date returned is always
    wrong, its year negative instead of above 1,460,000. *)
Lemma C11_release_wrong_partial_pf : forall dj1 dj2,
  536802342 + / 2 <= dj1 + dj2 <= 1000000000 ->
  exists g f, from_julian (A := realA) Release dj1 dj2 = Val (Ok (g, f)) /\ (year g < 0)%Z.
Proof. intros dj1 dj2 H. exact (from_julian_R_past Release dj1 dj2 H). Qed.

(** The last half day covered by C07 and the first instant of the overflow. *)
Example C11_example_pf : forall lm,
  match from_julian (A := b64A lm) Debug (FofZ 536802342) (FofZ 0) with Val (Ok (g, f)) => (g, B2SF f) = (MkDate 1465002 10 17, B2SF (Flit 5 (-1))) | _ => False end /\
  from_julian (A := b64A lm) Debug (FofZ 536802343) (FofZ 0) = Panic.
Proof. intros lm. split; vm_compute; reflexivity. Qed.

(** C11 in binary64, for parts of magnitude at most 2^51: from 536802343 on,
    debug builds always panic and release builds always return a date with a
    negative year.  (Up to 536802342 neither happens: C07.) *)
Lemma C11_overflow_b64_partial_pf : forall lm x y, fin x = true -> fin y = true ->
  Rabs (B2R x) <= 2251799813685248 -> Rabs (B2R y) <= 2251799813685248 ->
  536802343 <= B2R x + B2R y <= 1000000000 ->
  from_julian (A := b64A lm) Debug x y = Panic /\
  exists g f, from_julian (A := b64A lm) Release x y = Val (Ok (g, f)) /\ (year g < 0)%Z.
Proof.
  intros lm x y Fx Fy Bx By H. split.
  - exact (from_julian_F_past lm Debug x y Fx Fy Bx By H).
  - exact (from_julian_F_past lm Release x y Fx Fy Bx By H).
Qed.

(** C12.  Exchanging the two parts changes nothing, bit for bit: NaN,
    infinities, signed zeros and panics included. *)
Lemma C12_from_julian_symmetric_pf : forall lm p x y,
  from_julian (A := b64A lm) p x y = from_julian (A := b64A lm) p y x.
Proof. exact from_julian_sym. Qed.

(** Both orders of 2451545 and 0.1. *)
Example C12_example_pf : forall lm p,
  let show r := match r with Val (Ok (g, f)) => Some (g, B2SF f) | _ => None end in
  show (from_julian (A := b64A lm) p (FofZ 2451545) (Flit 1 (-1))) = show (from_julian (A := b64A lm) p (Flit 1 (-1)) (FofZ 2451545)) /\
  show (from_julian (A := b64A lm) p (FofZ 2451545) (Flit 1 (-1))) = Some (MkDate 2000 1 1, B2SF (Flit 6 (-1))).
Proof. intros lm p. destruct p; split; vm_compute; reflexivity. Qed.

(** C13.  In exact arithmetic only the total matters (also for errors and panics). *)
Lemma C13_from_julian_total_pf : forall p dj1 dj2 dj1' dj2',
  dj1 + dj2 = dj1' + dj2' ->
  from_julian (A := realA) p dj1 dj2 = from_julian (A := realA) p dj1' dj2'.
Proof.
  intros p dj1 dj2 dj1' dj2' E. unfold from_julian. rewrite !split_julian_R.
  cbn [ltb realA num add lit to_i32]. rewrite E. reflexivity.
Qed.

(** Three splits of JD 2400365.75. *)
Example C13_example_pf : forall p, from_julian (A := realA) p 2400000.5 365.25 = Val (Ok (MkDate 1859 11 17, 0.25)) /\
  from_julian (A := realA) p 2400365.75 0 = Val (Ok (MkDate 1859 11 17, 0.25)) /\ from_julian (A := realA) p (-2400000) 4800365.75 = Val (Ok (MkDate 1859 11 17, 0.25)).
Proof. intros p. split; [|split]; apply from_julian_1859; lra. Qed.

(** C14.  In exact arithmetic a later Julian date gives a later date, or the
    same date and a larger fraction. *)
Lemma C14_from_julian_monotone_pf : forall p a b a' b',
  -32000 <= a + b -> a + b < a' + b' -> a' + b' < 536802342 + / 2 ->
  exists g f g' f',
    from_julian (A := realA) p a b = Val (Ok (g, f)) /\
    from_julian (A := realA) p a' b' = Val (Ok (g', f')) /\
    (civil_lt (of_date g) (of_date g') \/ (g = g' /\ f < f')).
Proof.
  intros p a b a' b' H1 H2 H3.
  exists (date_of_civil (civil_fn (jd_day (a + b) + 1))), (jd_frac (a + b)),
         (date_of_civil (civil_fn (jd_day (a' + b') + 1))), (jd_frac (a' + b')).
  split; [apply from_julian_R_ok; lra|]. split; [apply from_julian_R_ok; lra|].
  pose proof (jd_day_bounds (a + b) (-32000) 536802342 ltac:(lra)) as B1.
  pose proof (jd_day_bounds (a' + b') (-32000) 536802342 ltac:(lra)) as B2.
  assert (L : (jd_day (a + b) <= jd_day (a' + b'))%Z) by (apply Zfloor_le; lra).
  destruct (Z.eq_dec (jd_day (a + b)) (jd_day (a' + b'))) as [E|E].
  - right. rewrite E. split; [reflexivity|]. unfold jd_frac. rewrite E. lra.
  - left. rewrite !of_date_of_civil.
    destruct (civil_fn_spec (jd_day (a + b) + 1)) as (V & M & _); [lia|].
    destruct (civil_fn_spec (jd_day (a' + b') + 1)) as (V' & M' & _); [lia|].
    apply mjd_lt_iff; [exact V|exact V'|]. lia.
Qed.

(** C14 in binary64, rounding included: increasing either part or both never
    gives an earlier date, nor a smaller fraction on the same date. *)
Lemma C14_from_julian_monotone_b64_pf : forall lm p x y x' y',
  fin x = true -> fin y = true -> fin x' = true -> fin y' = true ->
  Rabs (B2R x) <= 2251799813685248 -> Rabs (B2R y) <= 2251799813685248 ->
  Rabs (B2R x') <= 2251799813685248 -> Rabs (B2R y') <= 2251799813685248 ->
  -32000 <= B2R x + B2R y -> B2R x' + B2R y' <= 536802342 ->
  B2R x <= B2R x' -> B2R y <= B2R y' ->
  exists g f g' f',
    from_julian (A := b64A lm) p x y = Val (Ok (g, f)) /\
    from_julian (A := b64A lm) p x' y' = Val (Ok (g', f')) /\
    fin f = true /\ fin f' = true /\
    (civil_lt (of_date g) (of_date g') \/ (g = g' /\ B2R f <= B2R f')).
Proof. exact from_julian_F_mono. Qed.

(** Across a midnight: 2451545.0 with 0.49999999999999989 (just below one half)
    and with 0.5 are on successive days. *)
Example C14_example_pf : forall lm p,
  match from_julian (A := b64A lm) p (Fof 2451545 0) (Fof (2^52-1) (-53)),
        from_julian (A := b64A lm) p (Fof 2451545 0) (Fof 1 (-1)) with
  | Val (Ok (g, f)), Val (Ok (g', f')) => Some (g, B2SF f, g', B2SF f')
  | _, _ => None
  end = Some (MkDate 2000 1 1, SpecFloat.S754_finite false (2^53-1) (-53),
              MkDate 2000 1 2, SpecFloat.S754_zero false).
Proof. intros lm p. destruct p; vm_compute; reflexivity. Qed.
