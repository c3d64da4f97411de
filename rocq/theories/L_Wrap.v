(** * What release builds do when the day number overflows *)

From Coq Require Import ZArith Reals Lra Lia Bool.
From Flocq Require Import Core BinarySingleNaN.
From Verif Require Import Outcome Arith ArithR L_ArithR ArithF L_ArithF
  M_Common M_Calendar Spec_Calendar Spec_Api L_Calendar L_Civil L_FromJulianF L_FromJulianR L_JulianMono.
Open Scope Z_scope.

Lemma rel_bound : forall z, exists w, i32 Release z = Val w /\ -2147483648 <= w <= 2147483647.
Proof.
  intros z. unfold i32, in_i32, i32_min, i32_max.
  destruct (Z.leb_spec (-2147483648) z), (Z.leb_spec z 2147483647); cbn [andb]; eexists; (split; [reflexivity|]); try lia;
    unfold wrap32; pose proof (Z.mod_pos_bound (z + 2147483648) 4294967296 ltac:(lia)); lia.
Qed.

Lemma div_any : forall a b, 0 < b -> i32_div a b = Val (Z.quot a b).
Proof.
  intros a b H. unfold i32_div. destruct (Z.eqb_spec b 0); [lia|].
  destruct (Z.eqb_spec b (-1)); [lia|]. rewrite ?andb_false_r. reflexivity.
Qed.

Lemma civil_of_jd_wraps : forall jd, 536802343 <= jd <= 1000000001 ->
  exists g, civil_of_jd Release jd = Val g /\ year g < 0.
Proof.
  intros jd H. unfold civil_of_jd, i32_add, i32_sub, i32_mul.
  rewrite i32_ok by (unfold i32_min, i32_max; lia). cbn [bind].
  assert (E : i32 Release (4 * (jd + 68569)) = Val (4 * (jd + 68569) - 4294967296)).
  { unfold i32, in_i32, i32_min, i32_max. destruct (Z.leb_spec (4 * (jd + 68569)) 2147483647); [lia|]. rewrite andb_false_r.
    unfold wrap32. f_equal. replace (4 * (jd + 68569) + 2147483648) with ((4 * (jd + 68569) - 2147483648) + 1 * 4294967296) by ring.
    rewrite Z_mod_plus_full, Z.mod_small by lia. ring. }
  rewrite E. cbn [bind]. rewrite div_any by lia. cbn [bind].
  set (n := Z.quot _ 146097).
  assert (N : -14700 <= n <= -2014).
  { unfold n. set (q := 4 * (jd + 68569) - 4294967296). assert (Q : -2147483648 <= q <= -294693016) by (unfold q; lia).
    clearbody q. clear - Q. Z.to_euclidean_division_equations. lia. }
  clearbody n.
  Ltac anyw := match goal with |- context [bind (i32 Release ?z) _] =>
    let w := fresh "w" in let B := fresh "B" in let EW := fresh "EW" in destruct (rel_bound z) as (w & EW & B); rewrite EW; clear EW; cbn [bind] end; rewrite ?div_any by lia; cbn [bind].
  anyw. anyw. anyw. anyw. anyw.
  set (i := Z.quot w3 1461001).
  assert (I : -1471 <= i <= 1471) by (unfold i; clear - B3; Z.to_euclidean_division_equations; lia). clearbody i.
  anyw. anyw. anyw. anyw.
  set (k := Z.quot w7 2447).
  assert (K : -877600 <= k <= 877600) by (unfold k; clear - B7; Z.to_euclidean_division_equations; lia). clearbody k.
  anyw. anyw.
  set (m := Z.quot k 11).
  assert (M : -79782 <= m <= 79782) by (unfold m; clear - K; Z.to_euclidean_division_equations; lia). clearbody m.
  anyw. anyw. anyw.
  repeat (rewrite i32_ok by (unfold i32_min, i32_max; lia); cbn [bind]).
  eexists. split; [reflexivity|]. cbn [year]. lia.
Qed.

(** The two outcomes for a day number past the boundary. *)
Definition past (F : Type) (p : profile) (o : outcome (result (GregorianDate * F) CalendarError)) : Prop :=
  match p with
  | Debug => o = Panic
  | Release => exists g f, o = Val (Ok (g, f)) /\ year g < 0
  end.

Lemma civil_of_jd_past : forall (F : Type) p n (f : F), 536802342 <= n <= 1000000000 ->
  past F p (bind (i32_add p n 1) (fun jd => bind (civil_of_jd p jd) (fun g => Val (Ok (g, f))))).
Proof.
  intros F p n f H. unfold i32_add at 1. rewrite i32_ok by (unfold i32_min, i32_max; lia). cbn [bind].
  destruct p; unfold past.
  - unfold civil_of_jd, i32_add, i32_mul. rewrite i32_ok by (unfold i32_min, i32_max; lia). cbn [bind].
    rewrite i32_debug_panic; [reflexivity|unfold i32_min, i32_max; lia].
  - destruct (civil_of_jd_wraps (n + 1)) as (g & -> & Hg); [lia|]. cbn [bind]. exists g, f. split; [reflexivity|exact Hg].
Qed.

Open Scope R_scope.

Lemma from_julian_F_past : forall lm p x y, fin x = true -> fin y = true ->
  Rabs (B2R x) <= 2251799813685248 -> Rabs (B2R y) <= 2251799813685248 ->
  536802343 <= B2R x + B2R y <= 1000000000 ->
  past b64 p (from_julian (A := b64A lm) p x y).
Proof.
  intros lm p x y Hx Hy Bx By Hs. unfold from_julian. rewrite split_julian_F.
  unfold DJ_MIN, DJ_MAX. b64A_ops.
  assert (RC : Bltb (Fadd x y) (Flit (-32000) 0) || Bltb (Flit 1 9) (Fadd x y) = false).
  { destruct lit_djmin as [E1 F1]. destruct lit_djmax as [E2 F2].
    destruct (Fadd_ok x y Hx Hy) as [A B]; [apply small_big; apply Rabs_le; lra|].
    rewrite (Bltb_correct 53 1024 _ _ B F1), (Bltb_correct 53 1024 _ _ F2 B), A, E1, E2.
    assert (-32000 <= rnd (B2R x + B2R y)) by (apply rnd_ge; [apply (format_IZR (-32000)); lia|lra]).
    assert (rnd (B2R x + B2R y) <= 1000000000) by (apply rnd_le; [apply (format_IZR 1000000000); lia|lra]).
    rewrite !Rlt_bool_false by lra. reflexivity. }
  rewrite RC.
  assert (G : forall a b, fin a = true -> fin b = true ->
    Rabs (B2R a) <= 2251799813685248 -> Rabs (B2R b) <= 2251799813685248 ->
    B2R a + B2R b = B2R x + B2R y ->
    past b64 p (let '(d, f0) := split_ord a b in
     bind (i32_add p (Fto_int i32_min i32_max d) 1) (fun jd =>
     bind (civil_of_jd p jd) (fun g => Val (Ok (E := CalendarError) (g, f0)))))).
  { intros a b Ha Hb Ba Bb E. destruct (split_ord_spec a b Ha Hb Ba Bb) as (n & P1 & P2 & P3 & P4 & P5).
    destruct (split_ord a b) as [d f]. cbn [fst snd] in *. rewrite E in P5.
    assert (P6 : - (1 / 3) <= IZR n + B2R f + / 2 - (B2R x + B2R y) <= 1 / 3).
    { apply Rabs_le_inv. apply Rle_trans with (1 := P5).
      change (bpow radix2 (-53)) with (/ 9007199254740992). apply Rabs_le_inv in Bb.
      assert (Rabs (B2R b) <= 2251799813685248) by (apply Rabs_le; lra). lra. }
    assert (N1 : (536802342 <= n)%Z).
    { assert (536802341 < n)%Z; [apply lt_IZR; lra|lia]. }
    assert (N2 : (n <= 1000000000)%Z) by (apply le_IZR; lra).
    rewrite Fto_int_ok; [|exact P1|].
    - rewrite P2, Ztrunc_IZR. apply civil_of_jd_past. lia.
    - rewrite P2, Ztrunc_IZR. unfold i32_min, i32_max. lia. }
  rewrite (Bleb_correct 53 1024 y x Hy Hx).
  destruct (Rle_bool (B2R y) (B2R x)); apply G; try assumption; lra.
Qed.

Lemma from_julian_R_past : forall p dj1 dj2, 536802342 + / 2 <= dj1 + dj2 <= 1000000000 ->
  past R p (from_julian (A := realA) p dj1 dj2).
Proof.
  intros p dj1 dj2 H. unfold from_julian, DJ_MIN, DJ_MAX. rewrite split_julian_R.
  fold (jd_day (dj1 + dj2)).
  pose proof (jd_day_bounds (dj1 + dj2) 536802342 1000000000 ltac:(lra)) as B.
  assert (B' : (536802342 <= jd_day (dj1 + dj2))%Z).
  { unfold jd_day. apply Zfloor_lub. lra. }
  cbn [ltb realA num add lit to_i32]. rlit_in_goal.
  rewrite !Rlt_bool_false by lra. cbn [orb].
  rewrite Ztrunc_IZR. unfold clampZ, i32_min, i32_max.
  rewrite Z.min_r, Z.max_r by lia. apply civil_of_jd_past. lia.
Qed.
