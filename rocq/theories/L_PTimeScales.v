(** * Proofs of the time-scale properties C25-C27 *)

From Coq Require Import ZArith Reals Lra Lia Bool.
From Flocq Require Import Core BinarySingleNaN.
From Verif Require Import Outcome Arith ArithR ArithF Spec_Float Spec_Time M_Time.
From Verif Require Import L_ArithR L_ArithF L_Flit L_FromJulianF.
Open Scope R_scope.

Lemma Rlit_32184 : Rlit 32184 (-3) = 32184 / 1000.
Proof. reflexivity. Qed.

(** C25.  Each conversion moves the total by exactly the offset (exact arithmetic). *)
Lemma C25_time_scale_shift_pf :
  (forall u dt, tt_total (A := realA) (tt_from_ut1 (A := realA) u dt) = ut1_total (A := realA) u + dt / 86400) /\
  (forall t dt, ut1_total (A := realA) (ut1_from_tt (A := realA) t dt) = tt_total (A := realA) t - dt / 86400) /\
  (forall u d, tai_total (A := realA) (tai_from_utc (A := realA) u d) = utc_total (A := realA) u + d / 86400) /\
  (forall t, tt_total (A := realA) (tt_from_tai (A := realA) t) = tai_total (A := realA) t + 32.184 / 86400) /\
  (forall t dtr, let b := tdb_from_tt (A := realA) t dtr in
     tdb_1 (A := realA) b + tdb_2 (A := realA) b = tt_total (A := realA) t + dtr / 86400).
Proof.
  unfold tt_from_ut1, ut1_from_tt, tai_from_utc, tt_from_tai, tdb_from_tt,
    tt_total, ut1_total, tai_total, utc_total, D2S, DTAT.
  repeat split; intros; realA_ops; rlit_in_goal;
    (destruct (Rlt_bool _ _) || (cbv zeta; destruct (Rlt_bool _ _))); cbn [tt_1 tt_2 ut1_1 ut1_2 tai_1 tai_2 utc_1 utc_2 tdb_1 tdb_2]; lra.
Qed.

(** Hence, for a fixed offset, conversions preserve differences and order. *)
Lemma C25_differences_preserved_pf : forall u u' d,
  tt_total (A := realA) (tt_from_tai (A := realA) (tai_from_utc (A := realA) u' d)) -
  tt_total (A := realA) (tt_from_tai (A := realA) (tai_from_utc (A := realA) u d)) =
  utc_total (A := realA) u' - utc_total (A := realA) u.
Proof.
  intros u u' d. destruct C25_time_scale_shift_pf as (_ & _ & A & B & _).
  rewrite !B, !A. realA_ops. lra.
Qed.

(** One day added to the smaller part, in either position. *)
Example C25_example_pf :
  tt_from_ut1 (A := realA) (MkUT1 (A := realA) 2451545 (1 / 4)) 86400 = MkTT (A := realA) 2451545 (5 / 4) /\
  tai_from_utc (A := realA) (MkUTC (A := realA) (1 / 4) 2451545) 43200 = MkTAI (A := realA) (3 / 4) 2451545.
Proof.
  unfold tt_from_ut1, tai_from_utc, D2S. realA_ops. rlit_in_goal. cbn [ut1_1 ut1_2 utc_1 utc_2]. split.
  - rewrite Rlt_bool_true by lra. f_equal. change (@eq R (1 / 4 + 86400 / 86400) (5 / 4)). lra.
  - rewrite Rlt_bool_false by lra. f_equal. change (@eq R (1 / 4 + 43200 / 86400) (3 / 4)). lra.
Qed.

(** C26.  Round trip: same total; and the same two parts when the offset does
    not change which part is larger. *)
Lemma C26_ut1_tt_roundtrip_pf : forall (u : UT1 realA) (dt : R),
  let u' := ut1_from_tt (A := realA) (tt_from_ut1 (A := realA) u dt) dt in
  ut1_total (A := realA) u' = ut1_total (A := realA) u /\
  ((ut1_2 (A := realA) u < ut1_1 (A := realA) u <->
    tt_2 (A := realA) (tt_from_ut1 (A := realA) u dt) < tt_1 (A := realA) (tt_from_ut1 (A := realA) u dt)) -> u' = u).
Proof.
  intros [a b] dt. unfold ut1_total, ut1_from_tt, tt_from_ut1, D2S. realA_ops. rlit_in_goal.
  cbn [ut1_1 ut1_2 tt_1 tt_2].
  destruct (Rlt_bool_spec b a); cbn [tt_1 tt_2].
  - destruct (Rlt_bool_spec (b + dt / 86400) a); cbn [ut1_1 ut1_2]; split; try lra; intros _; f_equal; lra.
  - destruct (Rlt_bool_spec b (a + dt / 86400)); cbn [ut1_1 ut1_2]; split; try lra; intros _; f_equal; lra.
Qed.

Lemma C26_tt_ut1_roundtrip_pf : forall (t : TT realA) (dt : R),
  let t' := tt_from_ut1 (A := realA) (ut1_from_tt (A := realA) t dt) dt in
  tt_total (A := realA) t' = tt_total (A := realA) t /\
  ((tt_2 (A := realA) t < tt_1 (A := realA) t <->
    ut1_2 (A := realA) (ut1_from_tt (A := realA) t dt) < ut1_1 (A := realA) (ut1_from_tt (A := realA) t dt)) -> t' = t).
Proof.
  intros [a b] dt. unfold tt_total, ut1_from_tt, tt_from_ut1, D2S. realA_ops. rlit_in_goal.
  cbn [ut1_1 ut1_2 tt_1 tt_2].
  destruct (Rlt_bool_spec b a); cbn [ut1_1 ut1_2].
  - destruct (Rlt_bool_spec (b - dt / 86400) a); cbn [tt_1 tt_2]; split; try lra; intros _; f_equal; lra.
  - destruct (Rlt_bool_spec b (a - dt / 86400)); cbn [tt_1 tt_2]; split; try lra; intros _; f_equal; lra.
Qed.

(** A day of offset added and taken away. *)
Example C26_example_pf : let t := tt_from_ut1 (A := realA) (MkUT1 (A := realA) 2451545 (1 / 4)) 86400 in
  t = MkTT (A := realA) 2451545 (5 / 4) /\ ut1_from_tt (A := realA) t 86400 = MkUT1 (A := realA) 2451545 (1 / 4).
Proof.
  cbv zeta. assert (E : tt_from_ut1 (A := realA) (MkUT1 (A := realA) 2451545 (1 / 4)) 86400 = MkTT (A := realA) 2451545 (5 / 4)) by exact (proj1 C25_example_pf).
  split; [exact E|]. rewrite E. unfold ut1_from_tt, D2S. realA_ops. rlit_in_goal. cbn [tt_1 tt_2].
  rewrite Rlt_bool_true by lra. f_equal. change (@eq R (5 / 4 - 86400 / 86400) (1 / 4)). lra.
Qed.

Lemma quot_ok : forall d, moderate d ->
  fin (Fdiv d (Flit 86400 0)) = true /\ B2R (Fdiv d (Flit 86400 0)) = rnd (B2R d / 86400) /\
  Rabs (rnd (B2R d / 86400)) <= 1000000000000000.
Proof.
  intros d [Fd Bd]. destruct lit_86400 as [E8 F8]. apply Rabs_le_inv in Bd.
  destruct (Fdiv_ok d (Flit 86400 0) Fd) as [Q1 Q2].
  - rewrite E8. lra.
  - rewrite E8. apply small_big. apply Rabs_le. lra.
  - rewrite E8 in Q1. split; [exact Q2|]. split; [exact Q1|].
    apply rnd_abs_le; [apply (format_IZR 1000000000000000); lia|]. apply Rabs_le. lra.
Qed.

Lemma shift_add : forall a b d q, moderate a -> moderate b -> fin d = true -> B2R d = q ->
  Rabs q <= 1000000000000000 ->
  (fin (Fadd a d) = true /\ B2R (Fadd a d) = rnd (B2R a + q)).
Proof.
  intros a b d q [Fa Ba] [Fb Bb] Fd Ed Bq. rewrite <- Ed in *.
  apply Rabs_le_inv in Ba, Bb, Bq.
  destruct (Fadd_ok a d Fa Fd) as [A1 A2]; [apply small_big, Rabs_le; lra|]. auto.
Qed.

Lemma shift_sub : forall a b d q, moderate a -> moderate b -> fin d = true -> B2R d = q ->
  Rabs q <= 1000000000000000 ->
  (fin (Fsub a d) = true /\ B2R (Fsub a d) = rnd (B2R a - q)).
Proof.
  intros a b d q [Fa Ba] [Fb Bb] Fd Ed Bq. rewrite <- Ed in *.
  apply Rabs_le_inv in Ba, Bb, Bq.
  destruct (Fsub_ok a d Fa Fd) as [A1 A2]; [apply small_big, Rabs_le; lra|]. auto.
Qed.

Lemma shifted_add : forall a b d q, moderate a -> moderate b -> fin d = true -> B2R d = q ->
  Rabs q <= 1000000000000000 ->
  (B2R b < B2R a -> Bltb b a = true /\ fin (Fadd b d) = true /\ B2R (Fadd b d) = rnd (B2R b + q)) /\
  (B2R a <= B2R b -> Bltb b a = false /\ fin (Fadd a d) = true /\ B2R (Fadd a d) = rnd (B2R a + q)).
Proof.
  intros a b d q Ha Hb Fd Ed Bq.
  rewrite (Bltb_correct 53 1024 b a (proj1 Hb) (proj1 Ha)).
  split; intros L.
  - split; [apply Rlt_bool_true, L|]. apply (shift_add b a); assumption.
  - split; [apply Rlt_bool_false, L|]. apply (shift_add a b); assumption.
Qed.

Lemma shifted_sub : forall a b d q, moderate a -> moderate b -> fin d = true -> B2R d = q ->
  Rabs q <= 1000000000000000 ->
  (B2R b < B2R a -> Bltb b a = true /\ fin (Fsub b d) = true /\ B2R (Fsub b d) = rnd (B2R b - q)) /\
  (B2R a <= B2R b -> Bltb b a = false /\ fin (Fsub a d) = true /\ B2R (Fsub a d) = rnd (B2R a - q)).
Proof.
  intros a b d q Ha Hb Fd Ed Bq.
  rewrite (Bltb_correct 53 1024 b a (proj1 Hb) (proj1 Ha)).
  split; intros L.
  - split; [apply Rlt_bool_true, L|]. apply (shift_sub b a); assumption.
  - split; [apply Rlt_bool_false, L|]. apply (shift_sub a b); assumption.
Qed.

(** C27.  Every conversion, for finite parts and offsets of magnitude up to 1e15
    (no overflow). *)
Lemma C27_larger_part_untouched_pf : forall lm (a b d : b64), moderate a -> moderate b -> moderate d ->
  (let t := tt_from_ut1 (A := b64A lm) (MkUT1 (A := b64A lm) a b) d in
     shifted a b (tt_1 t) (tt_2 t) false (B2R d)) /\
  (let u := ut1_from_tt (A := b64A lm) (MkTT (A := b64A lm) a b) d in
     shifted a b (ut1_1 u) (ut1_2 u) true (B2R d)) /\
  (let t := tai_from_utc (A := b64A lm) (MkUTC (A := b64A lm) a b) d in
     shifted a b (tai_1 t) (tai_2 t) false (B2R d)) /\
  (let t := tt_from_tai (A := b64A lm) (MkTAI (A := b64A lm) a b) in
     shifted a b (tt_1 t) (tt_2 t) false (rnd (32184 / 1000))) /\
  (let t := tdb_from_tt (A := b64A lm) (MkTT (A := b64A lm) a b) d in
     shifted a b (tdb_1 t) (tdb_2 t) false (B2R d)).
Proof.
  intros lm a b d Ha Hb Hd. destruct (quot_ok d Hd) as (Q1 & Q2 & Q3).
  destruct (shifted_add a b _ _ Ha Hb Q1 Q2 Q3) as [P1 P2].
  destruct (shifted_sub a b _ _ Ha Hb Q1 Q2 Q3) as [S1 S2].
  assert (Hc : moderate (Flit 32184 (-3)) /\ B2R (Flit 32184 (-3)) = rnd (32184 / 1000)).
  { destruct (Flit_neg 32184 3) as [C1 C2].
    - unfold Rlit. change (Z.pow_pos 10 3) with 1000%Z. apply small_big, Rabs_le. lra.
    - unfold Rlit in C1. change (Z.pow_pos 10 3) with 1000%Z in C1. split; [|exact C1].
      split; [exact C2|]. rewrite C1.
      apply rnd_abs_le; [apply (format_IZR 1000000000000000); lia|]. apply Rabs_le. lra. }
  destruct Hc as [Hc Ec]. destruct (quot_ok _ Hc) as (W1 & W2 & W3). rewrite Ec in W2, W3.
  destruct (shifted_add a b _ _ Ha Hb W1 W2 W3) as [V1 V2].
  unfold shifted, tt_from_ut1, ut1_from_tt, tai_from_utc, tt_from_tai, tdb_from_tt, D2S, DTAT. b64A_ops.
  cbn [ut1_1 ut1_2 tt_1 tt_2 utc_1 utc_2 tai_1 tai_2].
  split; [|split; [|split; [|split]]]; split; intros L;
    (destruct (P1 L) as (B & X & Y) || destruct (P2 L) as (B & X & Y));
    (destruct (S1 L) as (_ & X' & Y') || destruct (S2 L) as (_ & X' & Y'));
    (destruct (V1 L) as (_ & X'' & Y'') || destruct (V2 L) as (_ & X'' & Y''));
    rewrite B; (split; [reflexivity|split; assumption]).
Qed.

(** C27, the error in seconds of a conversion: with the smaller part and the
    quotient below one day (in magnitude), the total is off by at most 2^-53 +
    2^-54 day (14 ps). *)
Lemma C27_conversion_error_pf : forall a b a' b' ng s,
  shifted a b a' b' ng s -> Rabs (Rmin (B2R a) (B2R b)) <= 1 -> Rabs s <= 86400 ->
  Rabs ((B2R a' + B2R b') - (B2R a + B2R b + (if ng then - (s / 86400) else s / 86400)))
    <= bpow radix2 (-53) + bpow radix2 (-54).
Proof.
  intros a b a' b' ng s [H1 H2] Hm Hs.
  apply Rabs_le_inv in Hs.
  assert (Q : Rabs (rnd (s / 86400) - s / 86400) <= / 2 * bpow radix2 (0 - 53)).
  { apply rnd_error; [lia|]. cbn [bpow]. apply Rabs_le. lra. }
  assert (Qa : Rabs (rnd (s / 86400)) <= 1).
  { apply rnd_abs_le; [apply (format_IZR 1); lia|]. apply Rabs_le. lra. }
  change (bpow radix2 (0 - 53)) with (/ 9007199254740992) in Q.
  change (bpow radix2 (-53)) with (/ 9007199254740992).
  change (bpow radix2 (-54)) with (/ 18014398509481984).
  set (q := rnd (s / 86400)) in *. apply Rabs_le_inv in Q, Qa.
  assert (G : forall x, Rabs x <= 2 -> Rabs (rnd x - x) <= / 2 * / 4503599627370496).
  { intros x Hx. change (/ 4503599627370496) with (bpow radix2 (1 - 53)). apply rnd_error; [lia|exact Hx]. }
  unfold Rmin in Hm. destruct (Rle_dec (B2R a) (B2R b)) as [L|L].
  - destruct (H2 L) as (-> & _ & E). rewrite E. apply Rabs_le_inv in Hm.
    destruct ng.
    + pose proof (G (B2R a - q) ltac:(apply Rabs_le; lra)) as K. apply Rabs_le_inv in K. apply Rabs_le. lra.
    + pose proof (G (B2R a + q) ltac:(apply Rabs_le; lra)) as K. apply Rabs_le_inv in K. apply Rabs_le. lra.
  - destruct (H1 ltac:(lra)) as (-> & _ & E). rewrite E. apply Rabs_le_inv in Hm.
    destruct ng.
    + pose proof (G (B2R b - q) ltac:(apply Rabs_le; lra)) as K. apply Rabs_le_inv in K. apply Rabs_le. lra.
    + pose proof (G (B2R b + q) ltac:(apply Rabs_le; lra)) as K. apply Rabs_le_inv in K. apply Rabs_le. lra.
Qed.

(** 64 s added to 2451545 + 0.5: the larger part is the same number, the smaller one the nearest to 0.5007407407407407. *)
Example C27_example_pf : forall lm,
  let t := tt_from_ut1 (A := b64A lm) (MkUT1 (A := b64A lm) (FofZ 2451545) (Flit 5 (-1))) (FofZ 64) in
  (B2SF (tt_1 t), B2SF (tt_2 t)) = (B2SF (FofZ 2451545), B2SF (Flit 5007407407407407 (-16))).
Proof. intros lm. vm_compute. reflexivity. Qed.

(** One conversion and then the opposite one. *)
Lemma shifted_back : forall a b a' b' a'' b'' ng s, moderate a -> moderate b ->
  Rabs (Rmin (B2R a) (B2R b)) <= / 2 -> Rabs s <= 40000 ->
  shifted a b a' b' ng s -> moderate a' /\ moderate b' /\
  (shifted a' b' a'' b'' (negb ng) s ->
   Rabs ((B2R a'' + B2R b'') - (B2R a + B2R b)) <= 3 * bpow radix2 (-53)).
Proof.
  intros a b a' b' a'' b'' ng s Ha Hb Hm Hs S.
  assert (Q : Rabs (rnd (s / 86400)) <= 15 / 32).
  { apply rnd_abs_le.
    - replace (15 / 32) with (IZR 15 * bpow radix2 (-5)) by (change (bpow radix2 (-5)) with (/ 32); lra). apply format_dyadic; lia.
    - apply Rabs_le_inv in Hs. apply Rabs_le. lra. }
  assert (R1 : forall x, Rabs x <= 1 -> Rabs (rnd x) <= 1) by (intros x Hx; apply rnd_abs_le; [apply (format_IZR 1); lia|exact Hx]).
  assert (M : moderate a' /\ moderate b' /\ Rabs (Rmin (B2R a') (B2R b')) <= 1).
  { destruct S as [S1 S2]. cbv zeta in S1, S2. set (q := rnd (s / 86400)) in *. apply Rabs_le_inv in Q.
    unfold Rmin in Hm. destruct (Rle_dec (B2R a) (B2R b)) as [L|L].
    - destruct (S2 L) as (-> & F & E). apply Rabs_le_inv in Hm.
      assert (K : Rabs (B2R a') <= 1) by (rewrite E; apply R1; apply Rabs_le; destruct ng; lra).
      apply Rabs_le_inv in K.
      split; [split; [exact F|apply Rabs_le; lra]|]. split; [exact Hb|].
      unfold Rmin. destruct (Rle_dec (B2R a') (B2R b)); apply Rabs_le; lra.
    - destruct (S1 ltac:(lra)) as (-> & F & E). apply Rabs_le_inv in Hm.
      assert (K : Rabs (B2R b') <= 1) by (rewrite E; apply R1; apply Rabs_le; destruct ng; lra).
      apply Rabs_le_inv in K.
      split; [exact Ha|]. split; [split; [exact F|apply Rabs_le; lra]|].
      unfold Rmin. destruct (Rle_dec (B2R a) (B2R b')); apply Rabs_le; lra. }
  destruct M as (Ma & Mb & Mm). split; [exact Ma|]. split; [exact Mb|]. intros T.
  apply Rabs_le_inv in Hs.
  pose proof (C27_conversion_error_pf a b a' b' ng s S ltac:(lra) ltac:(apply Rabs_le; lra)) as E1.
  pose proof (C27_conversion_error_pf a' b' a'' b'' (negb ng) s T Mm ltac:(apply Rabs_le; lra)) as E2.
  change (bpow radix2 (-53)) with (/ 9007199254740992) in *. change (bpow radix2 (-54)) with (/ 18014398509481984) in *.
  apply Rabs_le_inv in E1, E2. apply Rabs_le. destruct ng; cbn [negb] in E2; lra.
Qed.

(** C26 in binary64: with a smaller part of at most half a day and an offset of
    at most 40000 s, the total comes back within 3 2^-53 day (29 ps). *)
Lemma C26_roundtrip_b64_pf : forall lm (a b d : b64), moderate a -> moderate b -> fin d = true ->
  Rabs (B2R d) <= 40000 -> Rabs (Rmin (B2R a) (B2R b)) <= / 2 ->
  (let u := ut1_from_tt (A := b64A lm) (tt_from_ut1 (A := b64A lm) (MkUT1 (A := b64A lm) a b) d) d in
   Rabs ((B2R (ut1_1 u) + B2R (ut1_2 u)) - (B2R a + B2R b)) <= 3 * bpow radix2 (-53)) /\
  (let t := tt_from_ut1 (A := b64A lm) (ut1_from_tt (A := b64A lm) (MkTT (A := b64A lm) a b) d) d in
   Rabs ((B2R (tt_1 t) + B2R (tt_2 t)) - (B2R a + B2R b)) <= 3 * bpow radix2 (-53)).
Proof.
  intros lm a b d Ha Hb Fd Bd Hm.
  assert (Hd : moderate d) by (split; [exact Fd|apply Rabs_le_inv in Bd; apply Rabs_le; lra]).
  destruct (C27_larger_part_untouched_pf lm a b d Ha Hb Hd) as (S1 & S2 & _). cbv zeta in S1, S2.
  split.
  - destruct (tt_from_ut1 (A := b64A lm) (MkUT1 (A := b64A lm) a b) d) as [a1 b1]. cbn [tt_1 tt_2] in S1.
    destruct (shifted_back a b a1 b1 a1 b1 false _ Ha Hb Hm Bd S1) as (Ma & Mb & _).
    destruct (C27_larger_part_untouched_pf lm a1 b1 d Ma Mb Hd) as (_ & T & _). cbv zeta in T |- *.
    exact (proj2 (proj2 (shifted_back a b a1 b1 _ _ false _ Ha Hb Hm Bd S1)) T).
  - destruct (ut1_from_tt (A := b64A lm) (MkTT (A := b64A lm) a b) d) as [a1 b1]. cbn [ut1_1 ut1_2] in S2.
    destruct (shifted_back a b a1 b1 a1 b1 true _ Ha Hb Hm Bd S2) as (Ma & Mb & _).
    destruct (C27_larger_part_untouched_pf lm a1 b1 d Ma Mb Hd) as (T & _). cbv zeta in T |- *.
    exact (proj2 (proj2 (shifted_back a b a1 b1 _ _ true _ Ha Hb Hm Bd S2)) T).
Qed.
