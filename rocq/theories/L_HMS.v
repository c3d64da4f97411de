(** * Time of day: lemmas *)

From Coq Require Import ZArith Reals Lra Lia Bool.
From Flocq Require Import Core BinarySingleNaN.
From Verif Require Import Outcome Arith ArithR L_ArithR ArithF L_ArithF
  M_Common M_Calendar L_FromJulianF.
Open Scope R_scope.

Ltac Zify.zify_post_hook ::= Z.to_euclidean_division_equations.

Lemma as_u8_id : forall z, (0 <= z < 256)%Z -> as_u8 z = z.
Proof. intros z H. unfold as_u8. apply Z.mod_small, H. Qed.

(** Seconds of day denoted by an HMS value. *)
Definition hms_seconds (h m : Z) (s : R) : R := IZR (3600 * h + 60 * m) + s.

Lemma split_seconds : forall S, 0 <= S <= 86400 ->
  let t := Zfloor S in
  (0 <= t <= 86400)%Z /\
  (0 <= t / 3600 <= 24)%Z /\ (0 <= (t mod 3600) / 60 < 60)%Z /\
  0 <= IZR (t mod 60) + (S - IZR t) < 60 /\
  hms_seconds (t / 3600) ((t mod 3600) / 60) (IZR (t mod 60) + (S - IZR t)) = S.
Proof.
  intros S H t.
  assert (T : (0 <= t <= 86400)%Z).
  { split.
    - apply Zfloor_lub. simpl. lra.
    - apply le_IZR. apply Rle_trans with S; [apply Zfloor_lb|lra]. }
  pose proof (Zfloor_lb S) as L. pose proof (Zfloor_ub S) as U. fold t in L, U.
  split; [exact T|]. split; [lia|]. split; [lia|].
  assert (B : (0 <= t mod 60 <= 59)%Z) by lia.
  assert (0 <= IZR (t mod 60) <= 59) by (split; apply IZR_le; lia).
  split; [lra|]. unfold hms_seconds.
  replace (3600 * (t / 3600) + 60 * (t mod 3600 / 60))%Z with (t - t mod 60)%Z by lia.
  rewrite minus_IZR. ring.
Qed.

(** ** Exact arithmetic *)

Lemma hms_from_fraction_R : forall f, 0 <= f <= 1 ->
  let t := Zfloor (86400 * f) in
  hms_from_fraction (A := realA) f =
  Ok (MkHMS (A := realA) (t / 3600) ((t mod 3600) / 60) (IZR (t mod 60) + (86400 * f - IZR t))).
Proof.
  intros f H t. unfold hms_from_fraction, nfract. realA_ops. rlit_in_goal.
  rewrite !Rlt_bool_false by lra. cbn [orb].
  destruct (split_seconds (86400 * f) ltac:(lra)) as (T & T1 & T2 & _). fold t in T, T1, T2.
  assert (E : Ztrunc (86400 * f) = t) by (apply Ztrunc_floor; lra).
  rewrite E, Ztrunc_IZR. unfold clampZ. rewrite Z.min_r, Z.max_r by lia.
  rewrite !as_u8_id by lia. reflexivity.
Qed.

Lemma hms_to_fraction_R : forall h m s,
  hms_to_fraction (A := realA) (MkHMS (A := realA) h m s) = hms_seconds h m s / 86400.
Proof.
  intros h m s. unfold hms_to_fraction, hms_seconds. realA_ops. rlit_in_goal. cbn [second minute hour].
  rewrite plus_IZR, !mult_IZR. field.
Qed.

Lemma floor_hms : forall h m s, (0 <= m < 60)%Z -> 0 <= s < 60 ->
  let t := Zfloor (hms_seconds h m s) in
  (t / 3600 = h)%Z /\ ((t mod 3600) / 60 = m)%Z /\ IZR (t mod 60) + (hms_seconds h m s - IZR t) = s.
Proof.
  intros h m s Hm Hs t.
  assert (E : t = (3600 * h + 60 * m + Zfloor s)%Z).
  { unfold t, hms_seconds. apply Zfloor_unique_frac. rewrite !plus_IZR.
    pose proof (Zfloor_lb s). pose proof (Zfloor_ub s). lra. }
  assert (B : (0 <= Zfloor s < 60)%Z).
  { split; [apply Zfloor_lub; simpl; lra|].
    apply lt_IZR. apply Rle_lt_trans with s; [apply Zfloor_lb|lra]. }
  split; [lia|]. split; [lia|].
  replace (t mod 60)%Z with (Zfloor s) by lia. unfold hms_seconds. rewrite E.
  rewrite !plus_IZR. ring.
Qed.

(** ** binary64 *)

Lemma u32_max : (86400 <= 4294967295)%Z. Proof. lia. Qed.

Lemma Rrem_60 : forall S, 0 <= S -> Rrem S 60 = IZR (Zfloor S mod 60) + (S - IZR (Zfloor S)).
Proof.
  intros S H. unfold Rrem. rewrite Ztrunc_floor by lra.
  assert (E : Zfloor (S / 60) = (Zfloor S / 60)%Z).
  { apply Zfloor_imp. rewrite plus_IZR.
    pose proof (Zfloor_lb S). pose proof (Zfloor_ub S).
    set (t := Zfloor S) in *.
    assert (A : (60 * (t / 60) <= t <= 60 * (t / 60) + 59)%Z) by lia. destruct A as [A1 A2].
    apply IZR_le in A1, A2. rewrite plus_IZR in A2. rewrite mult_IZR in A1, A2. simpl in *.
    split; lra. }
  rewrite E. set (t := Zfloor S).
  assert (Et : t = (60 * (t / 60) + t mod 60)%Z) by lia.
  rewrite Et at 3. rewrite plus_IZR, mult_IZR. ring.
Qed.

Lemma hms_from_fraction_F_full : forall lm f, fin f = true -> 0 <= B2R f <= 1 ->
  exists s sec : b64,
    fin s = true /\ B2R s = rnd (86400 * B2R f) /\ 0 <= B2R s <= 86400 /\
    hms_from_fraction (A := b64A lm) f =
      Ok (MkHMS (A := b64A lm) (Zfloor (B2R s) / 3600) ((Zfloor (B2R s) mod 3600) / 60) sec) /\
    fin sec = true /\
    B2R sec = IZR (Zfloor (B2R s) mod 60) + (B2R s - IZR (Zfloor (B2R s))) /\
    Bsign sec = false.
Proof.
  intros lm f Hf Bf.
  destruct lit_0 as [E0 F0]. destruct lit_1 as [E1 F1]. destruct lit_86400 as [E8 F8].
  destruct lit_60 as [E6 F6].
  destruct (Fmul_ok (Flit 86400 0) f F8 Hf) as [M1 M2].
  { rewrite E8. apply small_big. apply Rabs_le. lra. }
  rewrite E8 in M1. set (s := Fmul (Flit 86400 0) f) in *.
  assert (Bs : 0 <= B2R s <= 86400).
  { rewrite M1. split; [apply rnd_ge; [apply (format_IZR 0); lia|lra]|
    apply rnd_le; [apply (format_IZR 86400); lia|lra]]. }
  destruct (split_seconds _ Bs) as (T & T1 & T2 & T3 & T4).
  set (t := Zfloor (B2R s)) in *.
  destruct (Ftrunc_full s M2) as (U1 & U2 & _).
  assert (Et : Ztrunc (B2R s) = t) by (apply Ztrunc_floor; lra).
  rewrite Et in U1.
  assert (Ei : Fto_int 0 4294967295 (Ftrunc s) = t).
  { rewrite Fto_int_ok; rewrite ?U1, ?Ztrunc_IZR; [reflexivity|exact U2|lia]. }
  (* s.fract() is exact *)
  destruct (Frem_1 s M2) as (V1 & V2 & _).
  destruct (Fsub_ok s (Ftrunc s) M2 U2) as [W1 W2].
  { rewrite U1. pose proof (Zfloor_lb (B2R s)). pose proof (Zfloor_ub (B2R s)). fold t in H, H0.
    apply small_big. apply Rabs_le. lra. }
  rewrite U1 in W1. rewrite Et in V1. rewrite rnd_id in W1 by (rewrite <- V1; apply format_B2R).
  destruct (FofZ_ok (t mod 60)%Z) as (Z1 & Z2 & Z3); [lia|].
  destruct (Fadd_full (FofZ (t mod 60)) (Fsub s (Ftrunc s)) Z2 W2) as (X1 & X2 & X3).
  { rewrite Z1, W1. apply small_big. apply Rabs_le. lra. }
  rewrite Z1, W1 in X1, X3.
  assert (Fo : format (IZR (t mod 60) + (B2R s - IZR t))).
  { unfold t. rewrite <- Rrem_60 by lra.
    destruct (Frem_full s (Flit 60 0) M2 F6) as (Y1 & _); [rewrite E6; lra|].
    rewrite E6 in Y1. rewrite <- Y1. apply format_B2R. }
  rewrite rnd_id in X1 by exact Fo.
  exists s, (Fadd (FofZ (t mod 60)) (Fsub s (Ftrunc s))).
  split; [exact M2|]. split; [exact M1|]. split; [exact Bs|]. split; [|split; [exact X2|split; [exact X1|]]].
  2:{ rewrite X3. destruct (Rcompare_spec (IZR (t mod 60) + (B2R s - IZR t)) 0) as [K|K|K]; [|rewrite Z3|]; try reflexivity; [lra|].
      destruct (Z.ltb_spec (t mod 60) 0); [lia|reflexivity]. }
  unfold hms_from_fraction, nfract. b64A_ops.
  rewrite (Bltb_correct 53 1024 f (Flit 0 0) Hf F0), (Bltb_correct 53 1024 (Flit 1 0) f F1 Hf), E0, E1.
  rewrite !Rlt_bool_false by lra. cbn [orb]. fold s. rewrite Ei.
  rewrite !as_u8_id by lia. reflexivity.
Qed.

Lemma hms_from_fraction_F : forall lm f, fin f = true -> 0 <= B2R f <= 1 ->
  exists s sec : b64,
    fin s = true /\ B2R s = rnd (86400 * B2R f) /\ 0 <= B2R s <= 86400 /\
    hms_from_fraction (A := b64A lm) f =
      Ok (MkHMS (A := b64A lm) (Zfloor (B2R s) / 3600) ((Zfloor (B2R s) mod 3600) / 60) sec) /\
    fin sec = true /\
    B2R sec = IZR (Zfloor (B2R s) mod 60) + (B2R s - IZR (Zfloor (B2R s))).
Proof.
  intros lm f Hf Bf. destruct (hms_from_fraction_F_full lm f Hf Bf) as (s & sec & H1 & H2 & H3 & H4 & H5 & H6 & _).
  exists s, sec. repeat split; assumption || apply H3.
Qed.

Lemma s_lt_86400 : forall F, format F -> 0 <= F < 1 -> rnd (86400 * F) < 86400.
Proof.
  intros F Fo H.
  assert (F <= 1 - bpow radix2 (-53)).
  { assert (P : pred radix2 fx 1 = 1 - bpow radix2 (-53)).
    { change 1 with (bpow radix2 0) at 1. rewrite pred_bpow. reflexivity. }
    rewrite <- P. apply pred_ge_gt; [apply fx_valid|exact Fo|apply (format_IZR 1); lia|lra]. }
  pose proof (rnd_error (86400 * F) 17 ltac:(lia)) as E.
  change (bpow radix2 17) with 131072 in E. specialize (E ltac:(apply Rabs_le; lra)).
  change (bpow radix2 (17 - 53)) with (/ 68719476736) in E.
  change (bpow radix2 (-53)) with (/ 9007199254740992) in H0.
  apply Rabs_le_inv in E. lra.
Qed.

(** The way back is exact up to the final division. *)
Lemma hms_to_fraction_F : forall lm h m sec, (0 <= h < 256)%Z -> (0 <= m < 256)%Z ->
  fin sec = true -> 0 <= B2R sec <= 86400 ->
  exists tot,
    fin tot = true /\ B2R tot = rnd (hms_seconds h m (B2R sec)) /\
    hms_to_fraction (A := b64A lm) (MkHMS (A := b64A lm) h m sec) = Fdiv tot (Flit 86400 0) /\
    fin (Fdiv tot (Flit 86400 0)) = true /\
    B2R (Fdiv tot (Flit 86400 0)) = rnd (B2R tot / 86400).
Proof.
  intros lm h m sec Hh Hm Fs Bs.
  destruct lit_60 as [E6 F6]. destruct lit_86400 as [E8 F8].
  destruct (FofZ_ok h) as (A1 & A2 & _); [lia|]. destruct (FofZ_ok m) as (B1 & B2 & _); [lia|].
  assert (Rh : 0 <= IZR h <= 256) by (split; apply IZR_le; lia).
  assert (Rm : 0 <= IZR m <= 256) by (split; apply IZR_le; lia).
  destruct (Fmul_ok (Flit 60 0) (FofZ h) F6 A2) as [C1 C2].
  { rewrite E6, A1. apply small_big. apply Rabs_le. lra. }
  rewrite E6, A1, <- mult_IZR in C1. rewrite rnd_id in C1 by (apply format_IZR; lia).
  destruct (Fadd_ok (FofZ m) _ B2 C2) as [D1 D2].
  { rewrite B1, C1, mult_IZR. apply small_big. apply Rabs_le. lra. }
  rewrite B1, C1, <- plus_IZR in D1. rewrite rnd_id in D1 by (apply format_IZR; lia).
  destruct (Fmul_ok (Flit 60 0) _ F6 D2) as [G1 G2].
  { rewrite E6, D1, plus_IZR, mult_IZR. apply small_big. apply Rabs_le. lra. }
  rewrite E6, D1, <- mult_IZR in G1. rewrite rnd_id in G1 by (apply format_IZR; lia).
  destruct (Fadd_ok sec _ Fs G2) as [K1 K2].
  { rewrite G1, mult_IZR, plus_IZR, mult_IZR. apply small_big. apply Rabs_le. lra. }
  rewrite G1 in K1.
  replace (B2R sec + IZR (60 * (m + 60 * h))) with (hms_seconds h m (B2R sec)) in K1.
  2:{ unfold hms_seconds. replace (3600 * h + 60 * m)%Z with (60 * (m + 60 * h))%Z by lia. ring. }
  exists (Fadd sec (Fmul (Flit 60 0) (Fadd (FofZ m) (Fmul (Flit 60 0) (FofZ h))))).
  split; [exact K2|]. split; [exact K1|]. split; [reflexivity|].
  destruct (Fdiv_ok _ (Flit 86400 0) K2) as [Q1 Q2].
  - rewrite E8. lra.
  - rewrite K1, E8. apply small_big.
    assert (0 <= rnd (hms_seconds h m (B2R sec)) <= 2000000).
    { unfold hms_seconds. rewrite plus_IZR, !mult_IZR.
      split; [apply rnd_ge; [apply (format_IZR 0); lia|lra]|
              apply rnd_le; [apply (format_IZR 2000000); lia|lra]]. }
    apply Rabs_le. lra.
  - rewrite E8 in Q1. auto.
Qed.
