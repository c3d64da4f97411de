(** * from_julian in binary64 *)

From Coq Require Import ZArith Reals Lra Lia Bool Psatz.
From Flocq Require Import Core BinarySingleNaN.
From Verif Require Import Outcome Arith ArithR L_ArithR ArithF L_ArithF
  M_Common M_Calendar Spec_Calendar L_Calendar L_Civil.
Open Scope R_scope.

Lemma small_big : forall x, Rabs x <= 10000000000000000000000 -> small x.
Proof.
  intros x H. apply small_le with 100%Z; [lia|]. eapply Rle_trans; [exact H|].
  change (bpow radix2 100) with (IZR (2 ^ 100)). apply IZR_le. vm_compute. discriminate.
Qed.

Lemma Frem_1 : forall x, fin x = true ->
  B2R (Frem x (Flit 1 0)) = B2R x - IZR (Ztrunc (B2R x)) /\ fin (Frem x (Flit 1 0)) = true
  /\ Bsign (Frem x (Flit 1 0)) = Bsign x.
Proof.
  intros x Hx. destruct lit_1 as [E F].
  destruct (Frem_full x (Flit 1 0) Hx F) as (A & B & C); [rewrite E; lra|].
  rewrite A, E, Rrem_1. auto.
Qed.

Ltac abs_bound := apply Rabs_le; lra.

(** Ordered version: [a >= b]. *)
Definition split_ord (a b : b64) : b64 * b64 :=
  let d2 := Fsub b (Flit 5 (-1)) in
  let f1 := Frem a (Flit 1 0) in
  let f2 := Frem d2 (Flit 1 0) in
  let f := Frem (Fadd f1 f2) (Flit 1 0) in
  let f := if Bltb f (Flit 0 0) then Fadd f (Flit 1 0) else f in
  let d := Fadd (Fadd (Fround (Fsub a f1)) (Fround (Fsub d2 f2))) (Fround (Fsub (Fadd f1 f2) f)) in
  (d, f).

Lemma split_julian_F : forall lm x y,
  split_julian (A := b64A lm) x y = if Bleb y x then split_ord x y else split_ord y x.
Proof. intros lm x y. unfold split_julian, split_ord. b64A_ops. destruct (Bleb y x); reflexivity. Qed.

Lemma trunc_bound : forall x k, Rabs x <= IZR k -> (Z.abs (Ztrunc x) <= k)%Z.
Proof.
  intros x k H. rewrite <- Ztrunc_abs. apply le_IZR.
  rewrite Ztrunc_floor by apply Rabs_pos.
  apply Rle_trans with (2 := H). apply Zfloor_lb.
Qed.

Lemma Fint_part : forall x, fin x = true -> Rabs (B2R x) <= 4503599627370496 ->
  B2R (Fround (Fsub x (Frem x (Flit 1 0)))) = IZR (Ztrunc (B2R x)) /\
  fin (Fround (Fsub x (Frem x (Flit 1 0)))) = true.
Proof.
  intros x Hx B. destruct (Frem_1 x Hx) as (A1 & A2 & _).
  pose proof (trunc_bound _ _ B) as T.
  assert (E : B2R x - B2R (Frem x (Flit 1 0)) = IZR (Ztrunc (B2R x))) by (rewrite A1; ring).
  destruct (Fsub_ok x (Frem x (Flit 1 0)) Hx A2) as [S1 S2].
  { rewrite E. apply small_big. rewrite <- abs_IZR. apply IZR_le. lia. }
  rewrite E in S1. rewrite rnd_id in S1 by (apply format_IZR; lia).
  destruct (Fround_ok _ S2) as [R1 R2]. rewrite R1, S1. rewrite Zrnd_IZR by apply valid_rnd_N.
  auto.
Qed.

Lemma split_ord_spec : forall a b, fin a = true -> fin b = true ->
  Rabs (B2R a) <= 2251799813685248 -> Rabs (B2R b) <= 2251799813685248 ->
  exists n : Z,
    fin (fst (split_ord a b)) = true /\ B2R (fst (split_ord a b)) = IZR n /\
    fin (snd (split_ord a b)) = true /\ 0 <= B2R (snd (split_ord a b)) <= 1 /\
    Rabs (IZR n + B2R (snd (split_ord a b)) + / 2 - (B2R a + B2R b))
      <= bpow radix2 (-53) * (Rabs (B2R b) + 3).
Proof.
  intros a b Ha Hb Ba Bb.
  assert (P53 : bpow radix2 (-53) = / 9007199254740992) by reflexivity.
  destruct lit_half as [Eh Fh]. destruct lit_0 as [E0 F0]. destruct lit_1 as [E1 F1].
  (* d2 = b - 0.5 *)
  destruct (Fsub_ok b (Flit 5 (-1)) Hb Fh) as [D1 D2].
  { apply small_big. rewrite Eh. apply Rabs_le_inv in Bb. abs_bound. }
  rewrite Eh in D1.
  pose proof (rnd_rel (B2R b - /2)) as Er. rewrite <- D1 in Er.
  assert (Er' : Rabs (B2R (Fsub b (Flit 5 (-1))) - (B2R b - /2)) <= bpow radix2 (-53) * (Rabs (B2R b) + 1)).
  { eapply Rle_trans; [exact Er|].
    pose proof (Rabs_triang (B2R b) (- / 2)) as T. rewrite Rabs_Ropp in T.
    rewrite (Rabs_pos_eq (/2)) in T by lra. fold (B2R b - / 2) in T.
    replace (/2 * bpow radix2 (-52)) with (bpow radix2 (-53))
      by (change (-52)%Z with (1 + -53)%Z; rewrite bpow_plus; change (bpow radix2 1) with 2; field).
    assert (bpow radix2 (-1074) <= bpow radix2 (-53)) by (apply bpow_le; lia).
    assert (bpow radix2 (-53) * Rabs (B2R b - /2) <= bpow radix2 (-53) * (Rabs (B2R b) + /2))
      by (apply Rmult_le_compat_l; [apply bpow_ge_0|lra]).
    lra. }
  set (d2 := Fsub b (Flit 5 (-1))) in *. clear Er.
  assert (Bd2 : Rabs (B2R d2) <= 4503599627370496).
  { rewrite P53 in Er'. apply Rabs_le_inv in Er', Bb. pose proof (Rabs_le _ _ Bb). abs_bound. }
  (* integer parts *)
  assert (Ba' : Rabs (B2R a) <= 4503599627370496) by lra.
  destruct (Fint_part a Ha Ba') as [N1 N2].
  destruct (Fint_part d2 D2 Bd2) as [M1 M2].
  pose proof (trunc_bound _ _ Ba) as Ta. pose proof (trunc_bound _ _ Bd2) as Tb.
  destruct (Frem_1 a Ha) as (R1 & R2 & _). destruct (Frem_1 d2 D2) as (S1 & S2 & _).
  destruct (Ztrunc_plus_frac (B2R a)) as (fa & Efa & Bfa & _).
  destruct (Ztrunc_plus_frac (B2R d2)) as (fb & Efb & Bfb & _).
  set (na := Ztrunc (B2R a)) in *. set (nb := Ztrunc (B2R d2)) in *.
  replace (B2R a - IZR na) with fa in R1 by lra.
  replace (B2R d2 - IZR nb) with fb in S1 by lra.
  unfold split_ord. fold d2. cbn [fst snd].
  set (f1 := Frem a (Flit 1 0)) in *. set (f2 := Frem d2 (Flit 1 0)) in *.
  (* s = f1 + f2 *)
  destruct (Fadd_ok f1 f2 R2 S2) as [A1 A2].
  { rewrite R1, S1. apply small_big. abs_bound. }
  rewrite R1, S1 in A1. set (s := Fadd f1 f2) in *.
  assert (Es : Rabs (B2R s - (fa + fb)) <= bpow radix2 (-53)).
  { rewrite A1. replace (bpow radix2 (-53)) with (/2 * bpow radix2 (1 - 53))
      by (change (1 - 53)%Z with (1 + -53)%Z; rewrite bpow_plus; change (bpow radix2 1) with 2; field).
    apply rnd_error; [lia|]. change (bpow radix2 1) with 2. abs_bound. }
  assert (Bs : Rabs (B2R s) <= 2).
  { rewrite A1. apply rnd_abs_le; [apply (format_IZR 2); lia|abs_bound]. }
  destruct (Frem_1 s A2) as (Q1 & Q2 & _).
  destruct (Ztrunc_plus_frac (B2R s)) as (r & Er & Br & _).
  pose proof (trunc_bound (B2R s) 2 Bs) as Tc.
  set (nc := Ztrunc (B2R s)) in *.
  replace (B2R s - IZR nc) with r in Q1 by lra.
  set (fr := Frem s (Flit 1 0)) in *.
  rewrite (Bltb_correct 53 1024 fr (Flit 0 0) Q2 F0), Q1, E0.
  (* the fraction and its carry *)
  assert (G : exists (f : b64) (k : Z),
    (if Rlt_bool r 0 then Fadd fr (Flit 1 0) else fr) = f /\ fin f = true /\
    0 <= B2R f <= 1 /\ (Z.abs k <= 3)%Z /\
    Rabs (B2R s - B2R f - IZR k) <= bpow radix2 (-53)).
  { destruct (Rlt_bool_spec r 0) as [Hr|Hr].
    - destruct (Fadd_ok fr (Flit 1 0) Q2 F1) as [U1 U2].
      { rewrite Q1, E1. apply small_big. abs_bound. }
      rewrite Q1, E1 in U1.
      exists (Fadd fr (Flit 1 0)), (nc - 1)%Z. split; [reflexivity|]. split; [exact U2|].
      rewrite U1. split.
      { split; [apply rnd_ge; [apply (format_IZR 0); lia|lra]|apply rnd_le; [apply (format_IZR 1); lia|lra]]. }
      split; [lia|]. rewrite minus_IZR.
      pose proof (rnd_error (r + 1) 0 ltac:(lia)) as Z0.
      change (bpow radix2 0) with 1 in Z0. specialize (Z0 ltac:(abs_bound)).
      change (0 - 53)%Z with (-53)%Z in Z0.
      replace (B2R s - rnd (r + 1) - (IZR nc - 1)) with (- (rnd (r + 1) - (r + 1))) by lra.
      rewrite Rabs_Ropp. pose proof (bpow_ge_0 radix2 (-53)). lra.
    - exists fr, nc. split; [reflexivity|]. split; [exact Q2|]. rewrite Q1.
      split; [lra|]. split; [lia|].
      replace (B2R s - r - IZR nc) with 0 by lra. rewrite Rabs_R0. apply bpow_ge_0. }
  destruct G as (f & k & -> & Ff & Bf & Bk & Ek).
  assert (Bk' : -3 <= IZR k <= 3) by (split; apply IZR_le; lia).
  rewrite P53 in Ek, Es. pose proof (Rabs_le_inv _ _ Ek) as Ek'.
  (* the carry is recovered by round *)
  destruct (Fsub_ok s f A2 Ff) as [V1 V2].
  { apply small_big. abs_bound. }
  destruct (Fround_ok _ V2) as [W1 W2].
  assert (Ck : B2R (Fround (Fsub s f)) = IZR k).
  { rewrite W1. f_equal. apply Znearest_imp. rewrite V1.
    pose proof (rnd_error (B2R s - B2R f) 2 ltac:(lia)) as Z0.
    change (bpow radix2 2) with 4 in Z0. specialize (Z0 ltac:(abs_bound)).
    replace (bpow radix2 (2 - 53)) with (/ 2251799813685248) in Z0 by reflexivity.
    replace (rnd (B2R s - B2R f) - IZR k)
      with ((rnd (B2R s - B2R f) - (B2R s - B2R f)) + (B2R s - B2R f - IZR k)) by ring.
    eapply Rle_lt_trans; [apply Rabs_triang|]. lra. }
  (* the sums of integers are exact *)
  destruct (Fadd_ok (Fround (Fsub a f1)) (Fround (Fsub d2 f2)) N2 M2) as [X1 X2].
  { rewrite N1, M1. apply small_big. rewrite <- plus_IZR, <- abs_IZR. apply IZR_le. lia. }
  rewrite N1, M1, <- plus_IZR in X1. rewrite rnd_id in X1 by (apply format_IZR; lia).
  destruct (Fadd_ok _ (Fround (Fsub s f)) X2 W2) as [Y1 Y2].
  { rewrite X1, Ck. apply small_big. rewrite <- plus_IZR, <- abs_IZR. apply IZR_le. lia. }
  rewrite X1, Ck, <- plus_IZR in Y1. rewrite rnd_id in Y1 by (apply format_IZR; lia).
  exists (na + nb + k)%Z. split; [exact Y2|]. split; [exact Y1|]. split; [exact Ff|].
  split; [exact Bf|].
  rewrite !plus_IZR.
  replace (IZR na + IZR nb + IZR k + B2R f + / 2 - (B2R a + B2R b))
    with ((B2R d2 - (B2R b - / 2)) + (B2R s - (fa + fb)) - (B2R s - B2R f - IZR k)) by lra.
  rewrite P53 in *.
  eapply Rle_trans; [apply Rabs_triang|]. rewrite Rabs_Ropp.
  eapply Rle_trans; [apply Rplus_le_compat_r, Rabs_triang|]. lra.
Qed.

(** ** Exactness on the grid of multiples of 2^-20 day *)

Definition on_grid (x : R) : Prop := exists k : Z, x = IZR k * bpow radix2 (-20).

Lemma grid_plus : forall x y, on_grid x -> on_grid y -> on_grid (x + y).
Proof. intros x y [k ->] [l ->]. exists (k + l)%Z. rewrite plus_IZR. ring. Qed.
Lemma grid_minus : forall x y, on_grid x -> on_grid y -> on_grid (x - y).
Proof. intros x y [k ->] [l ->]. exists (k - l)%Z. rewrite minus_IZR. ring. Qed.
Lemma grid_IZR : forall n, on_grid (IZR n).
Proof.
  intros n. exists (n * 2 ^ 20)%Z. rewrite mult_IZR.
  change (IZR (2 ^ 20)) with (bpow radix2 20). rewrite Rmult_assoc, <- bpow_plus. simpl. ring.
Qed.
Lemma grid_half : on_grid (/ 2).
Proof.
  exists (2 ^ 19)%Z. change (IZR (2 ^ 19)) with (bpow radix2 19). rewrite <- bpow_plus. simpl. lra.
Qed.
Lemma grid_format : forall x, on_grid x -> Rabs x <= 8589934592 -> format x.
Proof.
  intros x [k ->] H. apply format_dyadic; [|lia].
  rewrite Rabs_mult, (Rabs_pos_eq (bpow radix2 (-20))) in H by apply bpow_ge_0.
  rewrite <- abs_IZR in H. apply le_IZR.
  apply Rmult_le_reg_r with (bpow radix2 (-20)); [apply bpow_gt_0|].
  eapply Rle_trans; [exact H|]. change (IZR (2^53)) with (bpow radix2 53). rewrite <- bpow_plus.
  change (bpow radix2 (53 + -20)) with 8589934592. apply Rle_refl.
Qed.

Lemma split_ord_grid : forall a b, fin a = true -> fin b = true ->
  Rabs (B2R a) <= 2147483648 -> Rabs (B2R b) <= 2147483648 ->
  on_grid (B2R a) -> on_grid (B2R b) ->
  let dj := B2R a + B2R b in
  fin (fst (split_ord a b)) = true /\
  B2R (fst (split_ord a b)) = IZR (Zfloor (dj - / 2)) /\
  fin (snd (split_ord a b)) = true /\
  B2R (snd (split_ord a b)) = dj - / 2 - IZR (Zfloor (dj - / 2)) /\
  (Bsign a = false -> Bsign (snd (split_ord a b)) = false).
Proof.
  intros a b Ha Hb Ba Bb Ga Gb dj.
  destruct lit_half as [Eh Fh]. destruct lit_0 as [E0 F0]. destruct lit_1 as [E1 F1].
  apply Rabs_le_inv in Ba, Bb.
  destruct (Fsub_ok b (Flit 5 (-1)) Hb Fh) as [D1 D2].
  { apply small_big. rewrite Eh. abs_bound. }
  rewrite Eh in D1. rewrite rnd_id in D1
    by (apply grid_format; [apply grid_minus; [exact Gb|apply grid_half]|abs_bound]).
  set (d2 := Fsub b (Flit 5 (-1))) in *.
  assert (Bd2 : Rabs (B2R d2) <= 2147483649) by (rewrite D1; abs_bound).
  destruct (Fint_part a Ha ltac:(abs_bound)) as [N1 N2].
  destruct (Fint_part d2 D2 ltac:(lra)) as [M1 M2].
  pose proof (trunc_bound (B2R a) 2147483648 ltac:(abs_bound)) as Ta.
  pose proof (trunc_bound _ _ Bd2) as Tb.
  destruct (Frem_1 a Ha) as (R1 & R2 & R3). destruct (Frem_1 d2 D2) as (S1 & S2 & S3).
  destruct (Ztrunc_plus_frac (B2R a)) as (fa & Efa & Bfa & Pfa & _).
  destruct (Ztrunc_plus_frac (B2R d2)) as (fb & Efb & Bfb & _).
  set (na := Ztrunc (B2R a)) in *. set (nb := Ztrunc (B2R d2)) in *.
  replace (B2R a - IZR na) with fa in R1 by lra.
  replace (B2R d2 - IZR nb) with fb in S1 by lra.
  assert (Gfa : on_grid fa).
  { replace fa with (B2R a - IZR na) by lra. apply grid_minus; [exact Ga|apply grid_IZR]. }
  assert (Gfb : on_grid fb).
  { replace fb with (B2R d2 - IZR nb) by lra. rewrite D1.
    apply grid_minus; [apply grid_minus; [exact Gb|apply grid_half]|apply grid_IZR]. }
  unfold split_ord. fold d2. cbn [fst snd].
  set (f1 := Frem a (Flit 1 0)) in *. set (f2 := Frem d2 (Flit 1 0)) in *.
  destruct (Fadd_full f1 f2 R2 S2) as (A1 & A2 & A3).
  { rewrite R1, S1. apply small_big. abs_bound. }
  rewrite R1, S1 in A1, A3.
  rewrite rnd_id in A1 by (apply grid_format; [apply grid_plus; assumption|abs_bound]).
  set (s := Fadd f1 f2) in *.
  destruct (Frem_1 s A2) as (Q1 & Q2 & Q3).
  destruct (Ztrunc_plus_frac (B2R s)) as (r & Er & Br & _).
  pose proof (trunc_bound (B2R s) 2 ltac:(rewrite A1; abs_bound)) as Tc.
  set (nc := Ztrunc (B2R s)) in *.
  replace (B2R s - IZR nc) with r in Q1 by lra.
  assert (Gr : on_grid r).
  { replace r with (B2R s - IZR nc) by lra. rewrite A1.
    apply grid_minus; [apply grid_plus; assumption|apply grid_IZR]. }
  set (fr := Frem s (Flit 1 0)) in *.
  rewrite (Bltb_correct 53 1024 fr (Flit 0 0) Q2 F0), Q1, E0.
  assert (G : exists (f : b64) (k : Z),
    (if Rlt_bool r 0 then Fadd fr (Flit 1 0) else fr) = f /\ fin f = true /\
    0 <= B2R f < 1 /\ (Z.abs k <= 3)%Z /\ B2R s - B2R f = IZR k /\
    (Bsign a = false -> Bsign f = false)).
  { destruct (Rlt_bool_spec r 0) as [Hr|Hr].
    - destruct (Fadd_full fr (Flit 1 0) Q2 F1) as (U1 & U2 & U3).
      { rewrite Q1, E1. apply small_big. abs_bound. }
      rewrite Q1, E1 in U1, U3.
      rewrite rnd_id in U1
        by (apply grid_format; [apply grid_plus; [exact Gr|apply (grid_IZR 1)]|abs_bound]).
      exists (Fadd fr (Flit 1 0)), (nc - 1)%Z. split; [reflexivity|]. split; [exact U2|].
      rewrite U1. split; [lra|]. split; [lia|]. split; [rewrite minus_IZR; lra|].
      intros _. rewrite U3. rewrite Rcompare_Gt; [reflexivity|lra].
    - exists fr, nc. split; [reflexivity|]. split; [exact Q2|]. rewrite Q1.
      split; [lra|]. split; [lia|]. split; [lra|].
      intros Sa. rewrite Q3.
      assert (Pa : 0 <= B2R a).
      { destruct a as [| | |sa ma ea Pa0]; try discriminate; [apply Rle_refl|].
        cbn in Sa. subst sa. apply F2R_ge_0. cbn. lia. }
      specialize (Pfa Pa).
      rewrite A3. destruct (Rcompare_spec (fa + fb) 0) as [L|L|L]; try reflexivity.
      + (* -1 < s < 0 : then r = s < 0 *)
        exfalso. assert (nc = 0%Z); [|subst nc; rewrite H in Er; lra].
        unfold nc. rewrite Ztrunc_ceil by lra. apply Zceil_imp. rewrite A1. simpl. lra.
      + rewrite R3, Sa. reflexivity. }
  destruct G as (f & k & -> & Ff & Bf & Bk & Ek & Sf).
  destruct (Fsub_ok s f A2 Ff) as [V1 V2].
  { rewrite Ek. apply small_big. rewrite <- abs_IZR. apply IZR_le. lia. }
  rewrite Ek in V1. rewrite rnd_id in V1 by (apply format_IZR; lia).
  destruct (Fround_ok _ V2) as [W1 W2].
  rewrite V1, Zrnd_IZR in W1 by apply valid_rnd_N.
  destruct (Fadd_ok (Fround (Fsub a f1)) (Fround (Fsub d2 f2)) N2 M2) as [X1 X2].
  { rewrite N1, M1. apply small_big. rewrite <- plus_IZR, <- abs_IZR. apply IZR_le. lia. }
  rewrite N1, M1, <- plus_IZR in X1. rewrite rnd_id in X1 by (apply format_IZR; lia).
  destruct (Fadd_ok _ (Fround (Fsub s f)) X2 W2) as [Y1 Y2].
  { rewrite X1, W1. apply small_big. rewrite <- plus_IZR, <- abs_IZR. apply IZR_le. lia. }
  rewrite X1, W1, <- plus_IZR in Y1. rewrite rnd_id in Y1 by (apply format_IZR; lia).
  assert (Fl : Zfloor (dj - /2) = (na + nb + k)%Z).
  { apply Zfloor_unique_frac. rewrite !plus_IZR. unfold dj. lra. }
  rewrite Fl. split; [exact Y2|]. split; [exact Y1|]. split; [exact Ff|].
  split; [rewrite !plus_IZR; unfold dj; lra|exact Sf].
Qed.

(** ** The whole function *)

From Verif Require Import L_FromJulianR.

Definition smaller (x y : R) : R := if Rle_bool y x then y else x.

Lemma date_of_civil_bind : forall p jd (f : b64), (-68569 <= jd <= 536802342)%Z ->
  bind (civil_of_jd p jd) (fun g => Val (Ok (E := CalendarError) (g, f))) =
  Val (Ok (date_of_civil (civil_fn jd), f)).
Proof.
  intros p jd f H. rewrite civil_of_jd_ok by exact H. destruct (civil_fn jd) as [[y m] d]. reflexivity.
Qed.

Lemma range_check : forall x y, fin x = true -> fin y = true ->
  -32000 <= B2R x + B2R y <= 536802342 ->
  Bltb (Fadd x y) (Flit (-32000) 0) || Bltb (Flit 1 9) (Fadd x y) = false.
Proof.
  intros x y Hx Hy H. destruct lit_djmin as [E1 F1]. destruct lit_djmax as [E2 F2].
  destruct (Fadd_ok x y Hx Hy) as [A B]; [apply small_big; abs_bound|].
  rewrite (Bltb_correct 53 1024 _ _ B F1), (Bltb_correct 53 1024 _ _ F2 B), A, E1, E2.
  assert (-32000 <= rnd (B2R x + B2R y)) by (apply rnd_ge; [apply (format_IZR (-32000)); lia|lra]).
  assert (rnd (B2R x + B2R y) <= 536802342) by (apply rnd_le; [apply (format_IZR 536802342); lia|lra]).
  rewrite !Rlt_bool_false by lra. reflexivity.
Qed.

Lemma from_julian_F_ok : forall lm p x y, fin x = true -> fin y = true ->
  Rabs (B2R x) <= 2251799813685248 -> Rabs (B2R y) <= 2251799813685248 ->
  -32000 <= B2R x + B2R y <= 536802342 ->
  exists (n : Z) (f : b64),
    from_julian (A := b64A lm) p x y = Val (Ok (date_of_civil (civil_fn (n + 1)), f)) /\
    (-68569 <= n + 1 <= 536802342)%Z /\
    fin f = true /\ 0 <= B2R f <= 1 /\
    Rabs (IZR n + B2R f + / 2 - (B2R x + B2R y))
      <= bpow radix2 (-53) * (Rabs (smaller (B2R x) (B2R y)) + 3).
Proof.
  intros lm p x y Hx Hy Bx By Hs. unfold from_julian. rewrite split_julian_F.
  unfold DJ_MIN, DJ_MAX. b64A_ops.
  rewrite range_check by assumption.
  assert (G : forall a b, fin a = true -> fin b = true ->
    Rabs (B2R a) <= 2251799813685248 -> Rabs (B2R b) <= 2251799813685248 ->
    B2R a + B2R b = B2R x + B2R y ->
    exists (n : Z) (f : b64),
    (let '(d, f0) := split_ord a b in
     bind (i32_add p (Fto_int i32_min i32_max d) 1) (fun jd =>
     bind (civil_of_jd p jd) (fun g => Val (Ok (E := CalendarError) (g, f0))))) =
      Val (Ok (date_of_civil (civil_fn (n + 1)), f)) /\
    (-68569 <= n + 1 <= 536802342)%Z /\
    fin f = true /\ 0 <= B2R f <= 1 /\
    Rabs (IZR n + B2R f + / 2 - (B2R x + B2R y)) <= bpow radix2 (-53) * (Rabs (B2R b) + 3)).
  { intros a b Ha Hb Ba Bb E. destruct (split_ord_spec a b Ha Hb Ba Bb) as (n & P1 & P2 & P3 & P4 & P5).
    destruct (split_ord a b) as [d f]. cbn [fst snd] in *. rewrite E in P5.
    assert (P6 : - (1 / 3) <= IZR n + B2R f + / 2 - (B2R x + B2R y) <= 1 / 3).
    { apply Rabs_le_inv. apply Rle_trans with (1 := P5).
      change (bpow radix2 (-53)) with (/ 9007199254740992). lra. }
    assert (N1 : (-32002 <= n)%Z) by (apply le_IZR; lra).
    assert (N2 : (n <= 536802341)%Z) by (apply Zlt_succ_le, lt_IZR; change (Z.succ 536802341) with 536802342%Z; lra).
    exists n, f. split; [|split; [lia|repeat split; assumption || apply P4]].
    rewrite Fto_int_ok; [|exact P1|].
    - rewrite P2, Ztrunc_IZR. unfold i32_add. rewrite i32_ok by (unfold i32_min, i32_max; lia).
      cbn [bind]. apply date_of_civil_bind. lia.
    - rewrite P2, Ztrunc_IZR. unfold i32_min, i32_max. lia. }
  rewrite (Bleb_correct 53 1024 y x Hy Hx). unfold smaller.
  destruct (Rle_bool (B2R y) (B2R x)); apply G; try assumption; lra.
Qed.

Lemma from_julian_F_grid : forall lm p x y, fin x = true -> fin y = true ->
  Rabs (B2R x) <= 2147483648 -> Rabs (B2R y) <= 2147483648 ->
  on_grid (B2R x) -> on_grid (B2R y) ->
  -32000 <= B2R x + B2R y <= 536802342 ->
  exists f : b64,
    from_julian (A := b64A lm) p x y =
      Val (Ok (date_of_civil (civil_fn (jd_day (B2R x + B2R y) + 1)), f)) /\
    fin f = true /\ B2R f = jd_frac (B2R x + B2R y) /\
    (Bsign x = false -> Bsign y = false \/ B2R y < B2R x -> Bsign f = false).
Proof.
  intros lm p x y Hx Hy Bx By Gx Gy Hs. unfold from_julian. rewrite split_julian_F.
  unfold DJ_MIN, DJ_MAX. b64A_ops.
  rewrite range_check by assumption.
  assert (G : forall a b, fin a = true -> fin b = true ->
    Rabs (B2R a) <= 2147483648 -> Rabs (B2R b) <= 2147483648 ->
    on_grid (B2R a) -> on_grid (B2R b) ->
    B2R a + B2R b = B2R x + B2R y ->
    exists (f : b64),
    (let '(d, f0) := split_ord a b in
     bind (i32_add p (Fto_int i32_min i32_max d) 1) (fun jd =>
     bind (civil_of_jd p jd) (fun g => Val (Ok (E := CalendarError) (g, f0))))) =
      Val (Ok (date_of_civil (civil_fn (jd_day (B2R x + B2R y) + 1)), f)) /\
    fin f = true /\ B2R f = jd_frac (B2R x + B2R y) /\ (Bsign a = false -> Bsign f = false)).
  { intros a b Ha Hb Ba Bb Ga Gb E. destruct (split_ord_grid a b Ha Hb Ba Bb Ga Gb) as (P1 & P2 & P3 & P4 & P5).
    rewrite E in P2, P4. fold (jd_day (B2R x + B2R y)) in P2, P4.
    fold (jd_frac (B2R x + B2R y)) in P4.
    destruct (split_ord a b) as [d f]. cbn [fst snd] in *.
    pose proof (jd_day_bounds (B2R x + B2R y) (-32000) 536802342 ltac:(lra)) as N.
    exists f. split; [|auto].
    rewrite Fto_int_ok; [|exact P1|].
    - rewrite P2, Ztrunc_IZR. unfold i32_add. rewrite i32_ok by (unfold i32_min, i32_max; lia).
      cbn [bind]. apply date_of_civil_bind. lia.
    - rewrite P2, Ztrunc_IZR. unfold i32_min, i32_max. lia. }
  rewrite (Bleb_correct 53 1024 y x Hy Hx).
  destruct (Rle_bool_spec (B2R y) (B2R x)) as [L|L].
  - destruct (G x y) as (f & Q1 & Q2 & Q3 & Q4); try assumption; [reflexivity|].
    exists f. auto.
  - destruct (G y x) as (f & Q1 & Q2 & Q3 & Q4); try assumption; [lra|].
    exists f. split; [exact Q1|]. split; [exact Q2|]. split; [exact Q3|].
    intros _ [S|S]; [auto|lra].
Qed.
