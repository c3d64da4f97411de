(** * from_julian is monotone in binary64 *)

From Coq Require Import ZArith Reals Lra Lia Bool Psatz.
From Flocq Require Import Core BinarySingleNaN.
From Verif Require Import Outcome Arith ArithR L_ArithR ArithF L_ArithF
  M_Common M_Calendar Spec_Calendar Spec_Api L_Calendar L_Civil L_FromJulianF L_FromJulianR.
Open Scope R_scope.

Definition frac (x : R) : R := x - IZR (Ztrunc x).
(** Carry and fraction of the sum of the fractions. *)
Definition kS (s : R) : Z := if Rlt_bool (frac s) 0 then (Ztrunc s - 1)%Z else Ztrunc s.
Definition fS (s : R) : R := if Rlt_bool (frac s) 0 then rnd (frac s + 1) else frac s.
Definition nW (a d : R) : Z := (Ztrunc a + Ztrunc d + kS (rnd (frac a + frac d)))%Z.
Definition fW (a d : R) : R := fS (rnd (frac a + frac d)).

Lemma split_ord_full : forall a b, fin a = true -> fin b = true ->
  Rabs (B2R a) <= 2251799813685248 -> Rabs (B2R b) <= 2251799813685248 ->
  fin (fst (split_ord a b)) = true /\ B2R (fst (split_ord a b)) = IZR (nW (B2R a) (rnd (B2R b - / 2))) /\
  fin (snd (split_ord a b)) = true /\ B2R (snd (split_ord a b)) = fW (B2R a) (rnd (B2R b - / 2)).
Proof.
  intros a b Ha Hb Ba Bb.
  assert (P53 : bpow radix2 (-53) = / 9007199254740992) by reflexivity.
  destruct lit_half as [Eh Fh]. destruct lit_0 as [E0 F0]. destruct lit_1 as [E1 F1].
  (* d2 = b - 0.5 *)
  destruct (Fsub_ok b (Flit 5 (-1)) Hb Fh) as [D1 D2].
  { apply small_big. rewrite Eh. apply Rabs_le_inv in Bb. abs_bound. }
  rewrite Eh in D1.
  pose proof (rnd_rel (B2R b - /2)) as Er. rewrite <- D1 in Er.
  assert (Er' : Rabs (B2R (Fsub b (Flit 5 (-1))) - (B2R b - /2)) <= bpow radix2 (-53) * (Rabs (B2R b) + 1)).
  { eapply Rle_trans; [exact Er|].
    pose proof (Rabs_triang (B2R b) (- / 2)) as T. rewrite Rabs_Ropp in T.
    rewrite (Rabs_pos_eq (/2)) in T by lra. fold (B2R b - / 2) in T.
    replace (/2 * bpow radix2 (-52)) with (bpow radix2 (-53))
      by (change (-52)%Z with (1 + -53)%Z; rewrite bpow_plus; change (bpow radix2 1) with 2; field).
    assert (bpow radix2 (-1074) <= bpow radix2 (-53)) by (apply bpow_le; lia).
    assert (bpow radix2 (-53) * Rabs (B2R b - /2) <= bpow radix2 (-53) * (Rabs (B2R b) + /2))
      by (apply Rmult_le_compat_l; [apply bpow_ge_0|lra]).
    lra. }
  set (d2 := Fsub b (Flit 5 (-1))) in *. clear Er.
  assert (Bd2 : Rabs (B2R d2) <= 4503599627370496).
  { rewrite P53 in Er'. apply Rabs_le_inv in Er', Bb. pose proof (Rabs_le _ _ Bb). abs_bound. }
  (* integer parts *)
  assert (Ba' : Rabs (B2R a) <= 4503599627370496) by lra.
  destruct (Fint_part a Ha Ba') as [N1 N2].
  destruct (Fint_part d2 D2 Bd2) as [M1 M2].
  pose proof (trunc_bound _ _ Ba) as Ta. pose proof (trunc_bound _ _ Bd2) as Tb.
  destruct (Frem_1 a Ha) as (R1 & R2 & _). destruct (Frem_1 d2 D2) as (S1 & S2 & _).
  destruct (Ztrunc_plus_frac (B2R a)) as (fa & Efa & Bfa & _).
  destruct (Ztrunc_plus_frac (B2R d2)) as (fb & Efb & Bfb & _).
  set (na := Ztrunc (B2R a)) in *. set (nb := Ztrunc (B2R d2)) in *.
  replace (B2R a - IZR na) with fa in R1 by lra.
  replace (B2R d2 - IZR nb) with fb in S1 by lra.
  unfold split_ord. fold d2. cbn [fst snd].
  set (f1 := Frem a (Flit 1 0)) in *. set (f2 := Frem d2 (Flit 1 0)) in *.
  (* s = f1 + f2 *)
  destruct (Fadd_ok f1 f2 R2 S2) as [A1 A2].
  { rewrite R1, S1. apply small_big. abs_bound. }
  rewrite R1, S1 in A1. set (s := Fadd f1 f2) in *.
  assert (Es : Rabs (B2R s - (fa + fb)) <= bpow radix2 (-53)).
  { rewrite A1. replace (bpow radix2 (-53)) with (/2 * bpow radix2 (1 - 53))
      by (change (1 - 53)%Z with (1 + -53)%Z; rewrite bpow_plus; change (bpow radix2 1) with 2; field).
    apply rnd_error; [lia|]. change (bpow radix2 1) with 2. abs_bound. }
  assert (Bs : Rabs (B2R s) <= 2).
  { rewrite A1. apply rnd_abs_le; [apply (format_IZR 2); lia|abs_bound]. }
  destruct (Frem_1 s A2) as (Q1 & Q2 & _).
  destruct (Ztrunc_plus_frac (B2R s)) as (r & Er & Br & _).
  pose proof (trunc_bound (B2R s) 2 Bs) as Tc.
  set (nc := Ztrunc (B2R s)) in *.
  replace (B2R s - IZR nc) with r in Q1 by lra.
  set (fr := Frem s (Flit 1 0)) in *.
  rewrite (Bltb_correct 53 1024 fr (Flit 0 0) Q2 F0), Q1, E0.
  (* the fraction and its carry *)
  assert (G : exists (f : b64) (k : Z),
    (if Rlt_bool r 0 then Fadd fr (Flit 1 0) else fr) = f /\ fin f = true /\
    0 <= B2R f <= 1 /\ (Z.abs k <= 3)%Z /\
    Rabs (B2R s - B2R f - IZR k) <= bpow radix2 (-53) /\ k = kS (B2R s) /\ B2R f = fS (B2R s)).
  { destruct (Rlt_bool_spec r 0) as [Hr|Hr].
    - destruct (Fadd_ok fr (Flit 1 0) Q2 F1) as [U1 U2].
      { rewrite Q1, E1. apply small_big. abs_bound. }
      rewrite Q1, E1 in U1.
      exists (Fadd fr (Flit 1 0)), (nc - 1)%Z. split; [reflexivity|]. split; [exact U2|].
      rewrite U1. split.
      { split; [apply rnd_ge; [apply (format_IZR 0); lia|lra]|apply rnd_le; [apply (format_IZR 1); lia|lra]]. }
      split; [lia|]. rewrite minus_IZR.
      pose proof (rnd_error (r + 1) 0 ltac:(lia)) as Z0.
      change (bpow radix2 0) with 1 in Z0. specialize (Z0 ltac:(abs_bound)).
      change (0 - 53)%Z with (-53)%Z in Z0.
      replace (B2R s - rnd (r + 1) - (IZR nc - 1)) with (- (rnd (r + 1) - (r + 1))) by lra.
      rewrite Rabs_Ropp. pose proof (bpow_ge_0 radix2 (-53)). split; [lra|]. unfold kS, fS, frac. fold nc. replace (B2R s - IZR nc) with r by lra. rewrite Rlt_bool_true by exact Hr. split; reflexivity.
    - exists fr, nc. split; [reflexivity|]. split; [exact Q2|]. rewrite Q1.
      split; [lra|]. split; [lia|].
      replace (B2R s - r - IZR nc) with 0 by lra. rewrite Rabs_R0. split; [apply bpow_ge_0|]. unfold kS, fS, frac. fold nc. replace (B2R s - IZR nc) with r by lra. rewrite Rlt_bool_false by exact Hr. split; reflexivity. }
  destruct G as (f & k & -> & Ff & Bf & Bk & Ek & Kk & Kf).
  assert (Bk' : -3 <= IZR k <= 3) by (split; apply IZR_le; lia).
  rewrite P53 in Ek, Es. pose proof (Rabs_le_inv _ _ Ek) as Ek'.
  (* the carry is recovered by round *)
  destruct (Fsub_ok s f A2 Ff) as [V1 V2].
  { apply small_big. abs_bound. }
  destruct (Fround_ok _ V2) as [W1 W2].
  assert (Ck : B2R (Fround (Fsub s f)) = IZR k).
  { rewrite W1. f_equal. apply Znearest_imp. rewrite V1.
    pose proof (rnd_error (B2R s - B2R f) 2 ltac:(lia)) as Z0.
    change (bpow radix2 2) with 4 in Z0. specialize (Z0 ltac:(abs_bound)).
    replace (bpow radix2 (2 - 53)) with (/ 2251799813685248) in Z0 by reflexivity.
    replace (rnd (B2R s - B2R f) - IZR k)
      with ((rnd (B2R s - B2R f) - (B2R s - B2R f)) + (B2R s - B2R f - IZR k)) by ring.
    eapply Rle_lt_trans; [apply Rabs_triang|]. lra. }
  (* the sums of integers are exact *)
  destruct (Fadd_ok (Fround (Fsub a f1)) (Fround (Fsub d2 f2)) N2 M2) as [X1 X2].
  { rewrite N1, M1. apply small_big. rewrite <- plus_IZR, <- abs_IZR. apply IZR_le. lia. }
  rewrite N1, M1, <- plus_IZR in X1. rewrite rnd_id in X1 by (apply format_IZR; lia).
  destruct (Fadd_ok _ (Fround (Fsub s f)) X2 W2) as [Y1 Y2].
  { rewrite X1, Ck. apply small_big. rewrite <- plus_IZR, <- abs_IZR. apply IZR_le. lia. }
  rewrite X1, Ck, <- plus_IZR in Y1. rewrite rnd_id in Y1 by (apply format_IZR; lia).
  split; [exact Y2|]. split; [|split; [exact Ff|]].
  - rewrite Y1. unfold nW. f_equal. rewrite <- D1. fold na nb. unfold frac. fold na nb.
    replace (B2R a - IZR na) with fa by lra. replace (B2R d2 - IZR nb) with fb by lra. rewrite <- A1, <- Kk. reflexivity.
  - rewrite Kf. unfold fW. rewrite <- D1. unfold frac. fold na nb.
    replace (B2R a - IZR na) with fa by lra. replace (B2R d2 - IZR nb) with fb by lra. rewrite <- A1. reflexivity.
Qed.

Definition lexle (n : Z) (f : R) (n' : Z) (f' : R) : Prop := (n < n')%Z \/ (n = n' /\ f <= f').

Lemma lexle_trans : forall n f n' f' n'' f'', lexle n f n' f' -> lexle n' f' n'' f'' -> lexle n f n'' f''.
Proof. intros n f n' f' n'' f'' [H|[H H']] [K|[K K']]; unfold lexle; try (left; lia). right. split; [lia|lra]. Qed.

Lemma lexle_shift : forall m n f n' f', lexle n f n' f' -> lexle (m + n) f (m + n') f'.
Proof. intros m n f n' f' [H|[H H']]; [left; lia|right; split; [lia|exact H']]. Qed.

Lemma trunc_between : forall x m, IZR m <= x < IZR m + 1 -> 0 <= x -> Ztrunc x = m.
Proof. intros x m H P. rewrite Ztrunc_floor by exact P. apply Zfloor_imp. rewrite plus_IZR. exact H. Qed.
Lemma trunc_between_neg : forall x m, IZR m < x <= IZR m + 1 -> x <= 0 -> Ztrunc x = (m + 1)%Z.
Proof.
  intros x m H P. rewrite Ztrunc_ceil by exact P. apply Zceil_imp. rewrite minus_IZR, !plus_IZR. lra.
Qed.

(** The pair of carry and fraction as a function of the floor: for s not below 0 plainly, otherwise with the rounding. *)
Lemma ks_pos : forall s m, 0 <= s -> IZR m <= s < IZR m + 1 -> kS s = m /\ fS s = s - IZR m.
Proof.
  intros s m P H. unfold kS, fS, frac. rewrite (trunc_between s m H P). rewrite Rlt_bool_false by lra. split; reflexivity.
Qed.
Lemma ks_int : forall m, kS (IZR m) = m /\ fS (IZR m) = 0.
Proof. intros m. unfold kS, fS, frac. rewrite Ztrunc_IZR. rewrite Rlt_bool_false by lra. split; [reflexivity|ring]. Qed.
Lemma ks_neg : forall s m, s < 0 -> IZR m < s < IZR m + 1 -> kS s = m /\ fS s = rnd (s - IZR m).
Proof.
  intros s m P H. unfold kS, fS, frac. rewrite (trunc_between_neg s m) by lra. rewrite plus_IZR. rewrite Rlt_bool_true by lra.
  split; [lia|]. f_equal. ring.
Qed.

Lemma fS_range : forall s, 0 <= fS s <= 1.
Proof.
  intros s. unfold fS, frac. destruct (Ztrunc_plus_frac s) as (r & E & B & _). replace (s - IZR (Ztrunc s)) with r by lra.
  destruct (Rlt_bool_spec r 0); [|lra]. split; [apply rnd_ge; [apply (format_IZR 0); lia|lra]|apply rnd_le; [apply (format_IZR 1); lia|lra]].
Qed.

(** Every real is an integer or strictly between two. *)
Lemma int_or : forall s, (exists m, s = IZR m) \/ (exists m, IZR m < s < IZR m + 1).
Proof.
  intros s. pose proof (Zfloor_lb s). pose proof (Zfloor_ub s). destruct (Req_dec s (IZR (Zfloor s))) as [E|E].
  - left. exists (Zfloor s). exact E.
  - right. exists (Zfloor s). lra.
Qed.

Lemma ks_floor : forall s, kS s = Zfloor s.
Proof.
  intros s. destruct (int_or s) as [[m ->]|[m H]].
  - rewrite (proj1 (ks_int m)), Zfloor_IZR. reflexivity.
  - rewrite (Zfloor_imp m s) by (rewrite plus_IZR; lra). destruct (Rle_or_lt 0 s).
    + apply ks_pos; lra.
    + apply ks_neg; lra.
Qed.

Lemma s_mono : forall s s', format s -> s <= s' -> lexle (kS s) (fS s) (kS s') (fS s').
Proof.
  intros s s' F H. rewrite !ks_floor. pose proof (Zfloor_le _ _ H) as L.
  destruct (Z.eq_dec (Zfloor s) (Zfloor s')) as [E|E]; [|left; lia]. right. split; [exact E|].
  destruct (int_or s) as [[m ->]|[m Hm]].
  - rewrite (proj2 (ks_int m)). apply fS_range.
  - assert (Fm : Zfloor s = m) by (apply Zfloor_imp; rewrite plus_IZR; lra).
    assert (B' : IZR m < s' < IZR m + 1) by (pose proof (Zfloor_ub s'); rewrite <- E, Fm in *; lra).
    destruct (Rle_or_lt 0 s) as [P|P].
    + rewrite (proj2 (ks_pos s m P ltac:(lra))), (proj2 (ks_pos s' m ltac:(lra) ltac:(lra))). lra.
    + rewrite (proj2 (ks_neg s m P ltac:(lra))).
      destruct (Rle_or_lt 0 s') as [P'|P'].
      * exfalso. assert (m < 0)%Z by (apply lt_IZR; lra). assert (0 <= m)%Z; [|lia].
        assert (-1 < m)%Z; [|lia]. apply lt_IZR. lra.
      * rewrite (proj2 (ks_neg s' m P' ltac:(lra))). apply rnd_mono. lra.
Qed.

Lemma below_1 : forall f, format f -> f < 1 -> f <= 1 - bpow radix2 (-53).
Proof.
  intros f F H. pose proof (pred_ge_gt radix2 fx f 1 F ltac:(apply (format_IZR 1); lia) H) as P.
  change 1 with (bpow radix2 0) in P. rewrite pred_bpow in P. change (fx 0) with (-53)%Z in P. exact P.
Qed.

Lemma err_2 : forall x, Rabs x <= 2 -> Rabs (rnd x - x) <= bpow radix2 (-53).
Proof.
  intros x H. pose proof (rnd_error x 1 ltac:(lia) H) as E. apply Rle_trans with (1 := E).
  change (bpow radix2 (1 - 53)) with (/ 4503599627370496). change (bpow radix2 (-53)) with (/ 9007199254740992). lra.
Qed.

(** A fraction of a binary64 number is one. *)
Definition good (a : R) : Prop := format (frac a).

Lemma good_IZR : forall m, good (IZR m).
Proof. intros m. unfold good, frac. rewrite Ztrunc_IZR. replace (IZR m - IZR m) with 0 by ring. apply generic_format_0. Qed.

Lemma frac_IZR : forall m, frac (IZR m) = 0.
Proof. intros m. unfold frac. rewrite Ztrunc_IZR. ring. Qed.

Lemma frac_range : forall x, -1 < frac x < 1.
Proof.
  intros x. unfold frac. destruct (Ztrunc_plus_frac x) as (r & E & B & _). replace (x - IZR (Ztrunc x)) with r by lra. exact B.
Qed.

Lemma rnd_fmt_0 : forall f, format f -> rnd (0 + f) = f.
Proof. intros f F. rewrite Rplus_0_l. apply rnd_id, F. Qed.

Definition le2 (p q : Z * R) : Prop := lexle (fst p) (snd p) (fst q) (snd q).
Definition W (a d : R) : Z * R := (nW a d, fW a d).

Lemma le2_trans : forall p q r, le2 p q -> le2 q r -> le2 p r.
Proof. intros [n f] [n' f'] [n'' f'']. apply lexle_trans. Qed.

Lemma W_comm : forall a d, W a d = W d a.
Proof. intros a d. unfold W, nW, fW. rewrite (Rplus_comm (frac a)), (Z.add_comm (Ztrunc a)). reflexivity. Qed.

Lemma W_int : forall p d, good d -> W (IZR p) d = ((p + Ztrunc d + kS (frac d))%Z, fS (frac d)).
Proof.
  intros p d G. unfold W, nW, fW. rewrite frac_IZR, (rnd_fmt_0 _ G), Ztrunc_IZR. reflexivity.
Qed.

Lemma W_up : forall a d p, good a -> good d -> IZR p - 1 < a < IZR p -> le2 (W a d) (W (IZR p) d).
Proof.
  intros a d p Ga Gd H. rewrite (W_int p d Gd). unfold le2, W. cbn [fst snd]. unfold nW, fW.
  unfold good in Ga, Gd. pose proof (frac_range d) as Rb. set (fb := frac d) in *.
  destruct (Rle_or_lt a 0) as [P|P].
  - assert (T : Ztrunc a = p). { replace p with ((p - 1) + 1)%Z by ring. apply trunc_between_neg; [rewrite minus_IZR; lra|exact P]. }
    rewrite T. apply lexle_shift. apply s_mono; [apply generic_format_round; [apply fx_valid|apply valid_rnd_N]|].
    apply rnd_le; [exact Gd|]. unfold frac. rewrite T. lra.
  - assert (T : Ztrunc a = (p - 1)%Z). { apply trunc_between; [rewrite minus_IZR; lra|lra]. }
    assert (Fa : 0 < frac a < 1) by (unfold frac; rewrite T, minus_IZR; lra).
    rewrite T. replace (p - 1 + Ztrunc d + kS (rnd (frac a + fb)))%Z with ((p + Ztrunc d) + (kS (rnd (frac a + fb)) - 1))%Z by ring.
    apply lexle_shift.
    pose proof (below_1 _ Ga ltac:(lra)) as Ua. set (fa := frac a) in *. clearbody fa fb. clear T H P.
    destruct (Rle_or_lt 0 fb) as [Q|Q].
    + pose proof (err_2 (fa + fb) ltac:(apply Rabs_le; lra)) as E. apply Rabs_le_inv in E.
      assert (S0 : 0 <= rnd (fa + fb)) by (apply rnd_ge; [apply generic_format_0|lra]).
      set (s := rnd (fa + fb)) in *. clearbody s.
      destruct (ks_pos fb 0 Q ltac:(lra)) as [K1 K2]. rewrite K1, K2.
      destruct (Rlt_or_le s 1) as [L|L].
      * left. rewrite (proj1 (ks_pos s 0 S0 ltac:(lra))). lia.
      * destruct (ks_pos s 1 S0 ltac:(lra)) as [K3 K4]. rewrite K3, K4. right. split; [lia|lra].
    + destruct (ks_neg fb (-1) Q ltac:(lra)) as [K1 K2]. rewrite K1, K2.
      assert (S1 : rnd (fa + fb) <= fa) by (apply rnd_le; [exact Ga|lra]).
      assert (S2 : fb <= rnd (fa + fb)) by (apply rnd_ge; [exact Gd|lra]).
      assert (S3 : rnd (fa + fb) <= rnd (fb - -1)) by (apply rnd_mono; lra).
      set (s := rnd (fa + fb)) in *. clearbody s.
      destruct (Rle_or_lt 0 s) as [L|L].
      * destruct (ks_pos s 0 L ltac:(lra)) as [K3 K4]. rewrite K3, K4. right. split; [lia|]. lra.
      * left. rewrite (proj1 (ks_neg s (-1) L ltac:(lra))). lia.
Qed.

Lemma W_down : forall a d p, good a -> good d -> IZR p < a < IZR p + 1 -> le2 (W (IZR p) d) (W a d).
Proof.
  intros a d p Ga Gd H. rewrite (W_int p d Gd). unfold le2, W. cbn [fst snd]. unfold nW, fW.
  unfold good in Ga, Gd. pose proof (frac_range d) as Rb. set (fb := frac d) in *.
  destruct (Rle_or_lt 0 a) as [P|P].
  - assert (T : Ztrunc a = p) by (apply trunc_between; [lra|exact P]).
    rewrite T. apply lexle_shift. apply s_mono; [exact Gd|].
    apply rnd_ge; [exact Gd|]. unfold frac. rewrite T. lra.
  - assert (T : Ztrunc a = (p + 1)%Z) by (apply trunc_between_neg; lra).
    assert (Fa : -1 < frac a < 0) by (unfold frac; rewrite T, plus_IZR; lra).
    rewrite T. replace (p + 1 + Ztrunc d + kS (rnd (frac a + fb)))%Z with ((p + Ztrunc d) + (kS (rnd (frac a + fb)) + 1))%Z by ring.
    apply lexle_shift.
    pose proof (below_1 (- frac a) (generic_format_opp _ _ _ Ga) ltac:(lra)) as Ua. set (fa := frac a) in *. clearbody fa fb. clear T H P.
    pose proof (err_2 (fa + fb) ltac:(apply Rabs_le; lra)) as E. apply Rabs_le_inv in E.
    assert (S1 : rnd (fa + fb) <= fb) by (apply rnd_le; [exact Gd|lra]).
    destruct (Rle_or_lt 0 fb) as [Q|Q].
    + assert (S0 : fa <= rnd (fa + fb)) by (apply rnd_ge; [exact Ga|lra]).
      set (s := rnd (fa + fb)) in *. clearbody s.
      destruct (ks_pos fb 0 Q ltac:(lra)) as [K1 K2]. rewrite K1, K2.
      destruct (Rlt_or_le s 0) as [L|L].
      * destruct (ks_neg s (-1) L ltac:(lra)) as [K3 K4]. rewrite K3, K4. right. split; [lia|].
        rewrite Rminus_0_r. apply rnd_ge; [exact Gd|lra].
      * left. rewrite (proj1 (ks_pos s 0 L ltac:(lra))). lia.
    + destruct (ks_neg fb (-1) Q ltac:(lra)) as [K1 K2]. rewrite K1, K2.
      set (s := rnd (fa + fb)) in *. clearbody s.
      destruct (Rlt_or_le s (-1)) as [L|L].
      * destruct (ks_neg s (-2) ltac:(lra) ltac:(lra)) as [K3 K4]. rewrite K3, K4. right. split; [lia|].
        apply rnd_mono. lra.
      * left. rewrite ks_floor. assert (-1 <= Zfloor s)%Z by (apply Zfloor_lub; exact L). lia.
Qed.

Lemma W_ints : forall p q d, good d -> (p <= q)%Z -> le2 (W (IZR p) d) (W (IZR q) d).
Proof.
  intros p q d G H. rewrite !W_int by exact G. unfold le2. cbn [fst snd].
  destruct (Z.eq_dec p q) as [->|N]; [right; split; [reflexivity|lra]|left; lia].
Qed.

Lemma W_floor : forall a d, good a -> good d -> le2 (W (IZR (Zfloor a)) d) (W a d).
Proof.
  intros a d Ga Gd. pose proof (Zfloor_lb a). pose proof (Zfloor_ub a).
  destruct (Req_dec (IZR (Zfloor a)) a) as [E|E]; [rewrite E; right; split; [reflexivity|lra]|].
  apply W_down; try assumption. lra.
Qed.

Lemma W_mono_l : forall a a' d, good a -> good a' -> good d -> a <= a' -> le2 (W a d) (W a' d).
Proof.
  intros a a' d Ga Ga' Gd H.
  pose proof (Zfloor_lb a) as L1. pose proof (Zfloor_ub a) as L2. pose proof (Zfloor_lb a') as L3. pose proof (Zfloor_ub a') as L4.
  pose proof (Zfloor_le _ _ H) as L5.
  destruct (Req_dec a (IZR (Zfloor a))) as [E|E].
  { rewrite E. apply le2_trans with (2 := W_floor a' d Ga' Gd). apply W_ints; assumption. }
  destruct (Z.eq_dec (Zfloor a) (Zfloor a')) as [N|N].
  - assert (T : Ztrunc a = Ztrunc a').
    { rewrite <- N in *. set (m := Zfloor a) in *. clearbody m. destruct (Rle_or_lt 0 a) as [P|P].
      - rewrite (trunc_between a m), (trunc_between a' m); lra || reflexivity.
      - assert (m + 1 <= 0)%Z as M. { assert (m < 0)%Z; [apply lt_IZR; lra|lia]. }
        apply IZR_le in M. rewrite plus_IZR in M.
        rewrite (trunc_between_neg a m), (trunc_between_neg a' m); lra || reflexivity. }
    unfold le2, W. cbn [fst snd]. unfold nW, fW. rewrite T. apply lexle_shift. apply s_mono.
    + apply generic_format_round; [apply fx_valid|apply valid_rnd_N].
    + apply rnd_mono. unfold frac. rewrite T. lra.
  - apply le2_trans with (W (IZR (Zfloor a + 1)) d).
    + apply W_up; try assumption. rewrite plus_IZR. lra.
    + apply le2_trans with (2 := W_floor a' d Ga' Gd). apply W_ints; [exact Gd|lia].
Qed.

Lemma W_mono_r : forall a d d', good a -> good d -> good d' -> d <= d' -> le2 (W a d) (W a d').
Proof. intros a d d' Ga Gd Gd' H. rewrite !(W_comm a). apply W_mono_l; assumption. Qed.

(** The split in the order the code chooses. *)
Definition V (x y : R) : Z * R := if Rle_bool y x then W x (rnd (y - / 2)) else W y (rnd (x - / 2)).

Definition good2 (x : R) : Prop := good x /\ good (rnd (x - / 2)).

Lemma half_mono : forall x y, x <= y -> rnd (x - / 2) <= rnd (y - / 2).
Proof. intros x y H. apply rnd_mono. lra. Qed.

Lemma V_mono_l : forall x x' y, good2 x -> good2 x' -> good2 y -> x <= x' -> le2 (V x y) (V x' y).
Proof.
  intros x x' y [Gx Hx] [Gx' Hx'] [Gy Hy] L. unfold V.
  destruct (Rle_bool_spec y x) as [A|A], (Rle_bool_spec y x') as [B|B].
  - apply W_mono_l; assumption.
  - exfalso. lra.
  - apply le2_trans with (W y (rnd (y - / 2))).
    + apply W_mono_r; try assumption. apply half_mono. lra.
    + apply W_mono_l; assumption.
  - apply W_mono_r; try assumption. apply half_mono. lra.
Qed.

Lemma V_mono_r : forall x y y', good2 x -> good2 y -> good2 y' -> y <= y' -> le2 (V x y) (V x y').
Proof.
  intros x y y' [Gx Hx] [Gy Hy] [Gy' Hy'] L. unfold V.
  destruct (Rle_bool_spec y x) as [A|A], (Rle_bool_spec y' x) as [B|B].
  - apply W_mono_r; try assumption. apply half_mono. exact L.
  - apply le2_trans with (W x (rnd (x - / 2))).
    + apply W_mono_r; try assumption. apply half_mono. lra.
    + apply W_mono_l; try assumption. lra.
  - exfalso. lra.
  - apply W_mono_l; assumption.
Qed.

Lemma good2_B2R : forall x, fin x = true -> Rabs (B2R x) <= 2251799813685248 -> good2 (B2R x).
Proof.
  intros x Fx B. split.
  - unfold good, frac. rewrite <- (proj1 (Frem_1 x Fx)). apply format_B2R.
  - apply Rabs_le_inv in B. destruct lit_half as [E F].
    destruct (Fsub_ok x (Flit 5 (-1)) Fx F) as [E2 F2].
    { apply small_big. rewrite E. apply Rabs_le. lra. }
    rewrite E in E2. unfold good, frac. rewrite <- E2. rewrite <- (proj1 (Frem_1 _ F2)). apply format_B2R.
Qed.

(** The result of from_julian, spelled out. *)
Lemma from_julian_F_V : forall lm p x y, fin x = true -> fin y = true ->
  Rabs (B2R x) <= 2251799813685248 -> Rabs (B2R y) <= 2251799813685248 ->
  -32000 <= B2R x + B2R y <= 536802342 ->
  exists f : b64,
    from_julian (A := b64A lm) p x y = Val (Ok (date_of_civil (civil_fn (fst (V (B2R x) (B2R y)) + 1)), f)) /\
    (-68569 <= fst (V (B2R x) (B2R y)) + 1 <= 536802342)%Z /\
    fin f = true /\ B2R f = snd (V (B2R x) (B2R y)).
Proof.
  intros lm p x y Hx Hy Bx By Hs. unfold from_julian. rewrite split_julian_F.
  unfold DJ_MIN, DJ_MAX. b64A_ops.
  rewrite range_check by assumption.
  assert (G : forall a b, fin a = true -> fin b = true ->
    Rabs (B2R a) <= 2251799813685248 -> Rabs (B2R b) <= 2251799813685248 ->
    B2R a + B2R b = B2R x + B2R y ->
    exists (f : b64),
    (let '(d, f0) := split_ord a b in
     bind (i32_add p (Fto_int i32_min i32_max d) 1) (fun jd =>
     bind (civil_of_jd p jd) (fun g => Val (Ok (E := CalendarError) (g, f0))))) =
      Val (Ok (date_of_civil (civil_fn (nW (B2R a) (rnd (B2R b - / 2)) + 1)), f)) /\
    (-68569 <= nW (B2R a) (rnd (B2R b - / 2)) + 1 <= 536802342)%Z /\
    fin f = true /\ B2R f = fW (B2R a) (rnd (B2R b - / 2))).
  { intros a b Ha Hb Ba Bb E. destruct (split_ord_spec a b Ha Hb Ba Bb) as (n & P1 & P2 & P3 & P4 & P5).
    destruct (split_ord_full a b Ha Hb Ba Bb) as (_ & Q2 & _ & Q4). rewrite Q2 in P2. apply eq_IZR in P2.
    destruct (split_ord a b) as [d f]. cbn [fst snd] in *. rewrite E in P5. rewrite P2 in *.
    assert (P6 : - (1 / 3) <= IZR n + B2R f + / 2 - (B2R x + B2R y) <= 1 / 3).
    { apply Rabs_le_inv. apply Rle_trans with (1 := P5).
      change (bpow radix2 (-53)) with (/ 9007199254740992). lra. }
    assert (N1 : (-32002 <= n)%Z) by (apply le_IZR; lra).
    assert (N2 : (n <= 536802341)%Z) by (apply Zlt_succ_le, lt_IZR; change (Z.succ 536802341) with 536802342%Z; lra).
    exists f. split; [|split; [lia|split; assumption]].
    rewrite Fto_int_ok; [|exact P1|].
    - rewrite Q2, Ztrunc_IZR. unfold i32_add. rewrite i32_ok by (unfold i32_min, i32_max; lia).
      cbn [bind]. apply date_of_civil_bind. lia.
    - rewrite Q2, Ztrunc_IZR. unfold i32_min, i32_max. lia. }
  rewrite (Bleb_correct 53 1024 y x Hy Hx). unfold V.
  destruct (Rle_bool (B2R y) (B2R x)); apply G; try assumption; lra.
Qed.

Lemma from_julian_F_mono : forall lm p x y x' y',
  fin x = true -> fin y = true -> fin x' = true -> fin y' = true ->
  Rabs (B2R x) <= 2251799813685248 -> Rabs (B2R y) <= 2251799813685248 ->
  Rabs (B2R x') <= 2251799813685248 -> Rabs (B2R y') <= 2251799813685248 ->
  -32000 <= B2R x + B2R y -> B2R x' + B2R y' <= 536802342 ->
  B2R x <= B2R x' -> B2R y <= B2R y' ->
  exists g f g' f',
    from_julian (A := b64A lm) p x y = Val (Ok (g, f)) /\
    from_julian (A := b64A lm) p x' y' = Val (Ok (g', f')) /\
    fin f = true /\ fin f' = true /\
    (civil_lt (of_date g) (of_date g') \/ (g = g' /\ B2R f <= B2R f')).
Proof.
  intros lm p x y x' y' Fx Fy Fx' Fy' Bx By Bx' By' S1 S2 Lx Ly.
  destruct (from_julian_F_V lm p x y) as (f & E & N & Ff & Ef); try assumption; [lra|].
  destruct (from_julian_F_V lm p x' y') as (f' & E' & N' & Ff' & Ef'); try assumption; [lra|].
  do 4 eexists. split; [exact E|]. split; [exact E'|]. split; [exact Ff|]. split; [exact Ff'|].
  assert (M : le2 (V (B2R x) (B2R y)) (V (B2R x') (B2R y'))).
  { apply le2_trans with (V (B2R x') (B2R y)); [apply V_mono_l|apply V_mono_r]; try apply good2_B2R; assumption. }
  rewrite Ef, Ef'. destruct M as [M|[M M']].
  - left. rewrite !of_date_of_civil.
    destruct (civil_fn_spec (fst (V (B2R x) (B2R y)) + 1)) as (A1 & A2 & _); [lia|].
    destruct (civil_fn_spec (fst (V (B2R x') (B2R y')) + 1)) as (B1 & B2 & _); [lia|].
    apply mjd_lt_iff; [exact A1|exact B1|]. lia.
  - right. rewrite M. split; [reflexivity|exact M'].
Qed.
