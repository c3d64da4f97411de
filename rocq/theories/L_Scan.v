(** * When the scan loop of sun_angle_tool ends in binary64 *)

From Coq Require Import ZArith Reals Lra Lia Bool List Psatz.
Import ListNotations.
From Flocq Require Import Core BinarySingleNaN.
From Verif Require Import Outcome Arith ArithR L_ArithR ArithF L_ArithF M_SunAngle Spec_Sun.
Open Scope R_scope.

Lemma rs_S : forall d step k, running_sum d step (S k) = running_sum (Fadd d step) step k.
Proof.
  intros d step k. unfold running_sum. induction k as [|k IH]; [reflexivity|]. cbn [Nat.iter nat_rect] in *. rewrite IH at 1. reflexivity.
Qed.

Lemma rs_end : forall d step k, running_sum d step (S k) = Fadd (running_sum d step k) step.
Proof. reflexivity. Qed.

(** The loop visits the running sums up to the first that is not <= delta1. *)
Lemma scan_some : forall lm d1 step n d0, (forall k, (k < n)%nat -> Bleb (running_sum d0 step k) d1 = true) ->
  Bleb (running_sum d0 step n) d1 = false ->
  forall fuel, (n <= fuel)%nat -> scan_offsets (A := b64A lm) fuel true d0 d1 step = Some (map (running_sum d0 step) (seq 0 n)).
Proof.
  intros lm d1 step. induction n as [|n IH]; intros d0 H1 H2 fuel Hf.
  - change (running_sum d0 step 0) with d0 in H2. destruct fuel; cbn [scan_offsets]; b64A_ops; rewrite H2; reflexivity.
  - destruct fuel as [|fuel]; [lia|]. cbn [scan_offsets]. b64A_ops.
    pose proof (H1 0%nat ltac:(lia)) as H0. change (running_sum d0 step 0) with d0 in H0. rewrite H0. cbn [negb].
    rewrite IH.
    + cbn [option_map seq map]. f_equal. f_equal. rewrite <- seq_shift, map_map. apply map_ext. intros k. symmetry. apply rs_S.
    + intros k Hk. rewrite <- rs_S. apply H1. lia.
    + rewrite <- rs_S. exact H2.
    + lia.
Qed.

Lemma scan_none : forall lm d1 step n d0, (forall k, (k <= n)%nat -> Bleb (running_sum d0 step k) d1 = true) ->
  forall fuel, (fuel <= n)%nat -> scan_offsets (A := b64A lm) fuel true d0 d1 step = None.
Proof.
  intros lm d1 step. induction n as [|n IH]; intros d0 H1 fuel Hf.
  - replace fuel with 0%nat by lia. cbn [scan_offsets]. b64A_ops.
    pose proof (H1 0%nat ltac:(lia)) as H0. change (running_sum d0 step 0) with d0 in H0. rewrite H0. reflexivity.
  - pose proof (H1 0%nat ltac:(lia)) as H0. change (running_sum d0 step 0) with d0 in H0.
    destruct fuel as [|fuel]; cbn [scan_offsets]; b64A_ops; rewrite H0; [reflexivity|]. cbn [negb].
    rewrite IH; [reflexivity| |lia]. intros k Hk. rewrite <- rs_S. apply H1. lia.
Qed.

(** First failure, if any below n. *)
Lemma first_fail : forall (b : nat -> bool) n, (forall k, (k < n)%nat -> b k = true) \/
  (exists m, (m < n)%nat /\ b m = false /\ forall k, (k < m)%nat -> b k = true).
Proof.
  intros b. induction n as [|n [IH|IH]].
  - left. intros k Hk. lia.
  - destruct (b n) eqn:E.
    + left. intros k Hk. destruct (Nat.eq_dec k n) as [->|]; [exact E|]. apply IH. lia.
    + right. exists n. split; [lia|]. split; [exact E|exact IH].
  - right. destruct IH as (m & A & B & C). exists m. split; [lia|]. split; assumption.
Qed.

Lemma scan_forever : forall lm d0 d1 step,
  (forall fuel, scan_offsets (A := b64A lm) fuel true d0 d1 step = None) <->
  (forall k, Bleb (running_sum d0 step k) d1 = true).
Proof.
  intros lm d0 d1 step. split.
  - intros H k. destruct (first_fail (fun k => Bleb (running_sum d0 step k) d1) (S k)) as [F|(m & A & B & C)].
    + apply F. lia.
    + specialize (H m). rewrite (scan_some lm d1 step m d0 C B m) in H by lia. discriminate.
  - intros H fuel. apply (scan_none lm d1 step fuel d0); [intros k _; apply H|lia].
Qed.

(** A sum not past delta1 is finite. *)
Lemma sum_fin : forall x step d1, fin x = true -> fin step = true -> fin d1 = true -> 0 < B2R step ->
  Bleb (Fadd x step) d1 = true -> fin (Fadd x step) = true /\ B2R (Fadd x step) = rnd (B2R x + B2R step).
Proof.
  intros x step d1 Fx Fs F1 P H.
  pose proof (Bplus_correct 53 1024 _ _ mode_NE x step Fx Fs) as C. fold (Fadd x step) in C.
  destruct (Rlt_bool _ _) in C.
  - destruct C as (C1 & C2 & _). split; [exact C2|exact C1].
  - exfalso. destruct C as (C1 & C2).
    assert (S : Bsign step = false).
    { destruct step as [s|s| |s m e B]; try discriminate; cbn [Bsign].
      - cbn [B2R] in P. lra.
      - destruct s; [|reflexivity]. exfalso. cbn [B2R] in P. 
        apply Rlt_not_le in P. apply P. apply F2R_le_0. cbn. lia. }
    rewrite C2, S in C1.
    destruct (Fadd x step) as [s|s| |s m e B]; cbn [B2SF] in C1; try discriminate C1.
    unfold binary_overflow, overflow_to_inf in C1. 
    assert (s = false) by (cbn in C1; congruence). subst s.
    destruct d1 as [t|t| |t m e B]; try discriminate F1; destruct t; discriminate H.
Qed.

(** Different binary64 numbers differ by at least 2^-1074. *)
Lemma gap : forall x y : b64, B2R x < B2R y -> B2R x + bpow radix2 (-1074) <= B2R y.
Proof.
  intros x y H.
  assert (G : forall z : b64, exists k : Z, B2R z = IZR k * bpow radix2 (-1074)).
  { intros z. pose proof (format_B2R z) as F. apply FLT_format_generic in F; [|reflexivity].
    destruct F as [f E1 _ E3]. exists (Fnum f * 2 ^ (Fexp f + 1074))%Z. rewrite E1. unfold F2R. rewrite mult_IZR, Rmult_assoc. f_equal.
    rewrite (IZR_Zpower radix2) by lia. rewrite <- bpow_plus. f_equal. lia. }
  destruct (G x) as [k E], (G y) as [l E']. rewrite E, E' in *.
  pose proof (bpow_gt_0 radix2 (-1074)) as P.
  assert (k < l)%Z. { apply lt_IZR. apply Rmult_lt_reg_r with (1 := P). exact H. }
  assert (IZR k + 1 <= IZR l) by (rewrite <- plus_IZR; apply IZR_le; lia). nra.
Qed.

(** With a positive step the loop runs forever exactly when the running sum
    reaches, not past delta1, a number to which adding the step changes nothing. *)
Lemma forever_iff_absorbed : forall lm d0 d1 step, fin d0 = true -> fin d1 = true -> fin step = true -> 0 < B2R step ->
  (forall fuel, scan_offsets (A := b64A lm) fuel true d0 d1 step = None) <->
  (exists k, (forall j, (j <= k)%nat -> Bleb (running_sum d0 step j) d1 = true) /\
             Fadd (running_sum d0 step k) step = running_sum d0 step k).
Proof.
  intros lm d0 d1 step F0 F1 Fs P. rewrite scan_forever. split.
  - intros H.
    assert (FI : forall k, fin (running_sum d0 step k) = true).
    { induction k as [|k IH]; [exact F0|]. rewrite rs_end. apply (sum_fin _ step d1); try assumption. rewrite <- rs_end. apply H. }
    assert (UP : forall k, B2R (running_sum d0 step k) <= B2R (running_sum d0 step (S k))).
    { intros k. rewrite rs_end. destruct (sum_fin (running_sum d0 step k) step d1 (FI k) Fs F1 P) as [_ E]; [rewrite <- rs_end; apply H|].
      rewrite E. apply rnd_ge; [apply format_B2R|lra]. }
    assert (G : forall N, (exists k, (k < N)%nat /\ Fadd (running_sum d0 step k) step = running_sum d0 step k) \/
      B2R d0 + INR N * bpow radix2 (-1074) <= B2R (running_sum d0 step N)).
    { induction N as [|N [IH|IH]].
      - right. cbn [INR]. change (running_sum d0 step 0) with d0. lra.
      - left. destruct IH as (k & A & B). exists k. split; [lia|exact B].
      - destruct (Rle_lt_or_eq_dec _ _ (UP N)) as [L|E].
        + right. rewrite S_INR. pose proof (gap _ _ L). lra.
        + pose proof (sum_fin (running_sum d0 step N) step d1 (FI N) Fs F1 P ltac:(rewrite <- rs_end; apply H)) as [_ E2].
          destruct (Req_dec (B2R (running_sum d0 step N)) 0) as [Z|Z].
          * exfalso. rewrite rs_end, E2, Z, Rplus_0_l, (rnd_id _ (format_B2R step)) in E. lra.
          * left. exists N. split; [lia|]. rewrite <- rs_end. symmetry. apply B2R_inj; [| |exact E].
            { destruct (running_sum d0 step N) eqn:K; try reflexivity; [exfalso; apply Z; reflexivity| |];
                pose proof (FI N) as Q; rewrite K in Q; discriminate Q. }
            { rewrite E in Z. destruct (running_sum d0 step (S N)) eqn:K; try reflexivity; [exfalso; apply Z; reflexivity| |];
                pose proof (FI (S N)) as Q; rewrite K in Q; discriminate Q. } }
    pose proof (bpow_gt_0 radix2 (-1074)) as PB.
    set (q := (B2R d1 - B2R d0) / bpow radix2 (-1074)).
    assert (QE : q * bpow radix2 (-1074) = B2R d1 - B2R d0) by (unfold q; field; lra).
    pose proof (archimed q) as [A1 _].
    assert (q < INR (Z.to_nat (up q))).
    { rewrite INR_IZR_INZ. eapply Rlt_le_trans; [exact A1|]. apply IZR_le. lia. }
    destruct (G (Z.to_nat (up q))) as [(k & _ & K)|K].
    + exists k. split; [intros j _; apply H|exact K].
    + exfalso. pose proof (H (Z.to_nat (up q))) as HH. rewrite (Bleb_correct 53 1024 _ _ (FI _) F1) in HH.
      destruct (Rle_bool_spec (B2R (running_sum d0 step (Z.to_nat (up q)))) (B2R d1)) as [L|L]; [|discriminate HH]. nra.
  - intros (k & H & E) j. destruct (le_lt_dec j k) as [L|L]; [apply H, L|].
    assert (ST : forall m, running_sum d0 step (m + k) = running_sum d0 step k).
    { induction m as [|m IH]; [reflexivity|]. change (S m + k)%nat with (S (m + k)). rewrite rs_end, IH. exact E. }
    replace j with ((j - k) + k)%nat by lia. rewrite ST. apply H. lia.
Qed.

Lemma down_step : forall x step d1, fin step = true -> fin d1 = true -> B2R step <= 0 ->
  Bleb x d1 = true -> Bleb (Fadd x step) d1 = true.
Proof.
  intros x step d1 Fs F1 P H. destruct (fin x) eqn:Fx.
  - pose proof (Bplus_correct 53 1024 _ _ mode_NE x step Fx Fs) as C. fold (Fadd x step) in C.
    rewrite (Bleb_correct 53 1024 _ _ Fx F1) in H.
    destruct (Rle_bool_spec (B2R x) (B2R d1)) as [L|L]; [|discriminate H].
    destruct (Rlt_bool_spec (Rabs (round radix2 (SpecFloat.fexp 53 1024) (round_mode mode_NE) (B2R x + B2R step))) (bpow radix2 1024)) as [S|S].
    + destruct C as (C1 & C2 & _). rewrite (Bleb_correct 53 1024 _ _ C2 F1). apply Rle_bool_true.
      rewrite C1. apply Rle_trans with (2 := L). apply (rnd_le (B2R x + B2R step) (B2R x)); [apply format_B2R|lra].
    + destruct C as (C1 & C2).
      destruct (Bsign step) eqn:Sg.
      * rewrite C2 in C1. destruct (Fadd x step) as [s|s| |s m e B]; cbn [B2SF] in C1; try discriminate C1.
        assert (s = true) by (cbn in C1; congruence). subst s.
        destruct d1 as [t|t| |t m e B]; try discriminate F1; reflexivity.
      * exfalso. (* step is +0 *)
        assert (Z : B2R step = 0).
        { destruct step as [s|s| |s m e B]; try discriminate Fs; [reflexivity|]. cbn [Bsign] in Sg. subst s.
          exfalso. apply Rle_not_lt in P. apply P. apply F2R_gt_0. cbn. lia. }
        rewrite Z, Rplus_0_r in S. rewrite round_generic in S; [|apply valid_rnd_N|apply format_B2R].
        pose proof (abs_B2R_lt_emax 53 1024 x). lra.
  - destruct x as [s|s| |s m e B]; try discriminate Fx.
    + destruct step as [t|t| |t m e B]; try discriminate Fs; exact H.
    + destruct d1; discriminate H.
Qed.

Lemma forever_nonpositive : forall lm d0 d1 step, fin step = true -> fin d1 = true -> B2R step <= 0 ->
  Bleb d0 d1 = true -> forall fuel, scan_offsets (A := b64A lm) fuel true d0 d1 step = None.
Proof.
  intros lm d0 d1 step Fs F1 P H. apply scan_forever. induction k as [|k IH]; [exact H|].
  rewrite rs_end. apply down_step; assumption.
Qed.
