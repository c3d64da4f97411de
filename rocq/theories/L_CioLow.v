(** * The CIO locator against its leading terms *)

From Coq Require Import ZArith Reals Lra Lia Bool List.
From Flocq Require Import Core.
From Verif Require Import Outcome Arith ArithR M_Common M_Time M_Frames M_Locator T_Cio Spec_Matrix Spec_Frames Spec_Series Spec_Sun Spec_Pole Spec_C2t.
From Verif Require Import L_ArithR L_Series L_SeriesR L_Matrix L_Pi L_Closed L_PFrames L_PSeries L_Orbit L_POrbit L_PPole.
Import ListNotations.
Open Scope R_scope.

Definition cd (k q i : nat) : Z * Z := nth q (nth i (nth k SSS []) []) (0, 0)%Z.
Definition camp (k a n : nat) : R := sumR (fun i => Rabs (rl (cd k 0 i))) (seq a n) + sumR (fun i => Rabs (rl (cd k 1 i))) (seq a n).

Lemma sumn_sumR : forall n f, sumn n f = sumR f (seq 0 n).
Proof.
  intros n f. induction n as [|n IH]; [reflexivity|]. cbn [sumn]. rewrite IH, seq_S, sumR_app. cbn [sumR fold_right Nat.add]. ring.
Qed.
Lemma camp_bound : forall k a n (g : nat -> R), Rabs (sumR (fun i => cio_coef k i 0 * sin (g i) + cio_coef k i 1 * cos (g i)) (seq a n)) <= camp k a n.
Proof.
  intros k a n g. unfold camp. rewrite <- sumR_plus. apply sumR_abs. intros i _. unfold cio_coef. fold (cd k 0 i). fold (cd k 1 i). rewrite <- !rl_dec.
  eapply Rle_trans; [apply Rabs_triang|]. rewrite !Rabs_mult.
  assert (S : Rabs (sin (g i)) <= 1) by apply sin_abs. assert (C : Rabs (cos (g i)) <= 1) by apply cos_abs.
  pose proof (Rabs_pos (rl (cd k 0 i))). pose proof (Rabs_pos (rl (cd k 1 i))). nra.
Qed.
Ltac camp_val := unfold camp; rewrite !(sumR_abs_lit 8) by (try lia; vm_compute; reflexivity);
  repeat match goal with |- context[IZR (sumZ ?f ?l)] => let v := eval vm_compute in (sumZ f l) in change (sumZ f l) with v end;
  change (10 ^ 8)%Z with 100000000%Z; lra.
Lemma camp_values : camp 0 2 31 <= 0.000042 /\ camp 1 0 3 <= 0.000006 /\ camp 2 0 25 <= 0.00084 /\ camp 3 0 4 <= 0.000026 /\ camp 4 0 1 <= 0.000001.
Proof. repeat split; camp_val. Qed.

Ltac dec_val := rewrite <- rl_dec; unfold rl, Rlit; cbn [fst snd]; change (Z.pow_pos 10 8) with 100000000%Z; change (Z.pow_pos 10 7) with 10000000%Z; change (Z.pow_pos 10 6) with 1000000%Z; lra.

Lemma om_node : forall t, Rabs t <= 1 -> Rabs (iers_om t - node t) <= 0.00005.
Proof.
  intros t Ht. apply Rabs_le_inv in Ht. pose proof PI_bounds as P. assert (T2 : 0 <= t ^ 2 <= 1) by nra. assert (T3 : -1 <= t ^ 3 <= 1) by (replace (t ^ 3) with (t * t ^ 2) by ring; split; nra).
  assert (T4 : 0 <= t ^ 4 <= 1) by (replace (t ^ 4) with (t ^ 2 * t ^ 2) by ring; split; nra).
  replace (iers_om t - node t) with ((450160.398036 - 6962890.5431 * t + 7.4722 * t ^ 2 + 0.007702 * t ^ 3 - 0.00005939 * t ^ 4 - 3600 * (125.04452 - 1934.136261 * t)) * (PI / 648000)) by (unfold iers_om, node, degrees, arcsec; field).
  set (w := _ - 3600 * _). assert (W : -9.4 <= w <= 9.4) by (unfold w; lra). clearbody w. set (k := PI / 648000). assert (0 <= k <= 0.00000485) by (unfold k; lra). clearbody k.
  apply Rabs_le. split; nra.
Qed.

Lemma cio_low : forall t, Rabs t <= 1 -> Rabs (cio_sxy2 t - arcsec (low_s t)) <= arcsec 0.001.
Proof.
  intros t Ht. unfold cio_sxy2. apply arcsec_near. cbn [sumn]. unfold cio_order.
  change (length (nth 0 KSS [])) with (2 + 31)%nat. change (length (nth 1 KSS [])) with 3%nat. change (length (nth 2 KSS [])) with 25%nat.
  change (length (nth 3 KSS [])) with 4%nat. change (length (nth 4 KSS [])) with 1%nat. change (length (nth 5 KSS [])) with 0%nat. rewrite !sumn_sumR, seq_app, sumR_app. cbv zeta.
  destruct camp_values as (V0 & V1 & V2 & V3 & V4).
  pose proof (camp_bound 0 2 31 (fun i => combo (nth i (nth 0 KSS []) []) (cio_angles t))) as B0. pose proof (camp_bound 1 0 3 (fun i => combo (nth i (nth 1 KSS []) []) (cio_angles t))) as B1.
  pose proof (camp_bound 2 0 25 (fun i => combo (nth i (nth 2 KSS []) []) (cio_angles t))) as B2. pose proof (camp_bound 3 0 4 (fun i => combo (nth i (nth 3 KSS []) []) (cio_angles t))) as B3.
  pose proof (camp_bound 4 0 1 (fun i => combo (nth i (nth 4 KSS []) []) (cio_angles t))) as B4. cbv beta in *.
  change (0 + 2)%nat with 2%nat.
  set (s0 := sumR _ (seq 2 31)) in *. set (s1 := sumR _ (seq 0 3)) in *. set (s2 := sumR _ (seq 0 25)) in *. set (s3 := sumR _ (seq 0 4)) in *. set (s4 := sumR _ (seq 0 1)) in *. clearbody s0 s1 s2 s3 s4.
  cbn [seq sumR fold_right].
  assert (E0 : combo (nth 0 (nth 0 KSS []) []) (cio_angles t) = iers_om t) by (cbn [nth KSS KS0 combo cio_angles]; ring).
  assert (E1 : combo (nth 1 (nth 0 KSS []) []) (cio_angles t) = 2 * iers_om t) by (cbn [nth KSS KS0 combo cio_angles]; ring). rewrite E0, E1.
  assert (C00 : cio_coef 0 0 0 = -0.00264073) by (unfold cio_coef; cbn [nth SSS SS0]; dec_val).
  assert (C01 : cio_coef 0 0 1 = 0.00000039) by (unfold cio_coef; cbn [nth SSS SS0]; dec_val).
  assert (C10 : cio_coef 0 1 0 = -0.00006353) by (unfold cio_coef; cbn [nth SSS SS0]; dec_val).
  assert (C11 : cio_coef 0 1 1 = 0.00000002) by (unfold cio_coef; cbn [nth SSS SS0]; dec_val).
  rewrite C00, C01, C10, C11. cbn [nth SP].
  replace (dec (94, -6)%Z) with 0.000094 by dec_val. replace (dec (380835, -8)%Z) with 0.00380835 by dec_val.
  replace (dec (-11994, -8)%Z) with (-0.00011994) by dec_val. replace (dec (-7257409, -8)%Z) with (-0.07257409) by dec_val.
  replace (dec (277, -7)%Z) with 0.0000277 by dec_val. replace (dec (1561, -8)%Z) with 0.00001561 by dec_val.
  pose proof (om_node t Ht) as ON. destruct (near_sin (iers_om t) (node t) 0.00005 ON) as (q1 & Q1 & D1).
  destruct (near_sin (2 * iers_om t) (2 * node t) 0.0001) as (q2 & Q2 & D2); [apply Rabs_le_inv in ON; apply Rabs_le; lra|]. rewrite Q1, Q2.
  pose proof (COS_bound (iers_om t)). pose proof (COS_bound (2 * iers_om t)). pose proof (SIN_bound (node t)). pose proof (SIN_bound (2 * node t)). unfold low_s.
  set (x1 := cos (iers_om t)) in *. set (x2 := cos (2 * iers_om t)) in *. set (x3 := sin (node t)) in *. set (x4 := sin (2 * node t)) in *. clearbody x1 x2 x3 x4.
  clear E0 E1 C00 C01 C10 C11 ON Q1 Q2. apply Rabs_le_inv in Ht.
  assert (T2 : 0 <= t ^ 2 <= 1) by nra. assert (T3 : -1 <= t ^ 3 <= 1) by (replace (t ^ 3) with (t * t ^ 2) by ring; split; nra).
  assert (T4 : 0 <= t ^ 4 <= 1) by (replace (t ^ 4) with (t ^ 2 * t ^ 2) by ring; split; nra). assert (T5 : -1 <= t ^ 5 <= 1) by (replace (t ^ 5) with (t * t ^ 4) by ring; split; nra).
  assert (M1 : - (0.000006) <= s1 * t <= 0.000006) by (apply Rabs_le_inv; eapply Rle_trans; [apply (mulb 0.000006 1); [lra|apply Rabs_le; lra]|lra]).
  assert (M2 : - (0.00084) <= s2 * t ^ 2 <= 0.00084) by (apply Rabs_le_inv; eapply Rle_trans; [apply (mulb 0.00084 1); [lra|apply Rabs_le; lra]|lra]).
  assert (M3 : - (0.000026) <= s3 * t ^ 3 <= 0.000026) by (apply Rabs_le_inv; eapply Rle_trans; [apply (mulb 0.000026 1); [lra|apply Rabs_le; lra]|lra]).
  assert (M4 : - (0.000001) <= s4 * t ^ 4 <= 0.000001) by (apply Rabs_le_inv; eapply Rle_trans; [apply (mulb 0.000001 1); [lra|apply Rabs_le; lra]|lra]).
  assert (M0 : - (0.000042) <= s0 <= 0.000042) by (apply Rabs_le_inv; lra). clear B0 B1 B2 B3 B4 V0 V1 V2 V3 V4.
  apply Rabs_le. set (t2 := t ^ 2) in *. set (t3 := t ^ 3) in *. set (t4 := t ^ 4) in *. set (t5 := t ^ 5) in *. clearbody t2 t3 t4 t5. cbn [pow]. split; lra.
Qed.
