(** * The series as closed sums (exact arithmetic) *)

From Coq Require Import ZArith Reals Lra Lia Bool List.
From Flocq Require Import Core.
From Verif Require Import Outcome Arith ArithR M_Common M_Time M_Earth M_Fundargs M_Locator M_Frames T_Epv00 T_Nut T_Cio.
From Verif Require Import Spec_Matrix Spec_Frames Spec_Series.
From Verif Require Import L_ArithR L_Series L_SeriesR L_Epv L_PFrames.
Import ListNotations.
Open Scope R_scope.

Lemma rl_dec : forall d, rl d = dec d.
Proof.
  intros [m e]. unfold rl, dec, Rlit. cbn [fst snd]. destruct e as [|p|p]; unfold powerRZ.
  - rewrite mult_IZR. change (10 ^ 0)%Z with 1%Z. ring.
  - rewrite mult_IZR. f_equal. rewrite pow_IZR. f_equal. rewrite positive_nat_Z. reflexivity.
  - unfold Rdiv. f_equal. f_equal. rewrite pow_IZR. f_equal. rewrite positive_nat_Z. reflexivity.
Qed.

Lemma sumR_app : forall B l1 l2, sumR B (l1 ++ l2) = sumR B l1 + sumR B l2.
Proof. intros B l1 l2. unfold sumR. induction l1 as [|i l1 IH]; cbn [fold_right app]; [lra|]. rewrite IH. lra. Qed.
Lemma sumR_seq : forall B n, sumR B (seq 0 n) = sumn n B.
Proof.
  intros B n. induction n as [|n IH]; [reflexivity|]. rewrite seq_S, sumR_app, IH. cbn [sumR fold_right sumn Nat.add]. lra.
Qed.
Lemma sumR_ext : forall B C l, (forall i, In i l -> B i = C i) -> sumR B l = sumR C l.
Proof.
  intros B C l H. induction l as [|i l IH]; [reflexivity|]. unfold sumR in *. cbn [fold_right].
  rewrite (H i (or_introl eq_refl)), IH; [reflexivity|]. intros j Hj. apply H. right. exact Hj.
Qed.
Lemma sumn_ext : forall n f g, (forall i, (i < n)%nat -> f i = g i) -> sumn n f = sumn n g.
Proof. intros n f g H. induction n as [|n IH]; [reflexivity|]. cbn [sumn]. rewrite IH, H by (try lia; intros; apply H; lia). reflexivity. Qed.
Lemma sumR_zero : forall B l, (forall i, In i l -> B i = 0) -> sumR B l = 0.
Proof.
  intros B l H. unfold sumR. induction l as [|i l IH]; [reflexivity|]. cbn [fold_right].
  rewrite (H i (or_introl eq_refl)), IH; [lra|]. intros j Hj. apply H. right. exact Hj.
Qed.

Lemma fold_sum : forall (S : Type) (p : S -> R) (f : S -> nat -> S) (B : nat -> R) l,
  (forall s i, In i l -> p (f s i) = p s + B i) -> forall s, p (fold_left f l s) = p s + sumR B l.
Proof.
  intros S p f B l. induction l as [|i l IH]; intros H s; [cbn; lra|].
  cbn [fold_left]. rewrite IH by (intros; apply H; right; assumption). rewrite (H s i (or_introl eq_refl)).
  unfold sumR. cbn [fold_right]. lra.
Qed.

(** ** Earth position *)

Definition tterm (tab : table) (k : nat) (t : R) (j : nat) : R := cell tab 0 j k * cos (cell tab 1 j k + cell tab 2 j k * t).

Definition zero_tail (tab : table) (n k : nat) : bool :=
  (n <=? length (nth 0 tab []))%nat &&
  forallb (fun j => (fst (getd tab 0 j k) =? 0)%Z) (seq n (length (nth 0 tab []) - n)).

Lemma sum_tail : forall tab n k t, zero_tail tab n k = true -> sumR (tterm tab k t) (seq 0 n) = trig tab k t.
Proof.
  intros tab n k t H. apply andb_true_iff in H. destruct H as [H1 H2]. apply Nat.leb_le in H1. rewrite forallb_forall in H2.
  unfold trig. rewrite <- sumR_seq. replace (length (nth 0 tab [])) with (n + (length (nth 0 tab []) - n))%nat at 1 by lia.
  rewrite seq_app, sumR_app. cbn [Nat.add]. rewrite (sumR_zero _ (seq n _)); [unfold tterm; lra|].
  intros i Hi. apply H2 in Hi. apply Z.eqb_eq in Hi. unfold cell at 1, dec. fold (getd tab 0 i k). rewrite Hi. ring.
Qed.

Lemma cell_R : forall tab q j k, Rlit (fst (getd tab q j k)) (snd (getd tab q j k)) = cell tab q j k.
Proof. intros. unfold cell. rewrite <- rl_dec. reflexivity. Qed.

Lemma f0_sum : forall tab k t n s, zero_tail tab n k = true ->
  fst (fold_left (f0 realA tab k t) (seq 0 n) s) = fst s + trig tab k t.
Proof.
  intros tab k t n s H. rewrite <- (sum_tail _ _ _ _ H). apply (fold_sum (R * R) fst).
  intros s' j _. unfold f0, tterm. cbn [fst]. realA_ops. rewrite !cell_R. reflexivity.
Qed.
Lemma f1_sum : forall tab k t n s, zero_tail tab n k = true ->
  fst (fold_left (f1 realA tab k t) (seq 0 n) s) = fst s + t * trig tab k t.
Proof.
  intros tab k t n s H. rewrite <- (sum_tail _ _ _ _ H), <- sumR_scal. apply (fold_sum (R * R) fst).
  intros s' j _. unfold f1, tterm. cbn [fst]. realA_ops. rewrite !cell_R. ring.
Qed.
Lemma f2_sum : forall tab k t n s, zero_tail tab n k = true ->
  fst (fold_left (f2 realA tab k t (t * t)) (seq 0 n) s) = fst s + t ^ 2 * trig tab k t.
Proof.
  intros tab k t n s H. rewrite <- (sum_tail _ _ _ _ H), <- sumR_scal. apply (fold_sum (R * R) fst).
  intros s' j _. unfold f2, tterm. cbn [fst]. realA_ops. rewrite !cell_R. ring.
Qed.

Lemma zero_tails : forallb (fun k => zero_tail E0 (nn NE0 k) k && zero_tail E1 (nn NE1 k) k && zero_tail E2 (nn NE2 k) k &&
  zero_tail S0 (nn NS0 k) k && zero_tail S1 (nn NS1 k) k && zero_tail S2 (nn NS2 k) k) [0; 1; 2]%nat = true.
Proof. vm_compute. reflexivity. Qed.

Lemma helio_closed : forall k t, (k < 3)%nat ->
  fst (helio_st realA k t) = helio_ecl k t /\ fst (bary_st realA k t) = bary_ecl k t.
Proof.
  intros k t Hk. pose proof zero_tails as H. rewrite forallb_forall in H.
  assert (Hin : In k [0; 1; 2]%nat) by (destruct k as [|[|[|k]]]; cbn; auto; lia).
  specialize (H k Hin). rewrite !andb_true_iff in H. destruct H as [[[[[H1 H2] H3] H4] H5] H6].
  assert (E : fst (helio_st realA k t) = helio_ecl k t).
  { unfold helio_st, helio_ecl. change (mul realA t t) with (t * t).
    rewrite f2_sum, f1_sum, f0_sum by assumption. cbn [fst]. change (lit realA 0 0) with (Rlit 0 0). rewrite (Rlit_0 0).
    change (num realA) with R. ring. }
  split; [exact E|]. unfold bary_st, bary_ecl, sun_ecl. change (mul realA t t) with (t * t).
  rewrite f2_sum, f1_sum, f0_sum by assumption. rewrite E. change (num realA) with R. ring.
Qed.

(** ** Reduction modulo a turn does not matter inside sin and cos *)

Lemma same_refl : forall x, same_angle x x.
Proof. intros x. exists 0%Z. ring. Qed.
Lemma same_rem : forall x, same_angle (Rrem x (2 * PI)) x.
Proof. intros x. exists (- Ztrunc (x / (2 * PI)))%Z. unfold Rrem. rewrite opp_IZR. ring. Qed.
Lemma same_trans : forall x y z, same_angle x y -> same_angle y z -> same_angle x z.
Proof. intros x y z [j E] [k F]. exists (j + k)%Z. rewrite plus_IZR. lra. Qed.
Lemma same_plus : forall x y x' y', same_angle x y -> same_angle x' y' -> same_angle (x + x') (y + y').
Proof. intros x y x' y' [j E] [k F]. exists (j + k)%Z. rewrite plus_IZR. lra. Qed.
Lemma same_scal : forall n x y, same_angle x y -> same_angle (IZR n * x) (IZR n * y).
Proof. intros n x y [j E]. exists (n * j)%Z. rewrite mult_IZR, E. ring. Qed.
Lemma same_turnas : forall x, same_angle (Rrem x 1296000 * (PI / 648000)) (arcsec x).
Proof. intros x. exists (- Ztrunc (x / 1296000))%Z. unfold Rrem, arcsec. rewrite opp_IZR. field. Qed.

Lemma cos_turns : forall x k, cos (x + IZR k * (2 * PI)) = cos x /\ sin (x + IZR k * (2 * PI)) = sin x.
Proof.
  intros x k. replace (IZR k * (2 * PI)) with (2 * IZR k * PI) by ring. destruct (Z_le_gt_dec 0 k) as [H|H].
  - rewrite <- (Z2Nat.id k H), <- INR_IZR_INZ. split; [apply cos_period|apply sin_period].
  - set (n := Z.to_nat (- k)). assert (E : IZR k = - INR n) by (unfold n; rewrite INR_IZR_INZ, Z2Nat.id, opp_IZR by lia; ring).
    rewrite E. pose proof (cos_period (x + 2 * - INR n * PI) n) as C. pose proof (sin_period (x + 2 * - INR n * PI) n) as S.
    replace (x + 2 * - INR n * PI + 2 * INR n * PI) with x in * by ring. split; congruence.
Qed.
Lemma same_trig : forall x y, same_angle x y -> cos x = cos y /\ sin x = sin y.
Proof. intros x y [k ->]. apply cos_turns. Qed.

(** ** Nutation *)

Lemma turnas_R : TURNAS (A := realA) = 1296000.
Proof. unfold TURNAS. realA_ops. apply Rlit_0. Qed.

Lemma nut_el_same : forall t, same_angle (nut_el (A := realA) t) (nth 0 (nut_angles t) 0).
Proof.
  intros t. unfold nut_el, nut_angles. rewrite turnas_R. realA_ops. cbn [nth]. eapply same_trans; [apply same_turnas|].
  match goal with |- same_angle (arcsec ?a) (arcsec ?b) => replace a with b; [apply same_refl|] end.
  unfold Rlit. change (Z.pow_pos 10 6) with 1000000%Z. change (Z.pow_pos 10 4) with 10000%Z. lra.
Qed.
Lemma nut_elp_same : forall t, same_angle (nut_elp (A := realA) t) (nth 1 (nut_angles t) 0).
Proof.
  intros t. unfold nut_elp, nut_angles. rewrite turnas_R. realA_ops. cbn [nth]. eapply same_trans; [apply same_turnas|].
  match goal with |- same_angle (arcsec ?a) (arcsec ?b) => replace a with b; [apply same_refl|] end.
  unfold Rlit. change (Z.pow_pos 10 5) with 100000%Z. change (Z.pow_pos 10 4) with 10000%Z. lra.
Qed.
Lemma nut_f_same : forall t, same_angle (nut_f (A := realA) t) (nth 2 (nut_angles t) 0).
Proof.
  intros t. unfold nut_f, nut_angles. rewrite turnas_R. realA_ops. cbn [nth]. eapply same_trans; [apply same_turnas|].
  match goal with |- same_angle (arcsec ?a) (arcsec ?b) => replace a with b; [apply same_refl|] end.
  unfold Rlit. change (Z.pow_pos 10 6) with 1000000%Z. change (Z.pow_pos 10 4) with 10000%Z. lra.
Qed.
Lemma nut_d_same : forall t, same_angle (nut_d (A := realA) t) (nth 3 (nut_angles t) 0).
Proof.
  intros t. unfold nut_d, nut_angles. rewrite turnas_R. realA_ops. cbn [nth]. eapply same_trans; [apply same_turnas|].
  match goal with |- same_angle (arcsec ?a) (arcsec ?b) => replace a with b; [apply same_refl|] end.
  unfold Rlit. change (Z.pow_pos 10 5) with 100000%Z. change (Z.pow_pos 10 4) with 10000%Z. lra.
Qed.
Lemma nut_om_same : forall t, same_angle (nut_om (A := realA) t) (nth 4 (nut_angles t) 0).
Proof.
  intros t. unfold nut_om, nut_angles. rewrite turnas_R. realA_ops. cbn [nth]. eapply same_trans; [apply same_turnas|].
  match goal with |- same_angle (arcsec ?a) (arcsec ?b) => replace a with b; [apply same_refl|] end.
  unfold Rlit. change (Z.pow_pos 10 6) with 1000000%Z. change (Z.pow_pos 10 4) with 10000%Z. lra.
Qed.

Lemma combo_5 : forall row t, length row = 5%nat ->
  combo row (nut_angles t) = IZR (nth 0 row 0%Z) * nth 0 (nut_angles t) 0 + IZR (nth 1 row 0%Z) * nth 1 (nut_angles t) 0 +
   IZR (nth 2 row 0%Z) * nth 2 (nut_angles t) 0 + IZR (nth 3 row 0%Z) * nth 3 (nut_angles t) 0 + IZR (nth 4 row 0%Z) * nth 4 (nut_angles t) 0.
Proof.
  intros row t H. destruct row as [|a [|b [|c [|d [|e [|f row]]]]]]; try discriminate.
  unfold nut_angles. cbn [combo nth]. ring.
Qed.

Lemma nut_arg_same : forall i t, (i < 77)%nat -> same_angle (nut_arg realA i t) (combo (nth i NALS []) (nut_angles t)).
Proof.
  intros i t Hi. destruct nut_shape as [[L1 _] [S1 _]]. rewrite forallb_forall in S1.
  rewrite combo_5 by (apply Nat.eqb_eq, S1, nth_In; lia).
  unfold nut_arg. realA_ops. eapply same_trans; [apply same_rem|].
  repeat apply same_plus; apply same_scal;
    [apply nut_el_same|apply nut_elp_same|apply nut_f_same|apply nut_d_same|apply nut_om_same].
Qed.

Lemma nut_coef_R : forall i q, cls realA i q = nut_coef i q.
Proof. intros. rewrite cls_R. apply rl_dec. Qed.

Lemma nutation_closed : forall d, nutation (A := realA) d = Val (nut_dpsi (centuries d), nut_deps (centuries d)).
Proof.
  intros d. rewrite nutation_val, centuries_R. set (t := centuries d). f_equal. unfold nut_sum.
  assert (S0 : Rlit 0 0 = 0) by apply Rlit_0.
  assert (E1 : fst (fold_left (nut_step realA t) (rev (seq 0 77)) (lit realA 0 0, lit realA 0 0)) =
    sumn 77 (fun i => let a := combo (nth i NALS []) (nut_angles t) in (nut_coef i 0 + nut_coef i 1 * t) * sin a + nut_coef i 2 * cos a)).
  { rewrite (fold_sum (R * R) fst (nut_step realA t) (fun i => let a := combo (nth i NALS []) (nut_angles t) in (nut_coef i 0 + nut_coef i 1 * t) * sin a + nut_coef i 2 * cos a)).
    - cbn [fst]. change (lit realA 0 0) with (Rlit 0 0). rewrite S0, sumR_rev, sumR_seq. change (num realA) with R. ring.
    - intros s i Hi. apply in_rev in Hi. apply in_seq in Hi. unfold nut_step. cbn [fst]. realA_ops.
      destruct (same_trig _ _ (nut_arg_same i t ltac:(lia))) as [-> ->]. rewrite !nut_coef_R. reflexivity. }
  assert (E2 : snd (fold_left (nut_step realA t) (rev (seq 0 77)) (lit realA 0 0, lit realA 0 0)) =
    sumn 77 (fun i => let a := combo (nth i NALS []) (nut_angles t) in (nut_coef i 3 + nut_coef i 4 * t) * cos a + nut_coef i 5 * sin a)).
  { rewrite (fold_sum (R * R) snd (nut_step realA t) (fun i => let a := combo (nth i NALS []) (nut_angles t) in (nut_coef i 3 + nut_coef i 4 * t) * cos a + nut_coef i 5 * sin a)).
    - cbn [snd]. change (lit realA 0 0) with (Rlit 0 0). rewrite S0, sumR_rev, sumR_seq. change (num realA) with R. ring.
    - intros s i Hi. apply in_rev in Hi. apply in_seq in Hi. unfold nut_step. cbn [snd]. realA_ops.
      destruct (same_trig _ _ (nut_arg_same i t ltac:(lia))) as [-> ->]. rewrite !nut_coef_R. reflexivity. }
  rewrite E1, E2. unfold nut_dpsi, nut_deps. change (length NALS) with 77%nat.
  set (A1 := sumn 77 _). set (A2 := sumn 77 _). clearbody A1 A2.
  unfold U2R, DPPLAN, DEPLAN, MAS2R, arcsec. realA_ops. unfold Rlit.
  change (Z.pow_pos 10 3) with 1000%Z. change (10 ^ 7)%Z with 10000000%Z. change (10 ^ 3)%Z with 1000%Z. rewrite !Z.mul_1_l.
  f_equal; lra.
Qed.

(** ** CIO locator *)

Lemma fund_same : forall c p x, c + p = x -> same_angle ((c + Rrem p 1296000) * (PI / 648000)) (arcsec x).
Proof.
  intros c p x <-. exists (- Ztrunc (p / 1296000))%Z. unfold Rrem, arcsec. rewrite opp_IZR. field.
Qed.

Ltac fund :=
  let t := fresh "t" in intros t; unfold l03, lp03, f03, d03, om03; rewrite turnas_R; realA_ops;
  apply fund_same; unfold Rlit;
  change (Z.pow_pos 10 6) with 1000000%Z; change (Z.pow_pos 10 4) with 10000%Z; change (Z.pow_pos 10 8) with 100000000%Z; lra.

Lemma l03_same : forall t, same_angle (l03 (A := realA) t) (iers_l t).
Proof. fund. Qed.
Lemma lp03_same : forall t, same_angle (lp03 (A := realA) t) (iers_lp t).
Proof. fund. Qed.
Lemma f03_same : forall t, same_angle (f03 (A := realA) t) (iers_f t).
Proof. fund. Qed.
Lemma d03_same : forall t, same_angle (d03 (A := realA) t) (iers_d t).
Proof. fund. Qed.
Lemma om03_same : forall t, same_angle (om03 (A := realA) t) (iers_om t).
Proof. fund. Qed.
Lemma ve03_same : forall t, same_angle (ve03 (A := realA) t) (iers_ve t).
Proof.
  intros t. unfold ve03. realA_ops. eapply same_trans; [apply same_rem|]. unfold iers_ve, Rlit.
  change (Z.pow_pos 10 9) with 1000000000%Z. change (Z.pow_pos 10 10) with 10000000000%Z.
  match goal with |- same_angle ?a ?b => replace a with b by lra end. apply same_refl.
Qed.
Lemma e03_same : forall t, same_angle (e03 (A := realA) t) (iers_e t).
Proof.
  intros t. unfold e03. realA_ops. eapply same_trans; [apply same_rem|]. unfold iers_e, Rlit.
  change (Z.pow_pos 10 9) with 1000000000%Z. change (Z.pow_pos 10 10) with 10000000000%Z.
  match goal with |- same_angle ?a ?b => replace a with b by lra end. apply same_refl.
Qed.
Lemma pa03_R : forall t, pa03 (A := realA) t = iers_pa t.
Proof.
  intros t. unfold pa03. realA_ops. unfold iers_pa, Rlit.
  change (Z.pow_pos 10 9) with 1000000000%Z. change (Z.pow_pos 10 11) with 100000000000%Z. lra.
Qed.

Lemma cioarg_same : forall row t, length row = 8%nat ->
  same_angle (cioarg_val realA row (cio_args (A := realA) t)) (combo row (cio_angles t)).
Proof.
  intros row t H. destruct row as [|n0 [|n1 [|n2 [|n3 [|n4 [|n5 [|n6 [|n7 [|n8 row]]]]]]]]]; try discriminate.
  unfold cioarg_val, cio_args, cio_angles. cbn [seq fold_left nth combo]. realA_ops. rewrite (Rlit_0 0).
  replace (IZR n0 * iers_l t + (IZR n1 * iers_lp t + (IZR n2 * iers_f t + (IZR n3 * iers_d t + (IZR n4 * iers_om t +
    (IZR n5 * iers_ve t + (IZR n6 * iers_e t + (IZR n7 * iers_pa t + 0))))))))
  with (0 + IZR n0 * iers_l t + IZR n1 * iers_lp t + IZR n2 * iers_f t + IZR n3 * iers_d t + IZR n4 * iers_om t +
    IZR n5 * iers_ve t + IZR n6 * iers_e t + IZR n7 * iers_pa t) by ring.
  rewrite pa03_R.
  repeat apply same_plus; try apply same_scal; try apply same_refl;
   [apply l03_same|apply lp03_same|apply f03_same|apply d03_same|apply om03_same|apply ve03_same|apply e03_same].
Qed.

Lemma sss_R : forall k i q, sss realA k i q = cio_coef k i q.
Proof. intros. unfold sss, cio_coef. rewrite <- rl_dec. reflexivity. Qed.
Lemma spv_R : forall k, spv realA k = dec (nth k SP (0, 0)%Z).
Proof. intros. unfold spv. rewrite <- rl_dec. reflexivity. Qed.

Lemma cio_sum_closed : forall k t, (k < 5)%nat ->
  cio_sum realA k (cio_args (A := realA) t) (spv realA k) = cio_order k t.
Proof.
  intros k t Hk. unfold cio_sum, cio_order. rewrite spv_R.
  pose proof cio_shape as H. rewrite forallb_forall in H.
  assert (Hin : In k [0; 1; 2; 3; 4]%nat) by (destruct k as [|[|[|[|[|k]]]]]; cbn; auto; lia).
  specialize (H k Hin). rewrite !andb_true_iff in H. destruct H as [[_ H2] _]. rewrite forallb_forall in H2.
  set (B := fun i => let a := combo (nth i (nth k KSS []) []) (cio_angles t) in cio_coef k i 0 * sin a + cio_coef k i 1 * cos a).
  rewrite (fold_sum R (fun x => x) _ B); [rewrite sumR_rev, sumR_seq; reflexivity|].
  intros s i Hi. apply in_rev in Hi. apply in_seq in Hi. unfold cio_step, B. cbv zeta. realA_ops.
  assert (R8 : length (nth i (nth k KSS []) []) = 8%nat) by (apply Nat.eqb_eq, H2, nth_In; lia).
  destruct (same_trig _ _ (cioarg_same _ t R8)) as [-> ->]. rewrite !sss_R. reflexivity.
Qed.

Lemma cio_closed : forall d x y, cio (A := realA) d x y = Val (cio_sxy2 (centuries d) - x * y / 2).
Proof.
  intros d x y. rewrite cio_val, centuries_R. set (t := centuries d). f_equal. unfold cio_poly.
  rewrite !cio_sum_closed by lia. rewrite spv_R. unfold cio_sxy2, arcsec. cbn [sumn].
  assert (E5 : cio_order 5 t = dec (nth 5 SP (0, 0)%Z)) by (unfold cio_order; cbn [KSS nth length sumn]; ring).
  rewrite E5. realA_ops. rewrite (Rlit_0 2).
  generalize (cio_order 0 t) (cio_order 1 t) (cio_order 2 t) (cio_order 3 t) (cio_order 4 t) (dec (nth 5 SP (0, 0)%Z)).
  intros. field.
Qed.
