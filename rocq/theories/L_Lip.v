(** * How fast the frames move: Lipschitz bounds per Julian century *)

From Coq Require Import ZArith Reals Lra Lia Bool List Psatz.
From Flocq Require Import Core.
From Verif Require Import Outcome Arith ArithR M_Common M_Time M_Frames M_Locator T_Nut T_Cio Spec_Matrix Spec_Frames Spec_Series Spec_C2t.
From Verif Require Import L_ArithR L_Series L_SeriesR L_Matrix L_PMatrix L_Frames L_Near L_Pi L_Fro L_Closed L_PFrames L_PSeries L_Orbit L_POrbit L_PPole L_CioLow L_Almanac.
From Verif Require L_Epv L_ApxC2i.
Import ListNotations.
Open Scope R_scope.

Definition lip (f : R -> R) (c : R) : Prop := forall s t, Rabs s <= 1 -> Rabs t <= 1 -> Rabs (f s - f t) <= c * Rabs (s - t).

Lemma lip_ext : forall f g c, (forall t, f t = g t) -> lip f c -> lip g c.
Proof. intros f g c E H s t Hs Ht. rewrite <- !E. apply H; assumption. Qed.
Lemma lip_le : forall f c c', lip f c -> c <= c' -> lip f c'.
Proof. intros f c c' H L s t Hs Ht. eapply Rle_trans; [apply H; assumption|]. apply Rmult_le_compat_r; [apply Rabs_pos|exact L]. Qed.
Lemma lip_const : forall a, lip (fun _ => a) 0.
Proof. intros a s t _ _. rewrite Rminus_diag_eq by reflexivity. rewrite Rabs_R0. lra. Qed.
Lemma lip_id : lip (fun t => t) 1.
Proof. intros s t _ _. lra. Qed.
Lemma lip_plus : forall f g a b, lip f a -> lip g b -> lip (fun t => f t + g t) (a + b).
Proof.
  intros f g a b F G s t Hs Ht. specialize (F s t Hs Ht). specialize (G s t Hs Ht).
  replace (f s + g s - (f t + g t)) with ((f s - f t) + (g s - g t)) by ring. eapply Rle_trans; [apply Rabs_triang|]. lra.
Qed.
Lemma lip_scal : forall k f a, lip f a -> lip (fun t => k * f t) (Rabs k * a).
Proof.
  intros k f a F s t Hs Ht. replace (k * f s - k * f t) with (k * (f s - f t)) by ring. rewrite Rabs_mult, Rmult_assoc.
  apply Rmult_le_compat_l; [apply Rabs_pos|apply F; assumption].
Qed.
Lemma lip_opp : forall f a, lip f a -> lip (fun t => - f t) a.
Proof. intros f a F s t Hs Ht. replace (- f s - - f t) with (- (f s - f t)) by ring. rewrite Rabs_Ropp. apply F; assumption. Qed.
Lemma lip_mul : forall f g a b A B, lip f a -> lip g b -> (forall t, Rabs t <= 1 -> Rabs (f t) <= A) -> (forall t, Rabs t <= 1 -> Rabs (g t) <= B) ->
  lip (fun t => f t * g t) (A * b + B * a).
Proof.
  intros f g a b A B F G BA BB s t Hs Ht. specialize (F s t Hs Ht). specialize (G s t Hs Ht).
  replace (f s * g s - f t * g t) with (f s * (g s - g t) + g t * (f s - f t)) by ring. eapply Rle_trans; [apply Rabs_triang|].
  pose proof (mulb _ _ _ _ (BA s Hs) G) as M1. pose proof (mulb _ _ _ _ (BB t Ht) F) as M2. lra.
Qed.
Lemma pow_abs1 : forall n t, Rabs t <= 1 -> Rabs (t ^ n) <= 1.
Proof.
  intros n t H. induction n as [|n IH]; [cbn; rewrite Rabs_R1; lra|]. cbn [pow]. pose proof (mulb _ _ _ _ H IH). lra.
Qed.
Lemma lip_pow : forall n, lip (fun t => t ^ n) (INR n).
Proof.
  induction n as [|n IH]; [apply (lip_const 1)|]. rewrite S_INR. eapply lip_le; [apply (lip_ext (fun t => t * t ^ n)); [reflexivity|]; apply (lip_mul _ _ _ _ 1 1 lip_id IH)|].
  - intros; assumption.
  - intros; apply pow_abs1; assumption.
  - lra.
Qed.
Lemma lip_sin : forall f a, lip f a -> lip (fun t => sin (f t)) a.
Proof. intros f a F s t Hs Ht. eapply Rle_trans; [apply L_Epv.sin_lip|apply F; assumption]. Qed.
Lemma lip_cos : forall f a, lip f a -> lip (fun t => cos (f t)) a.
Proof. intros f a F s t Hs Ht. eapply Rle_trans; [apply cos_lip|apply F; assumption]. Qed.
Lemma lip_arcsec : forall f a, lip f a -> lip (fun t => arcsec (f t)) (arcsec a).
Proof.
  intros f a F s t Hs Ht. eapply Rle_trans; [apply arcsec_near, F; assumption|]. unfold arcsec. right. ring.
Qed.
Lemma lip_sumR : forall (f : nat -> R -> R) (c : nat -> R) l, (forall i, In i l -> lip (f i) (c i)) -> lip (fun t => sumR (fun i => f i t) l) (sumR c l).
Proof.
  intros f c l H. induction l as [|i l IH]; [apply (lip_const 0)|]. cbn [sumR fold_right]. apply lip_plus; [apply H; left; reflexivity|].
  apply IH. intros j Hj. apply H. right. exact Hj.
Qed.
Lemma lip_poly : forall a b c d e, lip (fun t => a + b * t + c * t ^ 2 + d * t ^ 3 + e * t ^ 4) (Rabs b + 2 * Rabs c + 3 * Rabs d + 4 * Rabs e).
Proof.
  intros. eapply lip_le.
  - apply lip_plus; [apply lip_plus; [apply lip_plus; [apply lip_plus|]|]|]; [apply lip_const|apply lip_scal, lip_id|apply lip_scal, lip_pow|apply lip_scal, lip_pow|apply lip_scal, lip_pow].
  - cbn [INR]. lra.
Qed.

(** ** Arguments of the series *)

Definition sumabs (row : list Z) : Z := fold_right (fun n s => (Z.abs n + s)%Z) 0%Z row.
Lemma sumabs_nonneg : forall row, (0 <= sumabs row)%Z.
Proof. induction row as [|n row IH]; cbn [sumabs fold_right]; [lia|]. unfold sumabs in IH. lia. Qed.
Lemma lip_combo : forall (g : list (R -> R)) r, 0 <= r -> (forall f, In f g -> lip f r) -> forall row, lip (fun t => combo row (map (fun f => f t) g)) (IZR (sumabs row) * r).
Proof.
  intros g r Hr. induction g as [|f g IH]; intros H row.
  - destruct row; cbn [map combo]; (eapply lip_le; [apply lip_const|apply Rmult_le_pos; [apply IZR_le, sumabs_nonneg|exact Hr]]).
  - destruct row as [|n row]; cbn [map combo]; [cbn [sumabs fold_right]; eapply lip_le; [apply lip_const|lra]|].
    cbn [sumabs fold_right]. eapply lip_le; [apply lip_plus; [apply lip_scal, (H f (or_introl eq_refl))|apply (IH (fun f' I => H f' (or_intror I)) row)]|].
    rewrite plus_IZR, abs_IZR. fold (sumabs row). lra.
Qed.

Definition delaunay : list (R -> R) := [fun t => nth 0 (nut_angles t) 0; fun t => nth 1 (nut_angles t) 0; fun t => nth 2 (nut_angles t) 0; fun t => nth 3 (nut_angles t) 0; fun t => nth 4 (nut_angles t) 0].
Lemma arcsec_num : forall x y, x * 0.0000048482 <= y -> 0 <= x -> arcsec x <= y.
Proof. intros x y H P. unfold arcsec. pose proof PI_bounds as B. assert (x * (PI / 648000) <= x * 0.0000048482) by (apply Rmult_le_compat_l; lra). lra. Qed.

Ltac abs_num := repeat match goal with
  | |- context[Rabs ?x] => first [rewrite (Rabs_pos_eq x) by lra | rewrite (Rabs_left1 x) by lra]
  end.
Ltac poly_lip a b c d e := eapply lip_le; [apply (lip_ext (fun t => arcsec (a + b * t + c * t ^ 2 + d * t ^ 3 + e * t ^ 4))); [intros; unfold arcsec; first [ring | lra]|apply lip_arcsec, lip_poly]|
  abs_num; apply arcsec_num; lra].
Lemma delaunay_lip : forall f, In f delaunay -> lip f 8435.
Proof.
  intros f H. unfold delaunay, nut_angles in H. cbn [nth] in H. destruct H as [<-|[<-|[<-|[<-|[<-|[]]]]]].
  - poly_lip 485868.249036 1717915923.2178 0 0 0.
  - poly_lip 1287104.79305 129596581.0481 0 0 0.
  - poly_lip 335779.526232 1739527262.8478 0 0 0.
  - poly_lip 1072260.70369 1602961601.2090 0 0 0.
  - poly_lip 450160.398036 (- 6962890.5431) 0 0 0.
Qed.
Definition cioargs : list (R -> R) := [iers_l; iers_lp; iers_f; iers_d; iers_om; iers_ve; iers_e; iers_pa].
Lemma cioargs_lip : forall f, In f cioargs -> lip f 8435.
Proof.
  intros f H. unfold cioargs in H. destruct H as [<-|[<-|[<-|[<-|[<-|[<-|[<-|[<-|[]]]]]]]]].
  - unfold iers_l. poly_lip 485868.249036 1717915923.2178 31.8792 0.051635 (- 0.00024470).
  - unfold iers_lp. poly_lip 1287104.793048 129596581.0481 (- 0.5532) 0.000136 (- 0.00001149).
  - unfold iers_f. poly_lip 335779.526232 1739527262.8478 (- 12.7512) (- 0.001037) 0.00000417.
  - unfold iers_d. poly_lip 1072260.703692 1602961601.2090 (- 6.3706) 0.006593 (- 0.00003169).
  - unfold iers_om. poly_lip 450160.398036 (- 6962890.5431) 7.4722 0.007702 (- 0.00005939).
  - unfold iers_ve. eapply lip_le; [apply lip_plus; [apply lip_const|apply lip_scal, lip_id]|]. abs_num. lra.
  - unfold iers_e. eapply lip_le; [apply lip_plus; [apply lip_const|apply lip_scal, lip_id]|]. abs_num. lra.
  - unfold iers_pa. eapply lip_le; [apply lip_plus; [apply lip_scal, lip_id|apply lip_scal, lip_pow]|]. abs_num. cbn [INR]. lra.
Qed.

Lemma rows_nut : forall i, (sumabs (nth i NALS []) <= 9)%Z.
Proof.
  assert (H : forallb (fun r => (sumabs r <=? 9)%Z) NALS = true) by (vm_compute; reflexivity). rewrite forallb_forall in H.
  intros i. destruct (Nat.lt_ge_cases i (length NALS)) as [L|L]; [apply Z.leb_le, H, nth_In, L|]. rewrite nth_overflow by exact L. cbn. lia.
Qed.
Lemma rows_cio : forall k i, (sumabs (nth i (nth k KSS []) []) <= 23)%Z.
Proof.
  assert (H : forallb (fun l => forallb (fun r => (sumabs r <=? 23)%Z) l) KSS = true) by (vm_compute; reflexivity). rewrite forallb_forall in H.
  intros k i. destruct (Nat.lt_ge_cases k (length KSS)) as [K|K].
  - specialize (H _ (nth_In KSS [] K)). rewrite forallb_forall in H.
    destruct (Nat.lt_ge_cases i (length (nth k KSS []))) as [L|L]; [apply Z.leb_le, H, nth_In, L|]. rewrite nth_overflow by exact L. cbn. lia.
  - rewrite (nth_overflow KSS) by exact K. destruct i; cbn; lia.
Qed.
Lemma nut_arg_lip : forall i, lip (fun t => combo (nth i NALS []) (nut_angles t)) 75915.
Proof.
  intros i. eapply lip_le; [apply (lip_combo delaunay 8435 ltac:(lra) delaunay_lip (nth i NALS []))|].
  pose proof (rows_nut i) as H. apply IZR_le in H. lra.
Qed.
Lemma cio_arg_lip : forall k i, lip (fun t => combo (nth i (nth k KSS []) []) (cio_angles t)) 194005.
Proof.
  intros k i. eapply lip_le; [apply (lip_combo cioargs 8435 ltac:(lra) cioargs_lip (nth i (nth k KSS []) []))|].
  pose proof (rows_cio k i) as H. apply IZR_le in H. lra.
Qed.

(** ** Nutation and the locator *)

Definition ncls (q : nat) : R := sumR (fun i => Rabs (nut_coef i q)) (seq 0 77).
Lemma ncls_values : ncls 0 <= 194500000 /\ ncls 1 <= 190000 /\ ncls 2 <= 80000 /\ ncls 3 <= 100900000 /\ ncls 4 <= 20000 /\ ncls 5 <= 40000.
Proof.
  assert (E : forall q, ncls q = sumR (fun i => Rabs (rl (clsd i q))) (seq 0 77)) by (intros; unfold ncls, nut_coef, clsd; apply sumR_ext; intros; rewrite rl_dec; reflexivity).
  rewrite !E. repeat split;
  (rewrite (sumR_abs_lit 0) by (try lia; vm_compute; reflexivity));
  match goal with |- context[IZR ?z / _] => let v := eval vm_compute in z in replace z with v by (vm_compute; reflexivity) end;
  change (10 ^ 0)%Z with 1%Z; lra.
Qed.

Lemma nut_sum_lip : forall (p q r : nat) (f g : R -> R), (forall h a, lip h a -> lip (fun t => f (h t)) a) -> (forall h a, lip h a -> lip (fun t => g (h t)) a) ->
  (forall x, Rabs (f x) <= 1) -> (forall x, Rabs (g x) <= 1) ->
  lip (fun t => sumn (length NALS) (fun i => (nut_coef i p + nut_coef i q * t) * f (combo (nth i NALS []) (nut_angles t)) + nut_coef i r * g (combo (nth i NALS []) (nut_angles t))))
    (75915 * ncls p + 75916 * ncls q + 75915 * ncls r).
Proof.
  intros p q r f g Lf Lg Bf Bg. change (length NALS) with 77%nat.
  apply (lip_ext (fun t => sumR (fun i => (nut_coef i p + nut_coef i q * t) * f (combo (nth i NALS []) (nut_angles t)) + nut_coef i r * g (combo (nth i NALS []) (nut_angles t))) (seq 0 77))).
  { intros t. rewrite sumn_sumR. reflexivity. }
  unfold ncls. rewrite <- !sumR_scal, <- !sumR_plus. apply lip_sumR. intros i _. cbv beta.
  apply lip_le with ((Rabs (nut_coef i p) + Rabs (nut_coef i q)) * 75915 + 1 * (0 + Rabs (nut_coef i q) * 1) + Rabs (nut_coef i r) * 75915); [|lra].
  apply lip_plus; [|apply lip_scal, Lg, nut_arg_lip].
  apply lip_mul; [apply lip_plus; [apply lip_const|apply lip_scal, lip_id]|apply Lf, nut_arg_lip| |intros; apply Bf].
  intros t Ht. eapply Rle_trans; [apply Rabs_triang|]. rewrite Rabs_mult. pose proof (Rabs_pos (nut_coef i q)). nra.
Qed.

Lemma dpsi_lip : lip nut_dpsi 7.2.
Proof.
  destruct ncls_values as (V0 & V1 & V2 & _). unfold nut_dpsi. cbv zeta.
  eapply lip_le; [apply lip_arcsec, lip_plus; [|apply lip_const]; eapply lip_ext; [|apply (lip_scal (/ 10000000)), (nut_sum_lip 0 1 2 sin cos lip_sin lip_cos sin_abs cos_abs)]; intros t; cbv beta; unfold Rdiv; apply Rmult_comm|].
  rewrite (Rabs_pos_eq (/ 10000000)) by lra. assert (0 <= ncls 0 /\ 0 <= ncls 1 /\ 0 <= ncls 2) as (P0 & P1 & P2).
  { repeat split; unfold ncls; generalize (seq 0 77); intros l; (induction l as [|j l IH]; cbn [sumR fold_right]; [lra|]); match goal with |- 0 <= Rabs ?x + _ => pose proof (Rabs_pos x) end; unfold sumR in IH; lra. }
  apply arcsec_num; lra.
Qed.
Lemma deps_lip : lip nut_deps 3.8.
Proof.
  destruct ncls_values as (_ & _ & _ & V0 & V1 & V2). unfold nut_deps. cbv zeta.
  eapply lip_le; [apply lip_arcsec, lip_plus; [|apply lip_const]; eapply lip_ext; [|apply (lip_scal (/ 10000000)), (nut_sum_lip 3 4 5 cos sin lip_cos lip_sin cos_abs sin_abs)]; intros t; cbv beta; unfold Rdiv; apply Rmult_comm|].
  rewrite (Rabs_pos_eq (/ 10000000)) by lra. assert (0 <= ncls 3 /\ 0 <= ncls 4 /\ 0 <= ncls 5) as (P0 & P1 & P2).
  { repeat split; unfold ncls; generalize (seq 0 77); intros l; (induction l as [|j l IH]; cbn [sumR fold_right]; [lra|]); match goal with |- 0 <= Rabs ?x + _ => pose proof (Rabs_pos x) end; unfold sumR in IH; lra. }
  apply arcsec_num; lra.
Qed.

Lemma order_lip : forall k n, length (nth k KSS []) = n -> lip (cio_order k) (194005 * camp k 0 n) /\ (forall t, Rabs (cio_order k t) <= Rabs (dec (nth k SP (0, 0)%Z)) + camp k 0 n).
Proof.
  intros k n Hn. unfold cio_order. rewrite Hn. cbv zeta. split.
  - eapply lip_le; [apply lip_plus; [apply lip_const|]|rewrite Rplus_0_l; apply Rle_refl].
    apply (lip_ext (fun t => sumR (fun i => cio_coef k i 0 * sin (combo (nth i (nth k KSS []) []) (cio_angles t)) + cio_coef k i 1 * cos (combo (nth i (nth k KSS []) []) (cio_angles t))) (seq 0 n))).
    { intros t. rewrite sumn_sumR. reflexivity. }
    unfold camp. rewrite Rmult_plus_distr_l, <- !sumR_scal, <- sumR_plus. apply lip_sumR. intros i _. cbv beta.
    unfold cd. rewrite !rl_dec. fold (cio_coef k i 0). fold (cio_coef k i 1).
    eapply lip_le; [apply lip_plus; [apply lip_scal, lip_sin, cio_arg_lip|apply lip_scal, lip_cos, cio_arg_lip]|]. lra.
  - intros t. eapply Rle_trans; [apply Rabs_triang|]. apply Rplus_le_compat_l. rewrite sumn_sumR. apply (camp_bound k 0 n (fun i => combo (nth i (nth k KSS []) []) (cio_angles t))).
Qed.
Lemma camp_all : camp 0 0 33 <= 0.0028 /\ camp 1 0 3 <= 0.000006 /\ camp 2 0 25 <= 0.00084 /\ camp 3 0 4 <= 0.000026 /\ camp 4 0 1 <= 0.000001 /\ camp 5 0 0 <= 0.
Proof. split; [camp_val|]. destruct camp_values as (_ & V1 & V2 & V3 & V4). repeat split; try assumption. unfold camp. cbn. lra. Qed.

Lemma sxy2_lip : lip cio_sxy2 0.01.
Proof.
  destruct camp_all as (V0 & V1 & V2 & V3 & V4 & V5).
  assert (S : forall k b c, Rabs (dec (nth k SP (0, 0)%Z)) <= b -> camp k 0 (length (nth k KSS [])) <= c -> lip (fun t => cio_order k t * t ^ k) (INR k * (b + c) + 194005 * c)).
  { intros k b c Hb Hc. destruct (order_lip k _ eq_refl) as [L B]. eapply lip_le; [apply (lip_mul _ _ _ _ (b + c) 1 L (lip_pow k))|].
    - intros t _. specialize (B t). lra.
    - intros t Ht. apply pow_abs1, Ht.
    - lra. }
  assert (D0 : dec (94, -6)%Z = 0.000094) by dec_val. assert (D1 : dec (380835, -8)%Z = 0.00380835) by dec_val.
  assert (D2 : dec (-11994, -8)%Z = -0.00011994) by dec_val. assert (D3 : dec (-7257409, -8)%Z = -0.07257409) by dec_val.
  assert (D4 : dec (277, -7)%Z = 0.0000277) by dec_val. assert (D5 : dec (1561, -8)%Z = 0.00001561) by dec_val.
  assert (S0 := S 0%nat 0.1 0.0028). assert (S1 := S 1%nat 0.1 0.000006). assert (S2 := S 2%nat 0.1 0.00084). assert (S3 := S 3%nat 0.1 0.000026). assert (S4 := S 4%nat 0.1 0.000001). assert (S5 := S 5%nat 0.1 0).
  clear S. cbn [nth SP] in S0, S1, S2, S3, S4, S5. rewrite D0 in S0. rewrite D1 in S1. rewrite D2 in S2. rewrite D3 in S3. rewrite D4 in S4. rewrite D5 in S5.
  specialize (S0 ltac:(apply Rabs_le; lra) V0). specialize (S1 ltac:(apply Rabs_le; lra) V1). specialize (S2 ltac:(apply Rabs_le; lra) V2).
  specialize (S3 ltac:(apply Rabs_le; lra) V3). specialize (S4 ltac:(apply Rabs_le; lra) V4). specialize (S5 ltac:(apply Rabs_le; lra) V5).
  eapply lip_le; [apply (lip_ext (fun t => arcsec (0 + cio_order 0 t * t ^ 0 + cio_order 1 t * t ^ 1 + cio_order 2 t * t ^ 2 + cio_order 3 t * t ^ 3 + cio_order 4 t * t ^ 4 + cio_order 5 t * t ^ 5)))|].
  - intros t. reflexivity.
  - apply lip_arcsec. repeat (apply lip_plus; [|eassumption]). apply (lip_const 0).
  - cbn [INR]. apply arcsec_num; lra.
Qed.

(** ** Matrices *)

Definition mdist (a b : mat3 realA) : R := fro (fun i j => entry a i j - entry b i j).
Lemma mdist_mm : forall a b c d, proper a -> proper d -> mdist (mm a b) (mm c d) <= mdist a c + mdist b d.
Proof.
  intros a b c d Pa Pd. unfold mdist. eapply Rle_trans; [apply (L_ApxC2i.fro_sub_tri _ (mm a d))|].
  rewrite L_ApxC2i.fro_mm_l by exact Pa. rewrite L_ApxC2i.fro_mm_r by exact Pd. lra.
Qed.
Lemma mdist_rot : forall ax f c, lip f c -> forall s t, Rabs s <= 1 -> Rabs t <= 1 -> mdist (rot3 ax (f s)) (rot3 ax (f t)) <= 2 * c * Rabs (s - t).
Proof. intros ax f c L s t Hs Ht. unfold mdist. eapply Rle_trans; [apply L_ApxC2i.fro_rot|]. specialize (L s t Hs Ht). lra. Qed.
Lemma mdist_same : forall a, mdist a a = 0.
Proof.
  intros a. unfold mdist. apply Rle_antisym; [|apply fro_nonneg]. eapply Rle_trans; [apply (fro_le _ 0)|lra].
  intros. rewrite Rminus_diag_eq by reflexivity. rewrite Rabs_R0. lra.
Qed.

Lemma psi_lip : lip psi_A 0.03.
Proof. unfold psi_A. poly_lip 0 (5038.7784 - 0.29965) (- 1.07259) (- 0.001147) 0. Qed.
Lemma omega_lip : lip omega_A 0.001.
Proof. unfold omega_A. poly_lip 84381.448 (- 0.02524) 0.05127 (- 0.007726) 0. Qed.
Lemma chi_lip : lip chi_A 0.001.
Proof. unfold chi_A. poly_lip 0 10.5526 (- 2.38064) (- 0.001125) 0. Qed.
Lemma eps_lip : lip eps_A 0.001.
Proof. unfold eps_A, eps_1980. poly_lip 84381.448 (- 46.8150 - 0.02524) (- 0.00059) 0.001813 0. Qed.

Ltac mm_split := eapply Rle_trans; [apply mdist_mm; unfold R1, R2, R3; prove_proper|].
Lemma NPB_dist : forall s t, Rabs s <= 1 -> Rabs t <= 1 -> mdist (NPB s) (NPB t) <= 22.2 * Rabs (s - t).
Proof.
  intros s t Hs Ht. unfold NPB. rewrite !product_3. pose proof (Rabs_pos (s - t)) as P.
  eapply Rle_trans; [apply mdist_mm; [apply proper_mm; [apply N_proper|apply P_proper]|apply B_proper]|]. rewrite mdist_same, Rplus_0_r.
  eapply Rle_trans; [apply mdist_mm; [apply N_proper|apply P_proper]|].
  assert (N : mdist (N_matrix (eps_A s) (nut_dpsi s) (nut_deps s)) (N_matrix (eps_A t) (nut_dpsi t) (nut_deps t)) <= 22.1 * Rabs (s - t)).
  { unfold N_matrix. rewrite !product_3. mm_split. eapply Rle_trans; [apply Rplus_le_compat_r; mm_split; apply Rle_refl|]. unfold R1, R3.
    pose proof (mdist_rot I0 _ _ (lip_opp _ _ (lip_plus _ _ _ _ eps_lip deps_lip)) s t Hs Ht) as A. pose proof (mdist_rot I2 _ _ (lip_opp _ _ dpsi_lip) s t Hs Ht) as B.
    pose proof (mdist_rot I0 _ _ eps_lip s t Hs Ht) as C. cbv beta in *. lra. }
  assert (Q : mdist (P_matrix s) (P_matrix t) <= 0.1 * Rabs (s - t)).
  { unfold P_matrix. rewrite !product_4. mm_split. rewrite mdist_same, Rplus_0_r. mm_split. eapply Rle_trans; [apply Rplus_le_compat_r; mm_split; apply Rle_refl|]. unfold R1, R3.
    pose proof (mdist_rot I2 _ _ chi_lip s t Hs Ht) as A. pose proof (mdist_rot I0 _ _ (lip_opp _ _ omega_lip) s t Hs Ht) as B.
    pose proof (mdist_rot I2 _ _ (lip_opp _ _ psi_lip) s t Hs Ht) as C. cbv beta in *. lra. }
  lra.
Qed.
Lemma pole_lip : lip pole_x 22.2 /\ lip pole_y 22.2.
Proof.
  split; intros s t Hs Ht; (eapply Rle_trans; [|apply (NPB_dist s t Hs Ht)]); unfold pole_x, pole_y, mdist.
  - apply (fro_ge (fun i j => entry (NPB s) i j - entry (NPB t) i j) I2 I0).
  - apply (fro_ge (fun i j => entry (NPB s) i j - entry (NPB t) i j) I2 I1).
Qed.
Lemma cio_s_lip : lip cio_s 0.2.
Proof.
  destruct pole_lip as [LX LY]. unfold cio_s. 
  eapply lip_le.
  - apply (lip_ext (fun t => cio_sxy2 t + - (/ 2) * (pole_x t * pole_y t))); [intros; field|]. apply lip_plus; [apply sxy2_lip|]. apply lip_scal.
    apply (lip_mul _ _ _ _ 0.00977 0.00017 LX LY); intros t Ht; destruct (pole_small t Ht) as (X & Y & _); assumption.
  - rewrite Rabs_Ropp, (Rabs_pos_eq (/ 2)) by lra. lra.
Qed.
Lemma C2I_dist : forall s t, Rabs s <= 1 -> Rabs t <= 1 -> mdist (C2I s) (C2I t) <= 67 * Rabs (s - t).
Proof.
  intros s t Hs Ht. destruct pole_lip as [LX LY]. pose proof (cio_s_lip s t Hs Ht) as LS. specialize (LX s t Hs Ht). specialize (LY s t Hs Ht). pose proof (Rabs_pos (s - t)).
  destruct (pole_small s Hs) as (X & Y & _). destruct (pole_small t Ht) as (X' & Y' & _).
  assert (Q : forall x y, Rabs x <= 0.00977 -> Rabs y <= 0.00017 -> x * x + y * y <= 0.27 * 0.27).
  { intros x y Hx Hy. apply Rabs_le_inv in Hx. apply Rabs_le_inv in Hy. nra. }
  unfold mdist, C2I. eapply Rle_trans; [apply (L_ApxC2i.Q_sens _ _ _ _ _ _ (22.2 * Rabs (s - t)) (Q _ _ X Y) (Q _ _ X' Y') LX LY)|]. lra.
Qed.
