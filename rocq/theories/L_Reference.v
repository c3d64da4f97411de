(** * Lemmas for C99: the reference values of the Earth ephemeris *)

From Coq Require Import ZArith Reals Lra Lia List.
From Flocq Require Import Core BinarySingleNaN.
From Verif Require Import Outcome Arith ArithR ArithF Spec_Float Spec_Accuracy M_Common M_Time M_Earth T_Epv00 Spec_Matrix Spec_Frames Spec_Series Spec_Reference.
From Verif Require Import L_ArithF L_ArithR L_Eval.
From Verif Require L_Epv L_PSeries L_PAccEarth L_PAccuracy L_Flit.
Import ListNotations.
Open Scope R_scope.

(** ** Derivatives of the sums *)
Lemma sumn_der : forall n (f g : nat -> R -> R) t, (forall j, derivable_pt_lim (f j) t (g j t)) ->
  derivable_pt_lim (fun t => sumn n (fun j => f j t)) t (sumn n (fun j => g j t)).
Proof.
  induction n as [|n IH]; intros f g t H; cbn [sumn]; [apply derivable_pt_lim_const|].
  apply (derivable_pt_lim_plus (fun t => sumn n (fun j => f j t)) (f n)); [apply IH; exact H|apply H].
Qed.

Lemma trig_der : forall tab k t, derivable_pt_lim (trig tab k) t (dtrig tab k t).
Proof.
  intros tab k t. apply (sumn_der _ (fun j t => cell tab 0 j k * cos (cell tab 1 j k + cell tab 2 j k * t)) (fun j t => - (cell tab 0 j k * cell tab 2 j k * sin (cell tab 1 j k + cell tab 2 j k * t)))).
  intros j. set (a := cell tab 0 j k). set (b := cell tab 1 j k). set (c := cell tab 2 j k).
  replace (- (a * c * sin (b + c * t))) with (a * (- sin (b + c * t) * c)) by ring. apply L_Epv.scal_der, L_Epv.cos_lin.
Qed.

Definition dsum (A B C : list (list (list (Z * Z)))) (k : nat) (t : R) : R :=
  dtrig A k t + (trig B k t + t * dtrig B k t) + (2 * t * trig C k t + t ^ 2 * dtrig C k t).

Lemma sum_der : forall A B C k t, derivable_pt_lim (fun t => trig A k t + t * trig B k t + t ^ 2 * trig C k t) t (dsum A B C k t).
Proof.
  intros A B C k t. unfold dsum. apply (derivable_pt_lim_plus (fun t => trig A k t + t * trig B k t) (fun t => t ^ 2 * trig C k t)).
  - apply (derivable_pt_lim_plus (trig A k) (fun t => t * trig B k t)); [apply trig_der|].
    replace (trig B k t + t * dtrig B k t) with (1 * trig B k t + t * dtrig B k t) by ring.
    apply (derivable_pt_lim_mult (fun t => t) (trig B k)); [apply derivable_pt_lim_id|apply trig_der].
  - apply (derivable_pt_lim_mult (fun t => t ^ 2) (trig C k)); [|apply trig_der].
    replace (2 * t) with (INR 2 * t ^ Nat.pred 2) by (cbn [INR Nat.pred]; ring). apply derivable_pt_lim_pow.
Qed.

Definition dhelio := dsum E0 E1 E2.
Definition dbary (k : nat) (t : R) : R := dhelio k t + dsum S0 S1 S2 k t.
Lemma helio_der : forall k t, derivable_pt_lim (helio_ecl k) t (dhelio k t). Proof. intros. apply (sum_der E0 E1 E2). Qed.
Lemma bary_der : forall k t, derivable_pt_lim (bary_ecl k) t (dbary k t).
Proof. intros. apply (derivable_pt_lim_plus (helio_ecl k) (sun_ecl k)); [apply helio_der|apply (sum_der S0 S1 S2)]. Qed.

Lemma icrf_der : forall (f : nat -> R -> R) g h x i, (forall k, derivable_pt_lim (f k) (h x) (g k)) -> derivable_pt_lim h x (/ 365.25) ->
  derivable_pt_lim (fun x => icrf (fun k => f k (h x)) i) x (icrf g i / 365.25).
Proof.
  intros f g h x i Hf Hh.
  assert (C : forall k, derivable_pt_lim (fun x => f k (h x)) x (g k * / 365.25)) by (intros k; apply (derivable_pt_lim_comp h (f k)); [exact Hh|apply Hf]).
  assert (S : forall a k, derivable_pt_lim (fun x => a * f k (h x)) x (a * (g k * / 365.25))) by (intros; apply L_Epv.scal_der, C).
  destruct i; cbn [icrf].
  - replace ((g 0%nat + 0.000000211284 * g 1%nat - 0.000000091603 * g 2%nat) / 365.25) with (g 0%nat * / 365.25 + 0.000000211284 * (g 1%nat * / 365.25) - 0.000000091603 * (g 2%nat * / 365.25)) by (unfold Rdiv; ring).
    apply (derivable_pt_lim_minus (fun x => f 0%nat (h x) + 0.000000211284 * f 1%nat (h x)) (fun x => 0.000000091603 * f 2%nat (h x))); [|apply S].
    apply (derivable_pt_lim_plus (fun x => f 0%nat (h x)) (fun x => 0.000000211284 * f 1%nat (h x))); [apply C|apply S].
  - replace ((- 0.000000230286 * g 0%nat + 0.917482137087 * g 1%nat - 0.397776982902 * g 2%nat) / 365.25) with (- 0.000000230286 * (g 0%nat * / 365.25) + 0.917482137087 * (g 1%nat * / 365.25) - 0.397776982902 * (g 2%nat * / 365.25)) by (unfold Rdiv; ring).
    apply (derivable_pt_lim_minus (fun x => - 0.000000230286 * f 0%nat (h x) + 0.917482137087 * f 1%nat (h x)) (fun x => 0.397776982902 * f 2%nat (h x))); [|apply S].
    apply (derivable_pt_lim_plus (fun x => - 0.000000230286 * f 0%nat (h x)) (fun x => 0.917482137087 * f 1%nat (h x))); apply S.
  - replace ((0.397776982902 * g 1%nat + 0.917482137087 * g 2%nat) / 365.25) with (0.397776982902 * (g 1%nat * / 365.25) + 0.917482137087 * (g 2%nat * / 365.25)) by (unfold Rdiv; ring).
    apply (derivable_pt_lim_plus (fun x => 0.397776982902 * f 1%nat (h x)) (fun x => 0.917482137087 * f 2%nat (h x))); apply S.
Qed.

Lemma years_der : forall b x, derivable_pt_lim (fun x => years (MkTDB (A := realA) x b)) x (/ 365.25).
Proof.
  intros b x. unfold years. cbn [tdb_1 tdb_2].
  apply (derivable_pt_lim_ext (fun x => (b - 2451545) / 365.25 + / 365.25 * x)); [intros y; unfold Rdiv; ring|]. apply L_Epv.lin_der.
Qed.

(** ** Bounds of the sums *)
Section Abs.
  Variables (tn td : Z) (tab : list (list (list (Z * Z)))) (k : nat).
  Lemma total_abs : forall n t', (0 < td)%Z -> a_ok (total tn td tab k n) = true ->
    Rabs (sumn n (fun j => cell tab 0 j k * cos (cell tab 1 j k + cell tab 2 j k * t'))) <= IZR (a_ap (total tn td tab k n)) / IZR Q26 /\
    Rabs (sumn n (fun j => - (cell tab 0 j k * cell tab 2 j k * sin (cell tab 1 j k + cell tab 2 j k * t')))) <= IZR (a_av (total tn td tab k n)) / IZR Q26 / IZR Q15.
  Proof.
    intros n t' Htd. assert (QP : 0 < IZR Q26) by (apply IZR_lt; reflexivity). assert (RP : 0 < IZR Q15) by (apply IZR_lt; reflexivity).
    induction n as [|n IH]; intros OK.
    - cbn [total a_ap a_av sumn]. unfold Rdiv. rewrite !Rmult_0_l, Rabs_R0. lra.
    - cbn [total] in *. unfold addacc in *. cbn [a_p a_v a_ap a_av a_aw a_ep a_ev a_ok sumn] in *. apply andb_prop in OK. destruct OK as [O1 O2]. destruct (IH O1) as [I1 I2].
      destruct (row_ok tn td tab k n Htd O2) as (a & c & p & s & e & EA & EC & _ & _ & _ & Eap & Eav & _ & _ & _ & _).
      rewrite !plus_IZR, Eap, Eav, EA, EC. assert (CB := COS_bound (cell tab 1 n k + c / IZR Q15 * t')). assert (SB := SIN_bound (cell tab 1 n k + c / IZR Q15 * t')).
      set (co := cos _) in *. set (si := sin _) in *. set (S1 := sumn n _) in I1 |- *. set (S2 := sumn n _) in I2 |- *.
      unfold Rdiv in *. set (q := / IZR Q26) in *. assert (Q : 0 < q) by (apply Rinv_0_lt_compat; exact QP). set (r := / IZR Q15) in *. assert (RR : 0 < r) by (apply Rinv_0_lt_compat; exact RP).
      rewrite !Rmult_plus_distr_r. clearbody co si S1 S2 q r. clear IH. assert (QR : 0 < q * r) by (apply Rmult_lt_0_compat; assumption). split.
      + eapply Rle_trans; [apply Rabs_triang|]. apply Rplus_le_compat; [exact I1|]. rewrite !Rabs_mult, (Rabs_pos_eq q) by lra.
        rewrite <- (Rmult_1_r (Rabs a * q)) at 2. apply Rmult_le_compat_l; [apply Rmult_le_pos; [apply Rabs_pos|lra]|apply Rabs_le; lra].
      + eapply Rle_trans; [apply Rabs_triang|]. apply Rplus_le_compat; [exact I2|]. rewrite Rabs_Ropp. replace (a * q * (c * r) * si) with (a * c * (q * r) * si) by ring.
        rewrite !Rabs_mult, (Rabs_pos_eq q), (Rabs_pos_eq r) by lra. replace (Rabs a * Rabs c * q * r) with (Rabs a * Rabs c * (q * r)) by ring.
        rewrite <- (Rmult_1_r (Rabs a * Rabs c * (q * r))) at 2. apply Rmult_le_compat_l; [repeat apply Rmult_le_pos; try apply Rabs_pos; lra|apply Rabs_le; lra].
  Qed.
End Abs.

(** What is known about one table at the date t and about any other date t'. *)
Record known (tab : list (list (list (Z * Z)))) (k : nat) (t P V e f M L W : R) : Prop := Known {
  k_p : Rabs (P - trig tab k t) <= e; k_v : Rabs (V - dtrig tab k t) <= f;
  k_m : forall t', Rabs (trig tab k t') <= M; k_l : forall t', Rabs (dtrig tab k t') <= L;
  k_pl : forall t', Rabs (trig tab k t' - trig tab k t) <= L * Rabs (t' - t);
  k_vl : forall t', Rabs (dtrig tab k t' - dtrig tab k t) <= W * Rabs (t' - t) }.

Definition vP (x : acc) : R := IZR (a_p x) / IZR U90 / IZR Q26.
Definition vV (x : acc) : R := - (IZR (a_v x) / IZR U90) / IZR Q26 / IZR Q15.
Definition vE (x : acc) : R := (IZR (a_ap x) * (4 / 10 ^ 21) + 6000 * (IZR (a_ep x) / IZR U90)) / IZR Q26.
Definition vF (x : acc) : R := (IZR (a_av x) * (4 / 10 ^ 21) + 6000 * (IZR (a_ev x) / IZR U90)) / IZR Q26 / IZR Q15.
Definition vM (x : acc) : R := IZR (a_ap x) / IZR Q26.
Definition vL (x : acc) : R := IZR (a_av x) / IZR Q26 / IZR Q15.
Definition vW (x : acc) : R := IZR (a_aw x) / IZR Q26 / IZR Q15 / IZR Q15.

Lemma tot_known : forall tn td tab k, (0 < td)%Z -> a_ok (tot tn td tab k) = true ->
  let x := tot tn td tab k in known tab k (IZR tn / IZR td) (vP x) (vV x) (vE x) (vF x) (vM x) (vL x) (vW x).
Proof.
  intros tn td tab k Htd OK x. unfold tot in OK. destruct (total_ok tn td tab k _ Htd OK) as [T1 T2]. cbv zeta in T1, T2.
  constructor; [exact T1|exact T2| | | |]; intros t'.
  - exact (proj1 (total_abs tn td tab k _ t' Htd OK)).
  - exact (proj2 (total_abs tn td tab k _ t' Htd OK)).
  - exact (proj1 (total_lip tn td tab k _ t' Htd OK)).
  - exact (proj2 (total_lip tn td tab k _ t' Htd OK)).
Qed.

Lemma mul_le : forall a b x y, Rabs a <= x -> Rabs b <= y -> Rabs (a * b) <= x * y.
Proof. intros. rewrite Rabs_mult. apply Rmult_le_compat; try apply Rabs_pos; assumption. Qed.

Lemma rescale : forall z P S u w, 0 < w -> z = P * (w * u) -> 0 < u -> Rabs (z - S * (w * u)) <= w * u -> Rabs (P - S) <= 1.
Proof.
  intros z P S u w W E U H. rewrite E in H. replace (P * (w * u) - S * (w * u)) with ((P - S) * (w * u)) in H by ring. rewrite Rabs_mult in H.
  assert (0 < w * u) by (apply Rmult_lt_0_compat; assumption). rewrite (Rabs_pos_eq (w * u)) in H by lra. apply Rmult_le_reg_r with (w * u); [assumption|]. rewrite Rmult_1_l. exact H.
Qed.

Section Combine.
  Variables (A B C : list (list (list (Z * Z)))) (k : nat) (t : R).
  Variables (PA VA eA fA MA LA WA PB VB eB fB MB LB WB PC VC eC fC MC LC WC : R).
  Hypothesis KA : known A k t PA VA eA fA MA LA WA.
  Hypothesis KB : known B k t PB VB eB fB MB LB WB.
  Hypothesis KC : known C k t PC VC eC fC MC LC WC.
  Hypothesis Ht : 0 <= t <= 6.
  Definition fsum (t : R) : R := trig A k t + t * trig B k t + t ^ 2 * trig C k t.

  Lemma comb_p : Rabs (PA + t * PB + t ^ 2 * PC - fsum t) <= eA + 6 * eB + 36 * eC.
  Proof.
    unfold fsum. assert (H1 := k_p _ _ _ _ _ _ _ _ _ _ KA). assert (H2 := k_p _ _ _ _ _ _ _ _ _ _ KB). assert (H3 := k_p _ _ _ _ _ _ _ _ _ _ KC).
    set (a := trig A k t) in *. set (b := trig B k t) in *. set (c := trig C k t) in *. clearbody a b c.
    assert (T : Rabs t <= 6) by (apply Rabs_le; lra). assert (T2 := mul_le t t 6 6 T T).
    assert (M1 := mul_le _ _ _ _ T H2). assert (M2 := mul_le _ _ _ _ T2 H3). apply Rabs_le_inv in H1, M1, M2.
    apply Rabs_le. cbn [pow]. lra.
  Qed.

  Lemma comb_v : Rabs (VA + (PB + t * VB) + (2 * t * PC + t ^ 2 * VC) - dsum A B C k t) <= fA + eB + 6 * fB + 12 * eC + 36 * fC.
  Proof.
    unfold dsum. assert (G2 := k_p _ _ _ _ _ _ _ _ _ _ KB). assert (G3 := k_p _ _ _ _ _ _ _ _ _ _ KC).
    assert (H1 := k_v _ _ _ _ _ _ _ _ _ _ KA). assert (H2 := k_v _ _ _ _ _ _ _ _ _ _ KB). assert (H3 := k_v _ _ _ _ _ _ _ _ _ _ KC).
    set (b := trig B k t) in *. set (c := trig C k t) in *. set (a' := dtrig A k t) in *. set (b' := dtrig B k t) in *. set (c' := dtrig C k t) in *. clearbody b c a' b' c'.
    assert (T : Rabs t <= 6) by (apply Rabs_le; lra). assert (T2 := mul_le t t 6 6 T T).
    assert (M1 := mul_le _ _ _ _ T H2). assert (M2 := mul_le _ _ _ _ T2 H3). assert (M3 := mul_le _ _ _ _ T G3). apply Rabs_le_inv in H1, G2, M1, M2, M3.
    apply Rabs_le. cbn [pow]. lra.
  Qed.

  Variables (t' d : R).
  Hypothesis Ht' : 0 <= t' <= 6.
  Hypothesis Hd : Rabs (t' - t) <= d.
  Hypothesis HW : 0 <= WA /\ 0 <= WB /\ 0 <= WC.

  Lemma lip_le : forall x L, 0 <= L -> Rabs x <= L * Rabs (t' - t) -> Rabs x <= L * d.
  Proof. intros x L HL H. apply Rle_trans with (1 := H). apply Rmult_le_compat_l; assumption. Qed.
  Lemma LA0 : 0 <= LA. Proof. apply Rle_trans with (1 := Rabs_pos _) (2 := k_l _ _ _ _ _ _ _ _ _ _ KA 0). Qed.
  Lemma LB0 : 0 <= LB. Proof. apply Rle_trans with (1 := Rabs_pos _) (2 := k_l _ _ _ _ _ _ _ _ _ _ KB 0). Qed.
  Lemma LC0 : 0 <= LC. Proof. apply Rle_trans with (1 := Rabs_pos _) (2 := k_l _ _ _ _ _ _ _ _ _ _ KC 0). Qed.

  Lemma comb_pl : Rabs (fsum t' - fsum t) <= (LA + MB + 6 * LB + 12 * MC + 36 * LC) * d.
  Proof.
    unfold fsum. assert (D0 : 0 <= d) by (apply Rle_trans with (1 := Rabs_pos _) (2 := Hd)).
    assert (H1 := lip_le _ _ LA0 (k_pl _ _ _ _ _ _ _ _ _ _ KA t')). assert (H2 := lip_le _ _ LB0 (k_pl _ _ _ _ _ _ _ _ _ _ KB t')). assert (H3 := lip_le _ _ LC0 (k_pl _ _ _ _ _ _ _ _ _ _ KC t')).
    assert (G2 := k_m _ _ _ _ _ _ _ _ _ _ KB t'). assert (G3 := k_m _ _ _ _ _ _ _ _ _ _ KC t').
    set (a := trig A k t) in *. set (b := trig B k t) in *. set (c := trig C k t) in *. set (a' := trig A k t') in *. set (b' := trig B k t') in *. set (c' := trig C k t') in *. clearbody a b c a' b' c'.
    assert (T : Rabs t <= 6) by (apply Rabs_le; lra). assert (T2 := mul_le t t 6 6 T T). assert (TT : Rabs (t' + t) <= 12) by (apply Rabs_le; lra).
    assert (M1 := mul_le _ _ _ _ Hd G2). assert (M2 := mul_le _ _ _ _ T H2). assert (M3 := mul_le _ _ _ _ (mul_le _ _ _ _ Hd TT) G3). assert (M4 := mul_le _ _ _ _ T2 H3).
    replace (a' + t' * b' + t' ^ 2 * c' - (a + t * b + t ^ 2 * c)) with ((a' - a) + (t' - t) * b' + t * (b' - b) + (t' - t) * (t' + t) * c' + t * t * (c' - c)) by ring.
    apply Rabs_le_inv in H1, M1, M2, M3, M4. apply Rabs_le. lra.
  Qed.

  Lemma comb_vl : Rabs (dsum A B C k t' - dsum A B C k t) <= (WA + 2 * LB + 6 * WB + 2 * MC + 24 * LC + 36 * WC) * d.
  Proof.
    unfold dsum. assert (D0 : 0 <= d) by (apply Rle_trans with (1 := Rabs_pos _) (2 := Hd)). destruct HW as (W1 & W2 & W3).
    assert (H1 := lip_le _ _ W1 (k_vl _ _ _ _ _ _ _ _ _ _ KA t')). assert (H2 := lip_le _ _ W2 (k_vl _ _ _ _ _ _ _ _ _ _ KB t')). assert (H3 := lip_le _ _ W3 (k_vl _ _ _ _ _ _ _ _ _ _ KC t')).
    assert (J2 := lip_le _ _ LB0 (k_pl _ _ _ _ _ _ _ _ _ _ KB t')). assert (J3 := lip_le _ _ LC0 (k_pl _ _ _ _ _ _ _ _ _ _ KC t')).
    assert (G2 := k_l _ _ _ _ _ _ _ _ _ _ KB t'). assert (G3 := k_l _ _ _ _ _ _ _ _ _ _ KC t'). assert (G4 := k_m _ _ _ _ _ _ _ _ _ _ KC t').
    set (b := trig B k t) in *. set (c := trig C k t) in *. set (b' := trig B k t') in *. set (c' := trig C k t') in *.
    set (x := dtrig A k t) in *. set (y := dtrig B k t) in *. set (z := dtrig C k t) in *. set (x' := dtrig A k t') in *. set (y' := dtrig B k t') in *. set (z' := dtrig C k t') in *. clearbody b c b' c' x y z x' y' z'.
    assert (T : Rabs t <= 6) by (apply Rabs_le; lra). assert (T2 := mul_le t t 6 6 T T). assert (TT : Rabs (t' + t) <= 12) by (apply Rabs_le; lra).
    assert (M1 := mul_le _ _ _ _ Hd G2). assert (M2 := mul_le _ _ _ _ T H2). assert (M3 := mul_le _ _ _ _ (mul_le _ _ _ _ Hd TT) G3). assert (M4 := mul_le _ _ _ _ T2 H3).
    assert (M5 := mul_le _ _ _ _ Hd G4). assert (M6 := mul_le _ _ _ _ T J3).
    replace (x' + (b' + t' * y') + (2 * t' * c' + t' ^ 2 * z') - (x + (b + t * y) + (2 * t * c + t ^ 2 * z))) with
      ((x' - x) + (b' - b) + (t' - t) * y' + t * (y' - y) + 2 * ((t' - t) * c') + 2 * (t * (c' - c)) + (t' - t) * (t' + t) * z' + t * t * (z' - z)) by ring.
    apply Rabs_le_inv in H1, J2, M1, M2, M3, M4, M5, M6. apply Rabs_le. lra.
  Qed.
End Combine.

(** ** The numbers

    The coordinate and its rate over 10^24, their errors over 10^24, and their rates of change
    over 10^4. *)
Definition chk (tn td : Z) (A B C : list (list (list (Z * Z)))) (k : nat) (p v e f g h : Z) : bool :=
  let x := tot tn td A k in let y := tot tn td B k in let z := tot tn td C k in let w := (100 * U90)%Z in let d2 := (td * td)%Z in let m := (tn * td)%Z in let n2 := (tn * tn)%Z in
  (a_ok x && a_ok y && a_ok z && (0 <=? tn)%Z && (tn <=? 6 * td)%Z &&
   (Z.abs (d2 * a_p x + m * a_p y + n2 * a_p z - p * (w * d2)) <=? w * d2)%Z &&
   (Z.abs (Q15 * (d2 * a_p y + 2 * m * a_p z) - (d2 * a_v x + m * a_v y + n2 * a_v z) - v * (w * Q15 * d2)) <=? w * Q15 * d2)%Z &&
   (4 * U90 * (a_ap x + 6 * a_ap y + 36 * a_ap z) + 6 * 10 ^ 24 * (a_ep x + 6 * a_ep y + 36 * a_ep z) <=? e * (w * 10 ^ 21))%Z &&
   (4 * U90 * (a_av x + Q15 * a_ap y + 6 * a_av y + 12 * Q15 * a_ap z + 36 * a_av z) + 6 * 10 ^ 24 * (a_ev x + Q15 * a_ep y + 6 * a_ev y + 12 * Q15 * a_ep z + 36 * a_ev z) <=? f * (w * Q15 * 10 ^ 21))%Z &&
   (a_av x + Q15 * a_ap y + 6 * a_av y + 12 * Q15 * a_ap z + 36 * a_av z <=? g * (10 ^ 22 * Q15))%Z &&
   (a_aw x + 2 * Q15 * a_av y + 6 * a_aw y + 2 * Q15 * Q15 * a_ap z + 24 * Q15 * a_av z + 36 * a_aw z <=? h * (10 ^ 22 * Q15 * Q15))%Z && (0 <=? a_aw x)%Z && (0 <=? a_aw y)%Z && (0 <=? a_aw z)%Z)%bool.

Definition within (x : R) (p e : R) : Prop := p - e <= x <= p + e.

Lemma le_scale : forall x y s, 0 < s -> x * s <= y * s -> x <= y.
Proof. intros x y s S H. exact (Rmult_le_reg_r s x y S H). Qed.

Lemma chk_ok : forall tn td A B C k p v e f g h, (0 < td)%Z -> chk tn td A B C k p v e f g h = true -> let t := IZR tn / IZR td in
  within (fsum A B C k t) (IZR p / 10 ^ 24) (1 / 10 ^ 24 + IZR e / 10 ^ 24) /\
  within (dsum A B C k t) (IZR v / 10 ^ 24) (1 / 10 ^ 24 + IZR f / 10 ^ 24) /\
  forall t' d, 0 <= t' <= 6 -> Rabs (t' - t) <= d ->
  within (fsum A B C k t') (IZR p / 10 ^ 24) (1 / 10 ^ 24 + IZR e / 10 ^ 24 + IZR g / 10 ^ 4 * d) /\
  within (dsum A B C k t') (IZR v / 10 ^ 24) (1 / 10 ^ 24 + IZR f / 10 ^ 24 + IZR h / 10 ^ 4 * d).
Proof.
  intros tn td A B C k p v e f g h Htd H t. unfold chk in H. cbv zeta in H.
  repeat (apply andb_prop in H; destruct H as [H ?]).
  repeat match goal with X : (_ <=? _)%Z = true |- _ => apply Z.leb_le, IZR_le in X end.
  match goal with X : a_ok (tot tn td B k) = true |- _ => rename X into OB end. match goal with X : a_ok (tot tn td C k) = true |- _ => rename X into OC end.
  assert (KA := tot_known tn td A k Htd H). assert (KB := tot_known tn td B k Htd OB). assert (KC := tot_known tn td C k Htd OC). cbv zeta in KA, KB, KC. fold t in KA, KB, KC.
  set (x := tot tn td A k) in *. set (y := tot tn td B k) in *. set (z := tot tn td C k) in *. clearbody x y z. clear H OB OC.
  repeat match goal with X : context [IZR (Z.abs _)] |- _ => rewrite abs_IZR in X end.
  repeat rewrite ?plus_IZR, ?minus_IZR, ?mult_IZR in *.
  assert (TD : 0 < IZR td) by (apply IZR_lt; exact Htd). assert (UP : 0 < IZR U90) by (apply IZR_lt; reflexivity). assert (RP : 0 < IZR Q15) by (apply IZR_lt; reflexivity).
  assert (QE : IZR Q26 = 100 * 10 ^ 24) by (replace (100 * 10 ^ 24) with (10 ^ 26) by ring; unfold Q26; rewrite pow_IZR; reflexivity).
  assert (E21 : IZR (10 ^ 21) = 10 ^ 21) by (rewrite pow_IZR; reflexivity). assert (E24 : IZR (10 ^ 24) = 1000 * 10 ^ 21) by (replace (1000 * 10 ^ 21) with (10 ^ 24) by ring; rewrite pow_IZR; reflexivity). assert (E22 : IZR (10 ^ 22) = 10 ^ 22) by (rewrite pow_IZR; reflexivity).
  rewrite E21 in *. rewrite E22 in *. rewrite E24 in *.
  assert (Ht : 0 <= t <= 6).
  { unfold t. split; [apply Rmult_le_pos; [assumption|left; apply Rinv_0_lt_compat; exact TD]|]. apply Rmult_le_reg_r with (IZR td); [exact TD|]. unfold Rdiv. rewrite Rmult_assoc, Rinv_l; lra. }
  assert (TE : IZR tn = t * IZR td) by (unfold t; field; lra). rewrite TE in *. clearbody t.
  set (U := IZR U90) in *. set (q := IZR Q15) in *. set (D := IZR td) in *.
  assert (P1 : Rabs (vP x + t * vP y + t ^ 2 * vP z - IZR p / 10 ^ 24) <= 1 / 10 ^ 24).
  { match goal with X : Rabs (D * D * IZR (a_p x) + _ + _ - _) <= _ |- _ => rename X into G end.
    assert (S : Rabs (10 ^ 24 * (vP x + t * vP y + t ^ 2 * vP z) - IZR p) <= 1).
    { apply (rescale (D * D * IZR (a_p x) + t * D * D * IZR (a_p y) + t * D * (t * D) * IZR (a_p z)) _ _ (D * D) (100 * U)); [lra| |apply Rmult_lt_0_compat; exact TD|exact G].
      unfold vP. fold U. rewrite QE. set (w := 10 ^ 24). assert (w <> 0) by (apply pow_nonzero; lra). clearbody w. field. lra. }
    replace (vP x + t * vP y + t ^ 2 * vP z - IZR p / 10 ^ 24) with ((10 ^ 24 * (vP x + t * vP y + t ^ 2 * vP z) - IZR p) * / 10 ^ 24) by (field; apply pow_nonzero; lra).
    rewrite Rabs_mult, (Rabs_pos_eq (/ _)) by (left; apply Rinv_0_lt_compat, pow_lt; lra). apply Rmult_le_compat_r; [left; apply Rinv_0_lt_compat, pow_lt; lra|exact S]. }
  assert (P2 : Rabs (vV x + (vP y + t * vV y) + (2 * t * vP z + t ^ 2 * vV z) - IZR v / 10 ^ 24) <= 1 / 10 ^ 24).
  { match goal with X : Rabs (q * _ - _ - _) <= _ |- _ => rename X into G end.
    assert (S : Rabs (10 ^ 24 * (vV x + (vP y + t * vV y) + (2 * t * vP z + t ^ 2 * vV z)) - IZR v) <= 1).
    { apply (rescale (q * (D * D * IZR (a_p y) + 2 * (t * D * D) * IZR (a_p z)) - (D * D * IZR (a_v x) + t * D * D * IZR (a_v y) + t * D * (t * D) * IZR (a_v z))) _ _ (D * D) (100 * U * q));
        [apply Rmult_lt_0_compat; lra| |apply Rmult_lt_0_compat; exact TD|exact G].
      unfold vP, vV. fold U q. rewrite QE. set (w := 10 ^ 24). assert (w <> 0) by (apply pow_nonzero; lra). clearbody w. field. lra. }
    replace (vV x + (vP y + t * vV y) + (2 * t * vP z + t ^ 2 * vV z) - IZR v / 10 ^ 24) with ((10 ^ 24 * (vV x + (vP y + t * vV y) + (2 * t * vP z + t ^ 2 * vV z)) - IZR v) * / 10 ^ 24) by (field; apply pow_nonzero; lra).
    rewrite Rabs_mult, (Rabs_pos_eq (/ _)) by (left; apply Rinv_0_lt_compat, pow_lt; lra). apply Rmult_le_compat_r; [left; apply Rinv_0_lt_compat, pow_lt; lra|exact S]. }
  assert (T21 : 0 < 10 ^ 21) by (apply pow_lt; lra). assert (T24 : 10 ^ 24 = 1000 * 10 ^ 21) by ring. assert (T22 : 10 ^ 22 = 10 * 10 ^ 21) by ring.
  assert (N21 : 10 ^ 21 <> 0) by lra.
  assert (UT : 0 < U * 10 ^ 21) by (apply Rmult_lt_0_compat; lra). assert (UTQ : 0 < U * 10 ^ 21 * q) by (apply Rmult_lt_0_compat; lra). assert (TQ : 0 < 10 ^ 21 * q) by (apply Rmult_lt_0_compat; lra). assert (TQQ : 0 < 10 ^ 21 * q * q) by (apply Rmult_lt_0_compat; lra).
  assert (P3 : vE x + 6 * vE y + 36 * vE z <= IZR e / 10 ^ 24).
  { match goal with X : _ <= IZR e * _ |- _ => rename X into G end. apply (le_scale _ _ (100 * (U * 10 ^ 21) * 10 ^ 24)); [apply Rmult_lt_0_compat; [lra|apply pow_lt; lra]|].
    replace (IZR e / 10 ^ 24 * (100 * (U * 10 ^ 21) * 10 ^ 24)) with (IZR e * (100 * U * 10 ^ 21)) by (field; apply pow_nonzero; lra). apply Rle_trans with (2 := G). right.
    unfold vE. fold U. rewrite QE, T24. set (w := 10 ^ 21) in *. clearbody w. field. lra. }
  assert (P4 : vF x + vE y + 6 * vF y + 12 * vE z + 36 * vF z <= IZR f / 10 ^ 24).
  { match goal with X : _ <= IZR f * _ |- _ => rename X into G end. apply (le_scale _ _ (100 * (U * 10 ^ 21 * q) * 10 ^ 24)); [apply Rmult_lt_0_compat; [lra|apply pow_lt; lra]|].
    replace (IZR f / 10 ^ 24 * (100 * (U * 10 ^ 21 * q) * 10 ^ 24)) with (IZR f * (100 * U * q * 10 ^ 21)) by (field; apply pow_nonzero; lra). apply Rle_trans with (2 := G). right.
    unfold vE, vF. fold U q. rewrite QE, T24. set (w := 10 ^ 21) in *. clearbody w. field. lra. }
  assert (P5 : vL x + vM y + 6 * vL y + 12 * vM z + 36 * vL z <= IZR g / 10 ^ 4).
  { match goal with X : _ <= IZR g * _ |- _ => rename X into G end. apply (le_scale _ _ (100000 * (10 ^ 21 * q))); [lra|]. unfold vL, vM. fold q. rewrite QE, T24. rewrite T22 in G. set (w := 10 ^ 21) in *. clearbody w.
    match goal with X : ?a <= ?b |- ?c <= ?d => replace c with a by (field; lra); replace d with b by (field; lra); exact X end. }
  assert (P6 : vW x + 2 * vL y + 6 * vW y + 2 * vM z + 24 * vL z + 36 * vW z <= IZR h / 10 ^ 4).
  { match goal with X : _ <= IZR h * _ |- _ => rename X into G end. apply (le_scale _ _ (100000 * (10 ^ 21 * q * q))); [lra|]. unfold vL, vM, vW. fold q. rewrite QE, T24. rewrite T22 in G. set (w := 10 ^ 21) in *. clearbody w.
    match goal with X : ?a <= ?b |- ?c <= ?d => replace c with a by (field; lra); replace d with b by (field; lra); exact X end. }
  assert (PW : 0 <= vW x /\ 0 <= vW y /\ 0 <= vW z).
  { assert (G : forall u, 0 <= u -> 0 <= u / IZR Q26 / IZR Q15 / IZR Q15).
    { intros u Hu. assert (0 < / IZR Q15) by (apply Rinv_0_lt_compat; exact RP). assert (0 < / IZR Q26) by (apply Rinv_0_lt_compat; rewrite QE; apply Rmult_lt_0_compat; [lra|apply pow_lt; lra]).
      unfold Rdiv. repeat apply Rmult_le_pos; lra. }
    unfold vW. repeat split; apply G; assumption. }
  assert (CP := comb_p A B C k t _ _ _ _ _ _ _ _ _ _ _ _ _ _ _ _ _ _ _ _ _ KA KB KC Ht). assert (CV := comb_v A B C k t _ _ _ _ _ _ _ _ _ _ _ _ _ _ _ _ _ _ _ _ _ KA KB KC Ht).
  set (F0 := fsum A B C k t) in *. set (D0 := dsum A B C k t) in *.
  set (p24 := 10 ^ 24) in *. unfold within. apply Rabs_le_inv in P1, P2, CP, CV.
  split; [lra|]. split; [lra|]. intros t' d Ht' Hd. assert (D1 : 0 <= d) by (apply Rle_trans with (1 := Rabs_pos _) (2 := Hd)).
  assert (LP := comb_pl A B C k t _ _ _ _ _ _ _ _ _ _ _ _ _ _ _ _ _ _ _ _ _ KA KB KC Ht t' d Ht' Hd). assert (LV := comb_vl A B C k t _ _ _ _ _ _ _ _ _ _ _ _ _ _ _ _ _ _ _ _ _ KA KB KC Ht t' d Ht' Hd PW).
  fold F0 in LP. fold D0 in LV.
  assert (LP' := Rle_trans _ _ _ LP (Rmult_le_compat_r _ _ _ D1 P5)). assert (LV' := Rle_trans _ _ _ LV (Rmult_le_compat_r _ _ _ D1 P6)).
  apply Rabs_le_inv in LP', LV'. split; lra.
Qed.

(** At the exact decimal date. *)
Definition ex_n : Z := 186702501161%Z.
Definition ex_d : Z := 36525000000%Z.
Definition ex_t : R := IZR ex_n / IZR ex_d.
Lemma ex_E_0 : chk ex_n ex_d E0 E1 E2 0 (-775724009845467731797705) (-3988133838660659151020968) 6204176 100998496 63933 410991 = true.
Proof. vm_cast_no_check (@eq_refl bool true). Qed.
Lemma ex_E_1 : chk ex_n ex_d E0 E1 E2 1 610151542245823879084565 (-4965109648337766607585857) 6136407 102561461 63937 411018 = true.
Proof. vm_cast_no_check (@eq_refl bool true). Qed.
Lemma ex_E_2 : chk ex_n ex_d E0 E1 E2 2 (-4788038044276308948) (-118143177362174429136) 1653839 38712480 4 248 = true.
Proof. vm_cast_no_check (@eq_refl bool true). Qed.
Lemma ex_S_0 : chk ex_n ex_d S0 S1 S2 0 4313436872373042545959 64122844706255504313 4244650 3581809 36 21 = true.
Proof. vm_cast_no_check (@eq_refl bool true). Qed.
Lemma ex_S_1 : chk ex_n ex_d S0 S1 S2 1 (-6850966200460973605) 2624042608636791311840 4291037 3592270 36 21 = true.
Proof. vm_cast_no_check (@eq_refl bool true). Qed.
Lemma ex_S_2 : chk ex_n ex_d S0 S1 S2 2 (-106262253309713845427) (-24478025917320243136) 976457 849819 1 1 = true.
Proof. vm_cast_no_check (@eq_refl bool true). Qed.
