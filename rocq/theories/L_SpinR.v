(** * Lemmas for C100: the series of the locator against the motion of the pole *)

From Coq Require Import ZArith Reals Lra Lia Bool List.
From Flocq Require Import Core.
From Verif Require Import Arith ArithR M_Common M_Time T_Nut T_Cio Spec_Matrix Spec_Frames Spec_Series Spec_C2t.
From Verif Require Import L_Poisson L_SeriesR L_Closed L_Pi L_PPole L_CioLow L_Lip L_Spin.
Import ListNotations.
Open Scope R_scope.

(** ** Collecting with a tree *)
Inductive tree : Type := Leaf | Node (a : tree) (v : list term) (b : tree).
Fixpoint tev (th : list R) (t : R) (T : tree) : R :=
  match T with Leaf => 0 | Node a v b => tev th t a + ev th t v + tev th t b end.
Fixpoint tput (d : nat) (key : Z) (x : term) (T : tree) : tree :=
  match d with
  | O => match T with Leaf => Node Leaf [x] Leaf | Node a v b => Node a (put x v) b end
  | S d' => match T with
      | Leaf => if Z.odd key then Node (tput d' (Z.div2 key) x Leaf) [] Leaf else Node Leaf [] (tput d' (Z.div2 key) x Leaf)
      | Node a v b => if Z.odd key then Node (tput d' (Z.div2 key) x a) v b else Node a v (tput d' (Z.div2 key) x b)
      end
  end.
Lemma tev_put : forall th t d key x T, tev th t (tput d key x T) = ev1 th t x + tev th t T.
Proof.
  intros th t d. induction d as [|d IH]; intros key x T; cbn [tput].
  - destruct T as [|a v b]; cbn [tev ev]; [ring|]. rewrite ev_put. ring.
  - destruct T as [|a v b]; destruct (Z.odd key); cbn [tev ev]; rewrite IH; cbn [tev]; ring.
Qed.
Fixpoint flat (T : tree) (r : list term) : list term :=
  match T with Leaf => r | Node a v b => flat a (v ++ flat b r) end.
Lemma ev_flat_tree : forall th t T r, ev th t (flat T r) = tev th t T + ev th t r.
Proof.
  intros th t T. induction T as [|a IHa v b IHb]; intros r; cbn [flat tev]; [ring|]. rewrite IHa, ev_app, IHb. ring.
Qed.
Definition mark (x : term) : Z := let '(k, n, _, _) := x in fold_left (fun a z => (7 * a + z)%Z) n (1000000 + Z.of_nat k)%Z.
Definition add (x : term) (T : tree) : tree := let y := canon x in tput 12 (mark y) y T.
Definition gather (l : list term) : list term := flat (fold_right add Leaf l) [].
Lemma ev_gather : forall th t l, ev th t (gather l) = ev th t l.
Proof.
  intros th t l. unfold gather. rewrite ev_flat_tree. cbn [ev]. rewrite Rplus_0_r. induction l as [|x l IH]; [reflexivity|].
  cbn [fold_right ev]. unfold add at 1. cbv zeta. rewrite tev_put, ev_canon, IH. reflexivity.
Qed.

(** ** Rounding the coefficients *)
Definition coarse (u : Z) (l : list term) : list term := map (fun x : term => let '(k, n, s, c) := x in (k, n, (s / u)%Z, (c / u)%Z)) l.
Lemma ev_coarse : forall th t u l, (0 < u)%Z -> Rabs t <= 1 -> Rabs (ev th t l - IZR u * ev th t (coarse u l)) <= 2 * IZR u * IZR (Z.of_nat (length l)).
Proof.
  intros th t u l Hu Ht. induction l as [|[[[k n] s] c] l IH]; [cbn [coarse map ev length Z.of_nat]; rewrite !Rmult_0_r, Rminus_0_r, Rabs_R0; lra|].
  cbn [coarse map ev length] in *. fold (coarse u l) in *. rewrite Nat2Z.inj_succ, succ_IZR. cbn [ev1].
  assert (Q : forall z : Z, Rabs (IZR z - IZR u * IZR (z / u)) <= IZR u).
  { intros z. pose proof (Z.div_mod z u ltac:(lia)) as E. pose proof (Z.mod_pos_bound z u Hu) as M. rewrite <- mult_IZR, <- minus_IZR, <- abs_IZR. apply IZR_le. lia. }
  pose proof (Q s) as S. pose proof (Q c) as C. set (a := combo n th). pose proof (sin_abs a) as SA. pose proof (cos_abs a) as CA.
  pose proof (mulb _ _ _ _ S SA) as M1. pose proof (mulb _ _ _ _ C CA) as M2. rewrite Rmult_1_r in M1, M2.
  assert (M : Rabs ((IZR s - IZR u * IZR (s / u)) * sin a + (IZR c - IZR u * IZR (c / u)) * cos a) <= 2 * IZR u).
  { eapply Rle_trans; [apply Rabs_triang|lra]. }
  pose proof (mulb _ _ _ _ (pow_abs1 k t Ht) M) as P. clear - IH P.
  replace (t ^ k * (IZR s * sin a + IZR c * cos a) + ev th t l - IZR u * (t ^ k * (IZR (s / u) * sin a + IZR (c / u) * cos a) + ev th t (coarse u l)))
    with (t ^ k * ((IZR s - IZR u * IZR (s / u)) * sin a + (IZR c - IZR u * IZR (c / u)) * cos a) + (ev th t l - IZR u * ev th t (coarse u l))) by ring.
  eapply Rle_trans; [apply Rabs_triang|]. lra.
Qed.

(** ** Integrals *)
Definition rates64 : list Z := [533036; 40211; 539742; 497368; -2160; 65365; 40212; 2]%Z.
Fixpoint weight (n : list Z) : Z := match n with [] => 0 | x :: r => Z.abs x + weight r end%Z.
Definition lo (n : list Z) : Z := Z.shiftr (Z.abs (zcombo n rates64) - weight n) 6.
Definition fast (n : list Z) : bool := (1 <=? lo n)%Z.
Lemma near64 : forall n (q : list Z) (r : list R), length q = length r -> (forall i, Rabs (64 * nth i r 0 - IZR (nth i q 0%Z)) <= 1) ->
  Rabs (64 * combo n r - IZR (zcombo n q)) <= IZR (weight n).
Proof.
  induction n as [|x n IH]; intros q r E H; [cbn [combo zcombo weight]; rewrite Rmult_0_r, Rminus_0_r, Rabs_R0; lra|].
  destruct q as [|y q]; destruct r as [|z r]; try discriminate.
  - cbn [combo zcombo]. rewrite Rmult_0_r, Rminus_0_r, Rabs_R0. apply IZR_le. clear. revert x. induction n as [|y n IH]; intros x; cbn [weight] in *; [lia|]. specialize (IH y). lia.
  - cbn [combo zcombo weight]. injection E as E. pose proof (IH q r E (fun i => H (S i))) as K. pose proof (H O) as K0. cbn [nth] in K0.
    rewrite !plus_IZR, mult_IZR, abs_IZR. pose proof (mulb _ _ _ _ (Rle_refl (Rabs (IZR x))) K0) as M. rewrite Rmult_1_r in M.
    replace (64 * (IZR x * z + combo n r) - (IZR x * IZR y + IZR (zcombo n q))) with (IZR x * (64 * z - IZR y) + (64 * combo n r - IZR (zcombo n q))) by ring.
    eapply Rle_trans; [apply Rabs_triang|]. lra.
Qed.
Lemma rates_near : forall i, Rabs (64 * nth i rt 0 - IZR (nth i rates64 0%Z)) <= 1.
Proof.
  pose proof PI_bounds as P. intros i. do 8 (destruct i as [|i]; [cbn [nth rt rates64]; unfold arcsec; apply Rabs_le; lra|]). destruct i; cbn [nth rt rates64]; rewrite Rmult_0_r, Rminus_0_r, Rabs_R0; lra.
Qed.
Lemma lo_ok : forall n, fast n = true -> 1 <= IZR (lo n) <= Rabs (rate n).
Proof.
  intros n H. apply Z.leb_le in H. split; [apply IZR_le; exact H|].
  assert (E : (64 * lo n <= Z.abs (zcombo n rates64) - weight n)%Z) by (unfold lo; rewrite Z.shiftr_div_pow2 by lia; apply Z.mul_div_le; reflexivity).
  apply IZR_le in E. rewrite mult_IZR, minus_IZR, abs_IZR in E. pose proof (near64 n rates64 rt eq_refl rates_near) as K. rewrite rt_rate in K.
  set (q := IZR (lo n)) in *. set (z := IZR (zcombo n rates64)) in *. set (r := rate n) in *. set (w := IZR (weight n)) in *. clearbody q z r w.
  apply Rabs_le_inv in K. clear H. unfold Rabs in *. destruct (Rcase_abs z), (Rcase_abs r); lra.
Qed.
Definition bE1 (x : term) : Z := let '(k, n, s, c) := x in
  if fast n then match k with O => 0 | _ => Z.of_nat k * size1 x / lo n + 1 end%Z else size1 x.
Definition bW1 (x : term) : Z := let '(k, n, s, c) := x in
  if fast n then (match k with O => 2 | _ => 1 end * size1 x / lo n + 1)%Z else 0%Z.
Fixpoint bE (l : list term) : Z := match l with [] => 0 | x :: r => bE1 x + bE r end%Z.
Fixpoint bW (l : list term) : Z := match l with [] => 0 | x :: r => bW1 x + bW r end%Z.
Lemma div_up : forall a b r y, 1 <= IZR b <= Rabs r -> Rabs y <= IZR a -> Rabs (/ r * y) <= IZR (a / b + 1).
Proof.
  intros a b r y Hb Hy. assert (B : (0 < b)%Z) by (apply lt_IZR; lra).
  pose proof (Z.div_mod a b ltac:(lia)) as E. pose proof (Z.mod_pos_bound a b B) as M. 
  assert (A : (a <= b * (a / b + 1))%Z) by lia. apply IZR_le in A. rewrite mult_IZR in A. set (q := IZR (a / b + 1)) in *. clearbody q.
  assert (r <> 0) by (intros ->; rewrite Rabs_R0 in Hb; lra). rewrite Rabs_mult, Rabs_inv. apply (Rmult_le_reg_l (Rabs r)); [lra|].
  rewrite <- Rmult_assoc, Rinv_r, Rmult_1_l by lra. apply Rle_trans with (IZR b * q); [lra|]. apply Rmult_le_compat_r; [|lra].
  pose proof (Rabs_pos y). destruct (Rle_dec 0 q) as [Hq|Hq]; [exact Hq|]. assert (IZR b * q < 0) by nra. lra.
Qed.
Lemma term_int : forall x, exists W w, C1 W w /\ forall t, Rabs t <= 1 -> Rabs (w t - ev1 (th t) t x) <= IZR (bE1 x) /\ Rabs (W t - W 0) <= IZR (bW1 x).
Proof.
  intros [[[k n] s] c]. unfold bE1, bW1. destruct (fast n) eqn:F.
  - apply lo_ok in F. set (r := rate n) in *. assert (r <> 0) by (intros E; rewrite E, Rabs_R0 in F; lra).
    pose (g t := IZR c * sin (combo n (th t)) - IZR s * cos (combo n (th t))).
    pose (g' t := r * (IZR s * sin (combo n (th t)) + IZR c * cos (combo n (th t)))).
    assert (G : C1 g g').
    { apply (C1_ext _ _ _ _ (C1_minus _ _ _ _ (C1_scal (IZR c) _ _ (C1_sin _ _ (th_C1 n))) (C1_scal (IZR s) _ _ (C1_cos _ _ (th_C1 n))))); intros t; unfold g, g', r; ring. }
    assert (GB : forall t, Rabs (g t) <= IZR (Z.abs s + Z.abs c)).
    { intros t. unfold g. rewrite plus_IZR, !abs_IZR. pose proof (sin_abs (combo n (th t))) as S. pose proof (cos_abs (combo n (th t))) as C.
      set (a := sin _) in *. set (b := cos _) in *. clearbody a b. pose proof (mulb _ _ _ _ (Rle_refl (Rabs (IZR c))) S) as M1. pose proof (mulb _ _ _ _ (Rle_refl (Rabs (IZR s))) C) as M2.
      apply Rabs_le_inv in M1. apply Rabs_le_inv in M2. apply Rabs_le. lra. }
    assert (PB : forall t m y B, Rabs t <= 1 -> Rabs y <= B -> Rabs (t ^ m * y) <= B).
    { intros t m y B Ht Hy. replace B with (1 * B) by ring. apply mulb; [apply pow_abs1; exact Ht|exact Hy]. }
    exists (fun t => / r * (t ^ k * g t)), (fun t => / r * (INR k * t ^ Nat.pred k * g t + t ^ k * g' t)). split.
    + apply (C1_ext _ _ _ _ (C1_scal (/ r) _ _ (C1_mult _ _ _ _ (C1_pow k) G))); intros t; reflexivity.
    + intros t Ht. cbn [ev1 size1]. split.
      * unfold g'. set (u := IZR s * sin _ + _). replace (/ r * (INR k * t ^ Nat.pred k * g t + t ^ k * (r * u)) - t ^ k * u) with (/ r * (t ^ Nat.pred k * (INR k * g t))) by (field; assumption).
        destruct k as [|k']; [cbn [INR]; rewrite Rmult_0_l, !Rmult_0_r, Rabs_R0; lra|]. apply div_up; [exact F|]. apply PB; [exact Ht|]. rewrite mult_IZR, <- INR_IZR_INZ, Rabs_mult, (Rabs_pos_eq (INR (S k'))) by apply pos_INR.
        apply Rmult_le_compat_l; [apply pos_INR|apply GB].
      * destruct k as [|k'].
        -- replace (/ r * (t ^ 0 * g t) - / r * (0 ^ 0 * g 0)) with (/ r * (g t - g 0)) by (cbn [pow]; ring). apply div_up; [exact F|]. rewrite mult_IZR.
           pose proof (GB t) as G1. pose proof (GB 0) as G2. apply Rabs_le_inv in G1. apply Rabs_le_inv in G2. apply Rabs_le. lra.
        -- replace (/ r * (t ^ S k' * g t) - / r * (0 ^ S k' * g 0)) with (/ r * (t ^ S k' * g t)) by (cbn [pow]; ring). apply div_up; [exact F|].
           apply PB; [exact Ht|]. rewrite Z.mul_1_l. apply GB.
  - exists (fun _ => 0), (fun _ => 0). split; [apply C1_const|]. intros t Ht. split; [|rewrite Rminus_0_r, Rabs_R0; lra].
    rewrite Rminus_0_l, Rabs_Ropp. apply ev1_size. exact Ht.
Qed.
Lemma list_int : forall l, exists W w, C1 W w /\ forall t, Rabs t <= 1 -> Rabs (w t - ev (th t) t l) <= IZR (bE l) /\ Rabs (W t - W 0) <= IZR (bW l).
Proof.
  induction l as [|x l (W & w & D & H)].
  - exists (fun _ => 0), (fun _ => 0). split; [apply C1_const|]. intros t _. cbn [ev bE bW]. rewrite !Rminus_0_r, Rabs_R0. lra.
  - destruct (term_int x) as (V & v & DV & HV). exists (fun t => V t + W t), (fun t => v t + w t). split; [apply C1_plus; assumption|].
    intros t Ht. destruct (H t Ht) as [A B]. destruct (HV t Ht) as [A' B']. cbn [ev bE bW]. rewrite !plus_IZR. 
    apply Rabs_le_inv in A. apply Rabs_le_inv in B. apply Rabs_le_inv in A'. apply Rabs_le_inv in B'. split; apply Rabs_le; lra.
Qed.

(** ** Rate of the pole in x, and the pole in y, to second order; units of 1e-30 *)
Definition cst (k : nat) (z : Z) : term := (k, z8, 0%Z, (z * 10 ^ 18)%Z).
Definition LX : list term := collect (
  [cst 0 9716595787; cst 1 (-4136933); cst 2 (-2898897)] ++
  smul 397777155932 LDPSI ++ tmul (smul (-208349067) LDPSI) ++ tmul (tmul (smul (-118674781) LDPSI)) ++
  tmul (smul 22360388848 LDEPS) ++ smul 22411549296 LEPS).
Definition LY : list term := collect (
  [cst 0 (-33060); cst 1 (-122367); cst 2 (-108633419); cst 3 8901; cst 4 5414] ++
  smul (10 ^ 12) LEPS ++ tmul (tmul (smul (-251138771) LEPS)) ++ tmul (smul (-8914802339) LPSI)).
Definition LXB : list term := big (10 ^ 23) LX.
Definition LYB : list term := big (10 ^ 20) LY.
Definition LXC : list term := coarse (10 ^ 18) LXB.
Definition LYC : list term := coarse (10 ^ 15) LYB.
Definition LEC : list term := coarse (10 ^ 3) LDEPS.
(** Units of 0.5e-27. *)
Definition LR : list term := gather (
  smul (2 * 10 ^ 9) LS ++ smul (-1) (mul LXC LYC) ++ tmul (tmul (tmul (smul 229342 LEC)))).
Definition LR_sizes : Z * Z * Z := fold_right (fun x r => let '(a, b, c) := r in (bE1 x + a, bW1 x + b, size1 x + c)%Z) (0, 0, 0)%Z LR.
Lemma LR_bounds : (let '(a, b, c) := LR_sizes in (a <=? 32 * 10 ^ 16) && (b <=? 8 * 10 ^ 16) && (c <=? 47 * 10 ^ 19))%Z = true.
Proof. vm_cast_no_check (eq_refl true). Qed.
Lemma LXY_bounds : ((size LXC <=? 29 * 10 ^ 9) && (size LYC <=? 159 * 10 ^ 9) && (size (small (10 ^ 23) LX) <=? 19 * 10 ^ 23 - 10 ^ 21) && (size (small (10 ^ 20) LY) <=? 21 * 10 ^ 20 - 10 ^ 18)
  && (Z.of_nat (length LXB) <=? 130) && (Z.of_nat (length LYB) <=? 110) && (Z.of_nat (length LDEPS) <=? 200))%Z = true.
Proof. vm_cast_no_check (eq_refl true). Qed.

Definition XF (t : R) : R :=
  0.009716595787 - 0.000004136933 * t - 0.000002898897 * t ^ 2 + 0.397777155932 * dpsi1 t - 0.000208349067 * (t * dpsi1 t)
  - 0.000118674781 * (t ^ 2 * dpsi1 t) + 0.022360388848 * (t * deps1 t) + 0.022411549296 * nut_deps t.
Definition YF (t : R) : R :=
  - 0.000000033060 - 0.000000122367 * t - 0.000108633419 * t ^ 2 + 0.000000008901 * t ^ 3 + 0.000000005414 * t ^ 4
  + nut_deps t - 0.000251138771 * (t ^ 2 * nut_deps t) - 0.008914802339 * (t * nut_dpsi t).
Lemma ev_cst : forall t k z, ev1 (th t) t (cst k z) = t ^ k * (IZR z * 10 ^ 18).
Proof.
  intros t k z. unfold cst. cbn [ev1]. assert (C : combo z8 (th t) = 0) by (unfold z8, th, nut_angles; cbn [app combo]; ring). rewrite C, sin_0, cos_0, mult_IZR.
  replace (IZR (10 ^ 18)) with (10 ^ 18) by (change (10 ^ 18)%Z with 1000000000000000000%Z; lra). ring.
Qed.
Lemma LX_ev : forall t, ev (th t) t LX / 10 ^ 30 =
  0.009716595787 - 0.000004136933 * t - 0.000002898897 * t ^ 2 + 0.397777155932 * (ev (th t) t LDPSI / 10 ^ 18) - 0.000208349067 * (t * (ev (th t) t LDPSI / 10 ^ 18))
  - 0.000118674781 * (t ^ 2 * (ev (th t) t LDPSI / 10 ^ 18)) + 0.022360388848 * (t * (ev (th t) t LDEPS / 10 ^ 18)) + 0.022411549296 * (ev (th t) t LEPS / 10 ^ 18).
Proof.
  intros t. unfold LX. rewrite ev_collect, !ev_app, !ev_tmul, !ev_smul. cbn [ev]. rewrite !ev_cst.
  set (a := ev _ _ LDPSI). set (b := ev _ _ LDEPS). set (c := ev _ _ LEPS). clearbody a b c. lra.
Qed.
Lemma LY_ev : forall t, ev (th t) t LY / 10 ^ 30 =
  - 0.000000033060 - 0.000000122367 * t - 0.000108633419 * t ^ 2 + 0.000000008901 * t ^ 3 + 0.000000005414 * t ^ 4
  + (ev (th t) t LEPS / 10 ^ 18) - 0.000251138771 * (t ^ 2 * (ev (th t) t LEPS / 10 ^ 18)) - 0.008914802339 * (t * (ev (th t) t LPSI / 10 ^ 18)).
Proof.
  intros t. unfold LY. rewrite ev_collect, !ev_app, !ev_tmul, !ev_smul. cbn [ev]. rewrite !ev_cst. change (10 ^ 12)%Z with 1000000000000%Z.
  set (a := ev _ _ LPSI). set (c := ev _ _ LEPS). clearbody a c. lra.
Qed.
Lemma XY_close : forall t, Rabs t <= 1 -> Rabs (XF t - ev (th t) t LX / 10 ^ 30) <= / 10 ^ 14 /\ Rabs (YF t - ev (th t) t LY / 10 ^ 30) <= / 10 ^ 14.
Proof.
  intros t Ht. destruct (psi_close t Ht) as [P E]. destruct (dpsi_close t Ht) as [P' E']. rewrite LX_ev, LY_ev. unfold XF, YF.
  set (a := ev _ _ LPSI / _) in *. set (b := ev _ _ LEPS / _) in *. set (c := ev _ _ LDPSI / _) in *. set (d := ev _ _ LDEPS / _) in *.
  set (D := nut_dpsi t) in *. set (E0 := nut_deps t) in *. set (D' := dpsi1 t) in *. set (E0' := deps1 t) in *. clearbody a b c d D E0 D' E0'.
  assert (T : forall x k, Rabs x <= 1300 / 10 ^ 18 -> Rabs (t ^ k * x) <= 1300 / 10 ^ 18).
  { intros x k Hx. replace (1300 / 10 ^ 18) with (1 * (1300 / 10 ^ 18)) by ring. apply mulb; [apply pow_abs1; exact Ht|exact Hx]. }
  pose proof (T _ 1%nat P) as P1. pose proof (T _ 2%nat E) as E2. pose proof (T _ 1%nat P') as P'1. pose proof (T _ 2%nat P') as P'2. pose proof (T _ 1%nat E') as E'1.
  rewrite pow_1 in P1, P'1, E'1. 
  replace (t * (D - a)) with (t * D - t * a) in P1 by ring. replace (t ^ 2 * (E0 - b)) with (t ^ 2 * E0 - t ^ 2 * b) in E2 by ring.
  replace (t * (D' - c)) with (t * D' - t * c) in P'1 by ring. replace (t ^ 2 * (D' - c)) with (t ^ 2 * D' - t ^ 2 * c) in P'2 by ring. replace (t * (E0' - d)) with (t * E0' - t * d) in E'1 by ring.
  apply Rabs_le_inv in P. apply Rabs_le_inv in E. apply Rabs_le_inv in P'. apply Rabs_le_inv in E'. apply Rabs_le_inv in P1. apply Rabs_le_inv in E2. apply Rabs_le_inv in P'1. apply Rabs_le_inv in P'2. apply Rabs_le_inv in E'1.
  set (tD := t * D) in *. set (ta := t * a) in *. set (tE := t ^ 2 * E0) in *. set (tb := t ^ 2 * b) in *. set (u1 := t * D') in *. set (u2 := t * c) in *. set (u3 := t ^ 2 * D') in *. set (u4 := t ^ 2 * c) in *.
  set (u5 := t * E0') in *. set (u6 := t * d) in *. clearbody tD ta tE tb u1 u2 u3 u4 u5 u6. split; apply Rabs_le; lra.
Qed.
Lemma prod_close : forall x y xb yb xs ys ex ey, Rabs (x - (xb + xs)) <= ex -> Rabs (y - (yb + ys)) <= ey ->
  forall X Y a b, Rabs xb <= X -> Rabs yb <= Y -> Rabs xs <= a -> Rabs ys <= b -> Rabs (x * y - xb * yb) <= X * (b + ey) + (a + ex) * (Y + b + ey).
Proof.
  intros x y xb yb xs ys ex ey Hx Hy X Y a b HX HY Ha Hb.
  assert (A : Rabs (x - xb) <= a + ex) by (apply Rabs_le_inv in Hx; apply Rabs_le_inv in Ha; apply Rabs_le; lra).
  assert (B : Rabs (y - yb) <= b + ey) by (apply Rabs_le_inv in Hy; apply Rabs_le_inv in Hb; apply Rabs_le; lra).
  assert (C : Rabs y <= Y + b + ey) by (apply Rabs_le_inv in B; apply Rabs_le_inv in HY; apply Rabs_le; lra).
  replace (x * y - xb * yb) with (xb * (y - yb) + (x - xb) * y) by ring. eapply Rle_trans; [apply Rabs_triang|]. apply Rplus_le_compat; apply mulb; assumption.
Qed.
Definition cube (t : R) : R := 0.000000114671 * (t ^ 3 * deps1 t).
Definition resid (t : R) : R := dsth t - XF t * YF t + cube t.
Lemma resid_arith : forall t s x y e lx ly rx ry ls le re : R, Rabs t <= 1 ->
  Rabs (x - (10 ^ 18 * lx + rx) / 10 ^ 30) <= / 10 ^ 14 -> Rabs (y - (10 ^ 15 * ly + ry) / 10 ^ 30) <= / 10 ^ 14 -> Rabs (s - ls / 10 ^ 18) <= 20000 / 10 ^ 18 -> Rabs (e - (1000 * le + re) / 10 ^ 18) <= 1300 / 10 ^ 18 ->
  Rabs lx <= 29000000000 -> Rabs ly <= 159000000000 -> Rabs rx <= 1900000000000000000000000 -> Rabs ry <= 2100000000000000000000 -> Rabs re <= 400000 ->
  Rabs (s - x * y + 0.000000114671 * (t ^ 3 * e) - (2 * 10 ^ 9 * ls + (-1 * (2 * (lx * ly)) + t * (t * (t * (229342 * le))))) / (2 * 10 ^ 27)) <= 0.37 / 10 ^ 9 /\ Rabs y <= 0.00016.
Proof.
  intros t s x y e lx ly rx ry ls le re Ht CX CY CS CE SX SY RX RY RE.
  assert (Q : forall z B k, Rabs z <= B -> Rabs (z / 10 ^ k) <= B / 10 ^ k).
  { intros z B k Hz. unfold Rdiv. rewrite Rabs_mult. assert (0 < / 10 ^ k) by (apply Rinv_0_lt_compat, pow_lt; lra). rewrite (Rabs_pos_eq (/ 10 ^ k)) by lra. apply Rmult_le_compat_r; lra. }
  assert (K1 : Rabs (lx / 10 ^ 12) <= 0.029) by (eapply Rle_trans; [apply (Q _ 29000000000); lra|lra]).
  assert (K2 : Rabs (ly / 10 ^ 15) <= 0.000159) by (eapply Rle_trans; [apply (Q _ 159000000000); lra|lra]).
  assert (K3 : Rabs (rx / 10 ^ 30) <= 0.0000019) by (eapply Rle_trans; [apply (Q _ 1900000000000000000000000); lra|lra]).
  assert (K4 : Rabs (ry / 10 ^ 30) <= 0.0000000021) by (eapply Rle_trans; [apply (Q _ 2100000000000000000000); lra|lra]).
  replace ((10 ^ 18 * lx + rx) / 10 ^ 30) with (lx / 10 ^ 12 + rx / 10 ^ 30) in CX by lra. replace ((10 ^ 15 * ly + ry) / 10 ^ 30) with (ly / 10 ^ 15 + ry / 10 ^ 30) in CY by lra.
  pose proof (prod_close _ _ _ _ _ _ _ _ CX CY _ _ _ _ K1 K2 K3 K4) as M.
  assert (CE' : Rabs (e - le / 10 ^ 15) <= / 10 ^ 12) by (apply Rabs_le_inv in CE; apply Rabs_le_inv in RE; apply Rabs_le; lra).
  assert (TE : Rabs (t ^ 3 * (e - le / 10 ^ 15)) <= 1 * (/ 10 ^ 12)) by (apply mulb; [apply pow_abs1; exact Ht|exact CE']).
  split.
  2:{ apply Rabs_le_inv in CY. apply Rabs_le_inv in K2. apply Rabs_le_inv in K4. apply Rabs_le. lra. }
  match goal with |- Rabs (_ - ?E / _) <= _ => replace (E / (2 * 10 ^ 27)) with (ls / 10 ^ 18 - lx / 10 ^ 12 * (ly / 10 ^ 15) + 0.000000114671 * (t ^ 3 * (le / 10 ^ 15))) end.
  2:{ clear. replace (lx / 10 ^ 12 * (ly / 10 ^ 15)) with (lx * ly / 10 ^ 27) by (clear; field). lra. }
  apply Rabs_le_inv in CS. apply Rabs_le_inv in M. apply Rabs_le_inv in TE.
  replace (t ^ 3 * (e - le / 10 ^ 15)) with (t ^ 3 * e - t ^ 3 * (le / 10 ^ 15)) in TE by ring.
  set (p := x * y) in *. set (q := lx / 10 ^ 12 * (ly / 10 ^ 15)) in *. set (v := t ^ 3 * e) in *. set (w := t ^ 3 * (le / 10 ^ 15)) in *. set (ls' := ls / 10 ^ 18) in *. clearbody p q v w ls'.
  apply Rabs_le. lra.
Qed.
Lemma size_le : forall t l b, Rabs t <= 1 -> (size l <=? b)%Z = true -> Rabs (ev (th t) t l) <= IZR b.
Proof. intros t l b Ht H. apply Z.leb_le, IZR_le in H. eapply Rle_trans; [apply ev_size; exact Ht|exact H]. Qed.
Lemma split_le : forall t b u l B n, Rabs t <= 1 -> (0 < u)%Z -> (size (small b l) <=? B)%Z = true -> (Z.of_nat (length (big b l)) <=? n)%Z = true ->
  exists r, ev (th t) t l = IZR u * ev (th t) t (coarse u (big b l)) + r /\ Rabs r <= IZR B + 2 * IZR u * IZR n.
Proof.
  intros t b u l B n Ht Hu HB Hn. apply (size_le t _ _ Ht) in HB. apply Z.leb_le, IZR_le in Hn. pose proof (ev_coarse (th t) t u (big b l) Hu Ht) as C.
  apply IZR_lt in Hu. pose proof (ev_split (th t) t b l) as E. exists (ev (th t) t l - IZR u * ev (th t) t (coarse u (big b l))). split; [ring|]. rewrite E.
  set (p := ev (th t) t (big b l)) in *. set (q := ev (th t) t (small b l)) in *. set (m := IZR u * ev _ _ (coarse _ _)) in *. set (w := IZR (Z.of_nat _)) in *. set (v := IZR u) in *. set (N := IZR n) in *. clearbody p q m w v N.
  assert (2 * v * w <= 2 * v * N) by nra. apply Rabs_le_inv in C. apply Rabs_le_inv in HB. apply Rabs_le. lra.
Qed.
Lemma LXY_list : ((size LXC <=? 29 * 10 ^ 9) = true /\ (size LYC <=? 159 * 10 ^ 9) = true /\ (size (small (10 ^ 23) LX) <=? 19 * 10 ^ 23 - 10 ^ 21) = true /\ (size (small (10 ^ 20) LY) <=? 21 * 10 ^ 20 - 10 ^ 18) = true
  /\ (Z.of_nat (length LXB) <=? 130) = true /\ (Z.of_nat (length LYB) <=? 110) = true /\ (Z.of_nat (length LDEPS) <=? 200) = true)%Z.
Proof.
  pose proof LXY_bounds as B. apply andb_prop in B. destruct B as [B B7]. apply andb_prop in B. destruct B as [B B6]. apply andb_prop in B. destruct B as [B B5]. apply andb_prop in B. destruct B as [B B4].
  apply andb_prop in B. destruct B as [B B3]. apply andb_prop in B. destruct B as [B1 B2]. exact (conj B1 (conj B2 (conj B3 (conj B4 (conj B5 (conj B6 B7)))))).
Qed.
Global Opaque LX LY LS LDEPS LDPSI LEPS LPSI.
Lemma X_split : forall t, Rabs t <= 1 -> exists r, ev (th t) t LX = 10 ^ 18 * ev (th t) t LXC + r /\ Rabs r <= 1900000000000000000000000.
Proof.
  intros t Ht. destruct LXY_list as (_ & _ & B3 & _ & B5 & _).
  destruct (split_le t (10 ^ 23) (10 ^ 18) LX _ _ Ht ltac:(reflexivity) B3 B5) as (r & E & H'). exists r.
  change (10 ^ 18)%Z with 1000000000000000000%Z in E, H'. replace (10 ^ 18) with 1000000000000000000 by lra. split; [exact E|].
  change (19 * 10 ^ 23 - 10 ^ 21)%Z with 1899000000000000000000000%Z in H'. lra.
Qed.
Lemma Y_split : forall t, Rabs t <= 1 -> exists r, ev (th t) t LY = 10 ^ 15 * ev (th t) t LYC + r /\ Rabs r <= 2100000000000000000000.
Proof.
  intros t Ht. destruct LXY_list as (_ & _ & _ & B4 & _ & B6 & _).
  destruct (split_le t (10 ^ 20) (10 ^ 15) LY _ _ Ht ltac:(reflexivity) B4 B6) as (r & E & H'). exists r.
  change (10 ^ 15)%Z with 1000000000000000%Z in E, H'. replace (10 ^ 15) with 1000000000000000 by lra. split; [exact E|].
  change (21 * 10 ^ 20 - 10 ^ 18)%Z with 2099000000000000000000%Z in H'. lra.
Qed.
Lemma E_split : forall t, Rabs t <= 1 -> exists r, ev (th t) t LDEPS = 1000 * ev (th t) t LEC + r /\ Rabs r <= 400000.
Proof.
  intros t Ht. destruct LXY_list as (_ & _ & _ & _ & _ & _ & B). apply Z.leb_le, IZR_le in B. pose proof (ev_coarse (th t) t (10 ^ 3) LDEPS ltac:(reflexivity) Ht) as C.
  exists (ev (th t) t LDEPS - 1000 * ev (th t) t LEC). split; [ring|]. eapply Rle_trans; [exact C|]. change (10 ^ 3)%Z with 1000%Z. set (w := IZR (Z.of_nat _)) in *. clearbody w. lra.
Qed.
Lemma R_ev : forall t, ev (th t) t LR = 2 * 10 ^ 9 * ev (th t) t LS + (-1 * (2 * (ev (th t) t LXC * ev (th t) t LYC)) + t * (t * (t * (229342 * ev (th t) t LEC)))).
Proof.
  intros t. unfold LR. rewrite ev_gather, !ev_app, !ev_tmul, !ev_smul, ev_mul, !mult_IZR.
  replace (IZR (10 ^ 9)) with (10 ^ 9) by (change (10 ^ 9)%Z with 1000000000%Z; lra). reflexivity.
Qed.
Lemma fold_sizes : forall l, fold_right (fun x r => let '(a, b, c) := r in (bE1 x + a, bW1 x + b, size1 x + c)%Z) (0, 0, 0)%Z l = (bE l, bW l, size l).
Proof. induction l as [|x l IH]; [reflexivity|]. cbn [fold_right bE bW size]. rewrite IH. reflexivity. Qed.
Lemma LR_le : ((bE LR <= 32 * 10 ^ 16) /\ (bW LR <= 8 * 10 ^ 16))%Z /\ (size LR <=? 47 * 10 ^ 19)%Z = true.
Proof.
  pose proof LR_bounds as B. unfold LR_sizes in B. rewrite fold_sizes in B. apply andb_prop in B. destruct B as [B B3]. apply andb_prop in B. destruct B as [B1 B2].
  apply Z.leb_le in B1. apply Z.leb_le in B2. split; [split; assumption|exact B3].
Qed.
Global Opaque LX LY LXB LYB LXC LYC LEC LS LR LDEPS LDPSI LEPS LPSI.
Lemma resid_close : forall t, Rabs t <= 1 -> Rabs (resid t - ev (th t) t LR / (2 * 10 ^ 27)) <= 0.37 / 10 ^ 9 /\ Rabs (YF t) <= 0.00016.
Proof.
  intros t Ht. destruct (XY_close t Ht) as [CX CY]. pose proof (ds_close t Ht) as CS. destruct (dpsi_close t Ht) as [_ CE].
  destruct LXY_list as (B1 & B2 & _).
  apply (size_le t _ _ Ht) in B1. apply (size_le t _ _ Ht) in B2. change (29 * 10 ^ 9)%Z with 29000000000%Z in B1. change (159 * 10 ^ 9)%Z with 159000000000%Z in B2.
  destruct (X_split t Ht) as (rx & EX & RX). destruct (Y_split t Ht) as (ry & EY & RY). destruct (E_split t Ht) as (re & EE & RE).
  rewrite EX in CX. rewrite EY in CY. rewrite EE in CE. rewrite R_ev. unfold resid, cube.
  exact (resid_arith t _ _ _ _ _ _ _ _ _ _ _ Ht CX CY CS CE B1 B2 RX RY RE).
Qed.
Lemma resid_int : exists W w, C1 W w /\ forall t, Rabs t <= 1 -> Rabs (w t - resid t) <= 0.53 / 10 ^ 9 /\ Rabs (W t - W 0) <= 0.04 / 10 ^ 9.
Proof.
  destruct (list_int LR) as (W & w & D & H). destruct LR_le as [[B1 B2] _].
  apply IZR_le in B1. apply IZR_le in B2.
  exists (fun t => / (2 * 10 ^ 27) * W t), (fun t => / (2 * 10 ^ 27) * w t). split; [apply C1_scal; exact D|]. intros t Ht. destruct (H t Ht) as [A C]. destruct (resid_close t Ht) as [E _].
  change (32 * 10 ^ 16)%Z with 320000000000000000%Z in B1. change (8 * 10 ^ 16)%Z with 80000000000000000%Z in B2.
  set (b1 := IZR (bE LR)) in *. set (b2 := IZR (bW LR)) in *. set (l := ev _ _ LR) in *. set (u := w t) in *. set (r := resid t) in *. set (p := W t) in *. set (q := W 0) in *. clearbody b1 b2 l u r p q.
  apply Rabs_le_inv in A. apply Rabs_le_inv in C. apply Rabs_le_inv in E. split; apply Rabs_le; lra.
Qed.
Lemma resid_point : forall t, Rabs t <= 1 -> Rabs (resid t) <= 0.24 / 10 ^ 6.
Proof.
  intros t Ht. destruct (resid_close t Ht) as [E _]. destruct LR_le as [_ B]. apply (size_le t _ _ Ht) in B.
  change (47 * 10 ^ 19)%Z with 470000000000000000000%Z in B. set (l := ev _ _ LR) in *. set (r := resid t) in *. clearbody l r.
  apply Rabs_le_inv in B. apply Rabs_le_inv in E. apply Rabs_le. lra.
Qed.
Lemma XF_bound : forall t, Rabs t <= 1 -> Rabs (XF t) <= 0.02901.
Proof.
  intros t Ht. destruct (XY_close t Ht) as [CX _]. destruct LXY_list as (B1 & _). apply (size_le t _ _ Ht) in B1. change (29 * 10 ^ 9)%Z with 29000000000%Z in B1.
  destruct (X_split t Ht) as (rx & EX & RX). rewrite EX in CX. set (l := ev _ _ LXC) in *. clearbody l.
  apply Rabs_le_inv in CX. apply Rabs_le_inv in B1. apply Rabs_le_inv in RX. apply Rabs_le. lra.
Qed.
