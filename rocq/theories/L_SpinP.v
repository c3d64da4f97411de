(** * Lemmas for C100: motion of the pole to second order *)

From Coq Require Import ZArith Reals Lra Lia Bool List.
From Flocq Require Import Core.
From Verif Require Import Arith ArithR M_Common M_Time T_Nut T_Cio Spec_Matrix Spec_Frames Spec_Series Spec_C2t.
From Verif Require Import L_Poisson L_SeriesR L_Closed L_Pi L_PPole L_CioLow L_Lip L_PolyB L_Spin L_SpinR L_Taylor L_Eval L_Near L_PFrames L_Almanac.
Import ListNotations.
Open Scope R_scope.

(** ** The pole in terms of sines and cosines *)
Definition xi : R := arcsec (-0.041775) * sin eps_0.
Definition atoms (t : R) : list R :=
  [t; nut_dpsi t; nut_deps t; sin (eps_A t + nut_deps t); cos (eps_A t + nut_deps t); sin (eps_A t); cos (eps_A t);
   sin (nut_dpsi t); cos (nut_dpsi t); sin (nut_deps t); cos (nut_deps t); sin (omega_A t); cos (omega_A t);
   sin (chi_A t); cos (chi_A t); sin (psi_A t); cos (psi_A t); sin eps_0; cos eps_0;
   sin (arcsec 0.0068192); cos (arcsec 0.0068192); sin xi; cos xi; sin (arcsec (-0.0146)); cos (arcsec (-0.0146)); kap; dpsi1 t; deps1 t].
Definition neg (e : pe) : pe := PS (PC 0 0) e.
Definition one : pe := PC 1 0.
Definition nx : pe := PM (PV 3) (PV 7).
Definition ny : pe := PS (PV 9) (PM (PM (PV 3) (PV 6)) (PS one (PV 8))).
Definition nz : pe := PS (PV 10) (PM (PM (PV 3) (PV 5)) (PS one (PV 8))).
Definition mx : pe := PS (PM nx (PV 14)) (PM ny (PV 13)).
Definition my : pe := PA (PM nx (PV 13)) (PM ny (PV 14)).
Definition bp : pe := PA (PM my (PV 12)) (PM nz (PV 11)).
Definition cp : pe := PS (PM nz (PV 12)) (PM my (PV 11)).
Definition qx : pe := PA (PM mx (PV 16)) (PM bp (PV 15)).
Definition bq : pe := PS (PM bp (PV 16)) (PM mx (PV 15)).
Definition qy : pe := PS (PM bq (PV 18)) (PM cp (PV 17)).
Definition qz : pe := PA (PM bq (PV 17)) (PM cp (PV 18)).
Definition rx : pe := PA (PM qx (PV 22)) (PM (PA (PM qy (PV 19)) (PM qz (PV 20))) (PV 21)).
Definition ry : pe := PS (PM qy (PV 20)) (PM qz (PV 19)).
Definition PX : pe := PS (PM rx (PV 24)) (PM ry (PV 23)).
Definition PY : pe := PA (PM rx (PV 23)) (PM ry (PV 24)).

Lemma act_R2 : forall x a b c, act (rot3 I1 x) (V3 (A := realA) a b c) = V3 (A := realA) (a * cos x + c * sin x) b (c * cos x - a * sin x).
Proof. intros. unfold act, mapply. cbn. change (num realA) with R. f_equal; ring. Qed.
Lemma pole_atoms : forall t, pole_x t = peval (atoms t) PX /\ pole_y t = peval (atoms t) PY.
Proof.
  intros t. unfold pole_x, pole_y, NPB. rewrite <- !row3_act, product_3, !act_mm, n_act. unfold P_matrix, B_matrix. rewrite product_4, product_3, !act_mm. fold xi.
  unfold R1, R2, R3. rewrite act_R3, act_R1, act_R3, act_R1, act_R1, act_R2, act_R3, !sin_neg, !cos_neg.
  unfold PX, PY, rx, ry, qx, qy, qz, bq, bp, cp, mx, my, nx, ny, nz, one, atoms. unfold coord. cbn [vget v0 v1 v2 peval nth]. change (num realA) with R.
  replace (dcm 1 0) with 1 by (unfold dcm; cbn [Z.of_nat Z.pow]; lra). split; ring.
Qed.

(** ** Derivatives *)
Definition lt (c : Z) (n : nat) (e : pe) : pe := PM (PC c n) e.
Definition dea : pe := PM (PV 25) (PA (PC (-4684024) 5) (PA (lt (-118) 5 (PV 0)) (lt 5439 6 (PM (PV 0) (PV 0))))).
Definition dom : pe := PM (PV 25) (PA (PC (-2524) 5) (PA (lt 10254 5 (PV 0)) (lt (-23178) 6 (PM (PV 0) (PV 0))))).
Definition dch : pe := PM (PV 25) (PA (PC 105526 4) (PA (lt (-476128) 5 (PV 0)) (lt (-3375) 6 (PM (PV 0) (PV 0))))).
Definition dps : pe := PM (PV 25) (PA (PC 503847875 5) (PA (lt (-214518) 5 (PV 0)) (lt (-3441) 6 (PM (PV 0) (PV 0))))).
Definition ders : list pe :=
  [one; PV 26; PV 27; PM (PV 4) (PA dea (PV 27)); neg (PM (PV 3) (PA dea (PV 27))); PM (PV 6) dea; neg (PM (PV 5) dea);
   PM (PV 8) (PV 26); neg (PM (PV 7) (PV 26)); PM (PV 10) (PV 27); neg (PM (PV 9) (PV 27)); PM (PV 12) dom; neg (PM (PV 11) dom);
   PM (PV 14) dch; neg (PM (PV 13) dch); PM (PV 16) dps; neg (PM (PV 15) dps)].
Lemma d0 : forall m, dcm m 0 = IZR m.
Proof. intros m. unfold dcm. cbn [Z.of_nat Z.pow]. lra. Qed.
Lemma cubic_C1 : forall a b c d, C1 (fun t => arcsec (a + b * t + c * t ^ 2 + d * t ^ 3)) (fun t => kap * (b + (2 * c * t + 3 * d * (t * t)))).
Proof.
  intros a b c d. apply (C1_ext _ _ _ _ (C1_scal kap _ _ (C1_plus _ _ _ _ (C1_plus _ _ _ _ (C1_plus _ _ _ _ (C1_const a) (C1_scal b _ _ C1_id)) (C1_scal c _ _ (C1_pow 2))) (C1_scal d _ _ (C1_pow 3))))); intros t.
  - unfold arcsec. fold kap. ring.
  - cbn [INR Nat.pred]. ring.
Qed.
Lemma eps_C1 : C1 eps_A (fun t => peval (atoms t) dea).
Proof.
  apply (C1_ext _ _ _ _ (cubic_C1 84381.448 (- 46.84024) (- 0.00059) 0.001813)); intros t; [unfold eps_A, eps_1980, arcsec; lra|].
  unfold dea, lt, atoms. cbn [peval nth]. unfold dcm. change (10 ^ Z.of_nat 4)%Z with 10000%Z. change (10 ^ Z.of_nat 5)%Z with 100000%Z. change (10 ^ Z.of_nat 6)%Z with 1000000%Z. lra.
Qed.
Lemma om_C1 : C1 omega_A (fun t => peval (atoms t) dom).
Proof.
  apply (C1_ext _ _ _ _ (cubic_C1 84381.448 (- 0.02524) 0.05127 (- 0.007726))); intros t; [unfold omega_A, arcsec; lra|].
  unfold dom, lt, atoms. cbn [peval nth]. unfold dcm. change (10 ^ Z.of_nat 4)%Z with 10000%Z. change (10 ^ Z.of_nat 5)%Z with 100000%Z. change (10 ^ Z.of_nat 6)%Z with 1000000%Z. lra.
Qed.
Lemma chi_C1 : C1 chi_A (fun t => peval (atoms t) dch).
Proof.
  apply (C1_ext _ _ _ _ (cubic_C1 0 10.5526 (- 2.38064) (- 0.001125))); intros t; [unfold chi_A, arcsec; lra|].
  unfold dch, lt, atoms. cbn [peval nth]. unfold dcm. change (10 ^ Z.of_nat 4)%Z with 10000%Z. change (10 ^ Z.of_nat 5)%Z with 100000%Z. change (10 ^ Z.of_nat 6)%Z with 1000000%Z. lra.
Qed.
Lemma ps_C1 : C1 psi_A (fun t => peval (atoms t) dps).
Proof.
  apply (C1_ext _ _ _ _ (cubic_C1 0 5038.47875 (- 1.07259) (- 0.001147))); intros t; [unfold psi_A, arcsec; lra|].
  unfold dps, lt, atoms. cbn [peval nth]. unfold dcm. change (10 ^ Z.of_nat 4)%Z with 10000%Z. change (10 ^ Z.of_nat 5)%Z with 100000%Z. change (10 ^ Z.of_nat 6)%Z with 1000000%Z. lra.
Qed.
Lemma S_C1 : forall f e, C1 f (fun t => peval (atoms t) e) -> forall i, (forall t, nth i (atoms t) 0 = cos (f t)) -> C1 (fun t => sin (f t)) (fun t => peval (atoms t) (PM (PV i) e)).
Proof. intros f e H i N. apply (C1_ext _ _ _ _ (C1_sin _ _ H)); intros t; [reflexivity|]. cbn [peval]. rewrite N. reflexivity. Qed.
Lemma K_C1 : forall f e, C1 f (fun t => peval (atoms t) e) -> forall i, (forall t, nth i (atoms t) 0 = sin (f t)) -> C1 (fun t => cos (f t)) (fun t => peval (atoms t) (neg (PM (PV i) e))).
Proof. intros f e H i N. apply (C1_ext _ _ _ _ (C1_cos _ _ H)); intros t; [reflexivity|]. unfold neg. cbn [peval]. rewrite N, d0. ring. Qed.
Lemma sum_C1 : C1 (fun t => eps_A t + nut_deps t) (fun t => peval (atoms t) (PA dea (PV 27))).
Proof. apply (C1_ext _ _ _ _ (C1_plus _ _ _ _ eps_C1 deps_C1)); intros t; reflexivity. Qed.
Lemma psi_C1' : C1 nut_dpsi (fun t => peval (atoms t) (PV 26)).
Proof. apply (C1_ext _ _ _ _ dpsi_C1); intros t; reflexivity. Qed.
Lemma eps_C1' : C1 nut_deps (fun t => peval (atoms t) (PV 27)).
Proof. apply (C1_ext _ _ _ _ deps_C1); intros t; reflexivity. Qed.
Lemma atoms_C1 : forall i, (i < 26)%nat -> C1 (fun t => nth i (atoms t) 0) (fun t => peval (atoms t) (nth i ders (PC 0 0))).
Proof.
  intros i Hi. destruct i as [|i]; [apply (C1_ext _ _ _ _ C1_id); intros t; [reflexivity|unfold ders, one; cbn [nth peval]; symmetry; apply d0]|].
  destruct i as [|i]; [exact psi_C1'|]. destruct i as [|i]; [exact eps_C1'|].
  destruct i as [|i]; [exact (S_C1 _ _ sum_C1 4%nat (fun _ => eq_refl))|]. destruct i as [|i]; [exact (K_C1 _ _ sum_C1 3%nat (fun _ => eq_refl))|].
  destruct i as [|i]; [exact (S_C1 _ _ eps_C1 6%nat (fun _ => eq_refl))|]. destruct i as [|i]; [exact (K_C1 _ _ eps_C1 5%nat (fun _ => eq_refl))|].
  destruct i as [|i]; [exact (S_C1 _ _ psi_C1' 8%nat (fun _ => eq_refl))|]. destruct i as [|i]; [exact (K_C1 _ _ psi_C1' 7%nat (fun _ => eq_refl))|].
  destruct i as [|i]; [exact (S_C1 _ _ eps_C1' 10%nat (fun _ => eq_refl))|]. destruct i as [|i]; [exact (K_C1 _ _ eps_C1' 9%nat (fun _ => eq_refl))|].
  destruct i as [|i]; [exact (S_C1 _ _ om_C1 12%nat (fun _ => eq_refl))|]. destruct i as [|i]; [exact (K_C1 _ _ om_C1 11%nat (fun _ => eq_refl))|].
  destruct i as [|i]; [exact (S_C1 _ _ chi_C1 14%nat (fun _ => eq_refl))|]. destruct i as [|i]; [exact (K_C1 _ _ chi_C1 13%nat (fun _ => eq_refl))|].
  destruct i as [|i]; [exact (S_C1 _ _ ps_C1 16%nat (fun _ => eq_refl))|]. destruct i as [|i]; [exact (K_C1 _ _ ps_C1 15%nat (fun _ => eq_refl))|].
  assert (Z : forall c, C1 (fun _ => c) (fun t => peval (atoms t) (PC 0 0))) by (intros c; apply (C1_ext _ _ _ _ (C1_const c)); intros t; [reflexivity|cbn [peval]; symmetry; apply d0]).
  do 9 (destruct i as [|i]; [match goal with |- C1 ?f _ => exact (Z (f 0)) end|]). exfalso. lia.
Qed.
Definition DX : pe := pder ders PX.
Definition DY : pe := pder ders PY.
Definition px1 (t : R) : R := peval (atoms t) DX.
Definition py1 (t : R) : R := peval (atoms t) DY.
Lemma px_C1 : C1 pole_x px1.
Proof.
  apply (C1_ext _ _ _ _ (pder_C1 atoms ders 26 atoms_C1 PX eq_refl)); intros t; [symmetry; apply pole_atoms|reflexivity].
Qed.
Lemma py_C1 : C1 pole_y py1.
Proof.
  apply (C1_ext _ _ _ _ (pder_C1 atoms ders 26 atoms_C1 PY eq_refl)); intros t; [symmetry; apply pole_atoms|reflexivity].
Qed.

(** ** Approximations of the sines and cosines *)
Definition env (t : R) : list R := [t; nut_dpsi t; nut_deps t; dpsi1 t; deps1 t].
Definition bnd : list dec_t := [(1, 0%nat); (944123, 10%nat); (489008, 10%nat); (46948, 6%nat); (18858, 6%nat)]%Z.
Definition tms : list tm := [
 ([([0]%nat, ((1000000000000)%Z, 12%nat))], ((0)%Z, 0%nat));
 ([([1]%nat, ((1000000000000)%Z, 12%nat))], ((0)%Z, 0%nat));
 ([([2]%nat, ((1000000000000)%Z, 12%nat))], ((0)%Z, 0%nat));
 ([([], ((397777155932)%Z, 12%nat)); ([0]%nat, ((-208349067)%Z, 12%nat)); ([2]%nat, ((917482062069)%Z, 12%nat))], ((4)%Z, 8%nat));
 ([([], ((917482062069)%Z, 12%nat)); ([0]%nat, ((90330376)%Z, 12%nat)); ([2]%nat, ((-397777155932)%Z, 12%nat))], ((6)%Z, 8%nat));
 ([([], ((397777155932)%Z, 12%nat)); ([0]%nat, ((-208349067)%Z, 12%nat))], ((4)%Z, 8%nat));
 ([([], ((917482062069)%Z, 12%nat)); ([0]%nat, ((90330376)%Z, 12%nat))], ((6)%Z, 8%nat));
 ([([1]%nat, ((1000000000000)%Z, 12%nat))], ((2)%Z, 13%nat));
 ([([], ((1000000000000)%Z, 12%nat))], ((45)%Z, 10%nat));
 ([([2]%nat, ((1000000000000)%Z, 12%nat))], ((2)%Z, 13%nat));
 ([([], ((1000000000000)%Z, 12%nat))], ((12)%Z, 10%nat));
 ([([], ((397777155932)%Z, 12%nat)); ([0]%nat, ((-112270)%Z, 12%nat)); ([0; 0]%nat, ((228053)%Z, 12%nat)); ([0; 0; 0]%nat, ((-34366)%Z, 12%nat))], ((1)%Z, 11%nat));
 ([([], ((917482062069)%Z, 12%nat)); ([0]%nat, ((48675)%Z, 12%nat)); ([0; 0]%nat, ((-98873)%Z, 12%nat)); ([0; 0; 0]%nat, ((14899)%Z, 12%nat))], ((1)%Z, 11%nat));
 ([([0]%nat, ((51160449)%Z, 12%nat)); ([0; 0]%nat, ((-11541668)%Z, 12%nat))], ((6)%Z, 9%nat));
 ([([], ((1000000000000)%Z, 12%nat))], ((3)%Z, 9%nat));
 ([([0]%nat, ((24427234300)%Z, 12%nat)); ([0; 0]%nat, ((-5200063)%Z, 12%nat)); ([0; 0; 0]%nat, ((-2429247)%Z, 12%nat))], ((1)%Z, 8%nat));
 ([([], ((1000000000000)%Z, 12%nat)); ([0; 0]%nat, ((-298344888)%Z, 12%nat)); ([0; 0; 0]%nat, ((127023)%Z, 12%nat)); ([0; 0; 0; 0]%nat, ((14835)%Z, 12%nat))], ((4)%Z, 10%nat));
 ([([], ((397777155932)%Z, 12%nat))], ((1)%Z, 12%nat));
 ([([], ((917482062069)%Z, 12%nat))], ((1)%Z, 12%nat));
 ([([], ((33060)%Z, 12%nat))], ((1)%Z, 12%nat));
 ([([], ((1000000000000)%Z, 12%nat))], ((1)%Z, 12%nat));
 ([([], ((-80562)%Z, 12%nat))], ((1)%Z, 12%nat));
 ([([], ((1000000000000)%Z, 12%nat))], ((1)%Z, 12%nat));
 ([([], ((-70783)%Z, 12%nat))], ((1)%Z, 12%nat));
 ([([], ((1000000000000)%Z, 12%nat))], ((1)%Z, 12%nat));
 ([([], ((4848136811095)%Z, 18%nat))], ((1)%Z, 18%nat));
 ([([3]%nat, ((1000000000000)%Z, 12%nat))], ((0)%Z, 0%nat));
 ([([4]%nat, ((1000000000000)%Z, 12%nat))], ((0)%Z, 0%nat))].
Definition XFP : pe :=
  PA (PC 9716595787 12) (PA (PM (PV 0) (PC (-4136933) 12)) (PA (PM (PM (PV 0) (PV 0)) (PC (-2898897) 12)) (PA (PM (PC 397777155932 12) (PV 26))
  (PA (PM (PC (-208349067) 12) (PM (PV 0) (PV 26))) (PA (PM (PC (-118674781) 12) (PM (PM (PV 0) (PV 0)) (PV 26))) (PA (PM (PC 22360388848 12) (PM (PV 0) (PV 27)))
  (PM (PC 22411549296 12) (PV 2)))))))).
Definition YFP : pe :=
  PA (PC (-33060) 12) (PA (PM (PC (-122367) 12) (PV 0)) (PA (PM (PC (-108633419) 12) (PM (PV 0) (PV 0))) (PA (PM (PC 8901 12) (PM (PV 0) (PM (PV 0) (PV 0))))
  (PA (PM (PC 5414 12) (PM (PM (PV 0) (PV 0)) (PM (PV 0) (PV 0)))) (PA (PV 2) (PA (PM (PC (-251138771) 12) (PM (PM (PV 0) (PV 0)) (PV 2)))
  (PM (PC (-8914802339) 12) (PM (PV 0) (PV 1))))))))).
Definition tol : dec_t := (1%Z, 12%nat).

Lemma eps0_b : Rabs (sin eps_0 - 0.397777155932) <= / 10 ^ 12 /\ Rabs (cos eps_0 - 0.917482062069) <= / 10 ^ 12.
Proof.
  destruct (cossin_ok 80 ltac:(split; discriminate) 409092804222328967 1000000000000000000 eq_refl ltac:(split; discriminate)) as [C S].
  set (x := IZR 409092804222328967 / IZR 1000000000000000000) in *.
  assert (X : Rabs (eps_0 - x) <= / 10 ^ 13) by (unfold eps_0, arcsec, x; pose proof PI_bounds_24; apply Rabs_le; lra).
  pose proof (L_Epv.sin_lip eps_0 x) as SL. pose proof (L_Orbit.cos_lip eps_0 x) as CL. 
  assert (FC : Rabs (fx 80 (fst (cossin 80 409092804222328967 1000000000000000000)) - 0.917482062069) <= 0.7 / 10 ^ 12).
  { unfold fx, ep, SC. change (2 ^ 80)%Z with 1208925819614629174706176%Z. match goal with |- context[IZR ?z * _] => let v := eval vm_compute in z in change z with v end. apply Rabs_le. lra. }
  assert (FS : Rabs (fx 80 (snd (cossin 80 409092804222328967 1000000000000000000)) - 0.397777155932) <= 0.7 / 10 ^ 12).
  { unfold fx, ep, SC. change (2 ^ 80)%Z with 1208925819614629174706176%Z. match goal with |- context[IZR ?z * _] => let v := eval vm_compute in z in change z with v end. apply Rabs_le. lra. }
  unfold eval_err, ep, SC in *. change (2 ^ 80)%Z with 1208925819614629174706176%Z in *. set (u := fx _ (fst _)) in *. set (v := fx _ (snd _)) in *. clearbody u v x.
  set (s := sin eps_0) in *. set (c := cos eps_0) in *. set (s' := sin x) in *. set (c' := cos x) in *. clearbody s c s' c'.
  assert (SL' : Rabs (s - s') <= / 10 ^ 13) by lra. assert (CL' : Rabs (c - c') <= / 10 ^ 13) by lra. clear SL CL X.
  apply Rabs_le_inv in C. apply Rabs_le_inv in S. apply Rabs_le_inv in SL'. apply Rabs_le_inv in CL'. apply Rabs_le_inv in FC. apply Rabs_le_inv in FS. split; apply Rabs_le; lra.
Qed.
(** Sine and cosine near the obliquity at J2000.0. *)
Lemma near_eps : forall h l b d, Rabs h <= b -> b <= 0.001 -> Rabs (h - l) <= d ->
  Rabs (sin (eps_0 + h) - (0.397777155932 + 0.917482062069 * l)) <= 0.2 * (b * b) + b * (b * b) / 5 + 0.92 * d + 1.1 / 10 ^ 12 /\
  Rabs (cos (eps_0 + h) - (0.917482062069 - 0.397777155932 * l)) <= 0.46 * (b * b) + b * (b * b) / 5 + 0.4 * d + 1.1 / 10 ^ 12.
Proof.
  intros h l b d Hb B Hd. destruct eps0_b as [S C]. rewrite sin_plus, cos_plus. pose proof (one_cos_small h b Hb) as K. pose proof (sin_small h b Hb ltac:(lra)) as Z.
  assert (P : 0 <= b) by (pose proof (Rabs_pos h); lra).
  assert (Z' : Rabs (sin h - h) <= b * (b * b) / 5). { eapply Rle_trans; [exact Z|]. replace (b ^ 5) with (b * (b * b) * (b * b)) by ring. replace (b ^ 3) with (b * (b * b)) by ring. 
    assert (0 <= b * (b * b)) by nra. assert (b * b <= 1) by nra. set (q := b * (b * b)) in *. set (w := b * b) in *. clearbody q w. nra. }
  clear Z. set (ch := cos h) in *. set (sh := sin h) in *. set (s := sin eps_0) in *. set (c := cos eps_0) in *. clearbody ch sh s c.
  set (b2 := b * b) in *. set (b3 := b * b2) in *. clearbody b3.
  assert (H1 : Rabs (s * (1 - ch)) <= 0.4 * (b2 / 2)) by (apply mulb; apply Rabs_le; [apply Rabs_le_inv in S; lra|lra]).
  assert (H2 : Rabs (c * (1 - ch)) <= 0.92 * (b2 / 2)) by (apply mulb; apply Rabs_le; [apply Rabs_le_inv in C; lra|lra]).
  assert (H3 : Rabs (s * (sh - h)) <= 1 * (b3 / 5)) by (apply mulb; [apply Rabs_le; apply Rabs_le_inv in S; lra|exact Z']).
  assert (H4 : Rabs (c * (sh - h)) <= 1 * (b3 / 5)) by (apply mulb; [apply Rabs_le; apply Rabs_le_inv in C; lra|exact Z']).
  assert (H5 : Rabs ((s - 0.397777155932) * h) <= / 10 ^ 12 * b) by (apply mulb; assumption).
  assert (H6 : Rabs ((c - 0.917482062069) * h) <= / 10 ^ 12 * b) by (apply mulb; assumption).
  clearbody b2. apply Rabs_le_inv in H1. apply Rabs_le_inv in H2. apply Rabs_le_inv in H3. apply Rabs_le_inv in H4. apply Rabs_le_inv in H5. apply Rabs_le_inv in H6. apply Rabs_le_inv in S. apply Rabs_le_inv in C. apply Rabs_le_inv in Hd.
  replace (s * ch + c * sh - (0.397777155932 + 0.917482062069 * l)) with
    ((s - 0.397777155932) - s * (1 - ch) + c * (sh - h) + (c - 0.917482062069) * h + 0.917482062069 * (h - l)) by ring.
  replace (c * ch - s * sh - (0.917482062069 - 0.397777155932 * l)) with
    ((c - 0.917482062069) - c * (1 - ch) - s * (sh - h) - (s - 0.397777155932) * h - 0.397777155932 * (h - l)) by ring.
  set (m1 := s * (1 - ch)) in *. set (m2 := c * (1 - ch)) in *. set (m3 := s * (sh - h)) in *. set (m4 := c * (sh - h)) in *. set (m5 := (s - _) * h) in *. set (m6 := (c - _) * h) in *. clearbody m1 m2 m3 m4 m5 m6.
  split; apply Rabs_le; lra.
Qed.

Lemma env_b : forall t, Rabs t <= 1 -> Forall2 (fun x b => Rabs x <= dv b) (env t) bnd.
Proof.
  intros t Ht. destruct (psi_close t Ht) as [A B]. destruct (dpsi_close t Ht) as [C D].
  assert (Q : ((size LPSI <=? 94412200000000) && (size LEPS <=? 48900700000000) && (size LDPSI <=? 46947900000000000) && (size LDEPS <=? 18857500000000000))%Z = true) by (vm_compute; reflexivity).
  apply andb_prop in Q. destruct Q as [Q Q4]. apply andb_prop in Q. destruct Q as [Q Q3]. apply andb_prop in Q. destruct Q as [Q1 Q2].
  apply (size_le t _ _ Ht) in Q1. apply (size_le t _ _ Ht) in Q2. apply (size_le t _ _ Ht) in Q3. apply (size_le t _ _ Ht) in Q4.
  set (a := ev _ _ LPSI) in *. set (b := ev _ _ LEPS) in *. set (c := ev _ _ LDPSI) in *. set (d := ev _ _ LDEPS) in *. clearbody a b c d.
  apply Rabs_le_inv in A. apply Rabs_le_inv in B. apply Rabs_le_inv in C. apply Rabs_le_inv in D. apply Rabs_le_inv in Q1. apply Rabs_le_inv in Q2. apply Rabs_le_inv in Q3. apply Rabs_le_inv in Q4.
  unfold env, bnd. repeat (constructor; [unfold dv, dcm; cbn [fst snd]; change (10 ^ Z.of_nat 0)%Z with 1%Z; change (10 ^ Z.of_nat 10)%Z with 10000000000%Z; change (10 ^ Z.of_nat 6)%Z with 1000000%Z; first [lra|apply Rabs_le; lra]|]). constructor.
Qed.
Lemma env_v : forall t, Rabs t <= 1 -> Rabs (nut_dpsi t) <= 0.0000944123 /\ Rabs (nut_deps t) <= 0.0000489008.
Proof.
  intros t Ht. pose proof (env_b t Ht) as F. unfold env, bnd in F. inversion F as [|? ? ? ? _ F1]. inversion F1 as [|? ? ? ? A F2]. inversion F2 as [|? ? ? ? B _].
  unfold dv, dcm in A, B. cbn [fst snd] in A, B. change (10 ^ Z.of_nat 10)%Z with 10000000000%Z in A, B. lra.
Qed.
Lemma env_e : forall t, Rabs t <= 1 -> Rabs (deps1 t) <= 0.018858.
Proof.
  intros t Ht. pose proof (env_b t Ht) as F. unfold env, bnd in F. inversion F as [|? ? ? ? _ F1]. inversion F1 as [|? ? ? ? _ F2]. inversion F2 as [|? ? ? ? _ F3]. inversion F3 as [|? ? ? ? _ F4]. inversion F4 as [|? ? ? ? B _].
  unfold dv, dcm in B. cbn [fst snd] in B. change (10 ^ Z.of_nat 6)%Z with 1000000%Z in B. lra.
Qed.
Ltac tshow := unfold tsem, env; cbn [fst snd ppev meval nth]; unfold dv, dcm; cbn [fst snd];
  change (10 ^ Z.of_nat 0)%Z with 1%Z; change (10 ^ Z.of_nat 8)%Z with 100000000%Z; change (10 ^ Z.of_nat 9)%Z with 1000000000%Z; change (10 ^ Z.of_nat 10)%Z with 10000000000%Z;
  change (10 ^ Z.of_nat 11)%Z with 100000000000%Z; change (10 ^ Z.of_nat 12)%Z with 1000000000000%Z; change (10 ^ Z.of_nat 13)%Z with 10000000000000%Z; change (10 ^ Z.of_nat 18)%Z with 1000000000000000000%Z.
Lemma tiny : forall x v, Rabs (x - v) <= 0.6 / 10 ^ 12 -> Rabs v <= 0.0000001 -> Rabs (sin x - v) <= / 10 ^ 12 /\ Rabs (cos x - 1) <= / 10 ^ 12.
Proof.
  intros x v H V. assert (X : Rabs x <= 0.000000101) by (apply Rabs_le_inv in H; apply Rabs_le_inv in V; apply Rabs_le; lra).
  pose proof (sin_small _ _ X ltac:(lra)) as S. pose proof (one_cos_small _ _ X) as C. apply Rabs_le_inv in H. apply Rabs_le_inv in S. split; apply Rabs_le; lra.
Qed.
Lemma psi_v : forall t, Rabs t <= 1 -> Rabs (psi_A t - (0.0244272343 * t - 0.000005200063 * t ^ 2)) <= 5.7 / 10 ^ 9.
Proof.
  intros t Ht. pose proof kap_b as K. unfold psi_A, arcsec. fold kap. apply Rabs_le_inv in Ht. assert (T2 : 0 <= t ^ 2 <= 1) by nra.
  assert (T3 : -1 <= t ^ 3 <= 1) by (replace (t ^ 3) with (t * t ^ 2) by ring; split; nra).
  assert (M : forall u lo hi, -1 <= u <= 1 -> lo <= kap <= hi -> 0 <= lo -> Rabs (kap * u - (lo + hi) / 2 * u) <= (hi - lo) / 2).
  { intros u lo hi U HK L. replace (kap * u - (lo + hi) / 2 * u) with ((kap - (lo + hi) / 2) * u) by ring. replace ((hi - lo) / 2) with ((hi - lo) / 2 * 1) by ring. apply mulb; apply Rabs_le; lra. }
  pose proof (M t _ _ Ht K ltac:(lra)) as M1. pose proof (M (t ^ 2) _ _ ltac:(lra) K ltac:(lra)) as M2. pose proof (M (t ^ 3) _ _ T3 K ltac:(lra)) as M3.
  apply Rabs_le_inv in M1. apply Rabs_le_inv in M2. apply Rabs_le_inv in M3.
  replace ((5038.7784 * t - 1.07259 * t ^ 2 - 0.001147 * t ^ 3 - 0.29965 * t) * kap) with (5038.47875 * (kap * t) - 1.07259 * (kap * t ^ 2) - 0.001147 * (kap * t ^ 3)) by lra.
  set (k1 := kap * t) in *. set (k2 := kap * t ^ 2) in *. set (k3 := kap * t ^ 3) in *. set (t2 := t ^ 2) in *. set (t3 := t ^ 3) in *. clearbody k1 k2 k3 t2 t3. apply Rabs_le. lra.
Qed.
Lemma kap_u : forall u, -1 <= u <= 1 -> Rabs (kap * u - 4848136811095359935.9 / 10 ^ 24 * u) <= 0.1 / 10 ^ 24.
Proof.
  intros u U. pose proof kap_b as K. replace (kap * u - 4848136811095359935.9 / 10 ^ 24 * u) with ((kap - 4848136811095359935.9 / 10 ^ 24) * u) by ring.
  replace (0.1 / 10 ^ 24) with (0.1 / 10 ^ 24 * 1) by ring. apply mulb; apply Rabs_le; lra.
Qed.
Lemma small_v : forall t, Rabs t <= 1 ->
  Rabs (eps_A t - eps_0 - (- 0.000227087895 * t)) <= 1.2 / 10 ^ 8 /\
  Rabs (omega_A t - eps_0 - (- 0.00000012236697 * t + 0.00000024856397 * t ^ 2 - 0.00000003745671 * t ^ 3)) <= / 10 ^ 13 /\
  Rabs (chi_A t - (0.000051160449 * t - 0.000011541668 * t ^ 2)) <= 5.5 / 10 ^ 9.
Proof.
  intros t Ht. apply Rabs_le_inv in Ht. assert (T2 : 0 <= t ^ 2 <= 1) by nra. assert (T3 : -1 <= t ^ 3 <= 1) by (replace (t ^ 3) with (t * t ^ 2) by ring; split; nra).
  pose proof (kap_u t Ht) as M1. pose proof (kap_u (t ^ 2) ltac:(lra)) as M2. pose proof (kap_u (t ^ 3) T3) as M3. apply Rabs_le_inv in M1. apply Rabs_le_inv in M2. apply Rabs_le_inv in M3.
  unfold eps_A, eps_1980, eps_0, omega_A, chi_A, arcsec. fold kap.
  replace ((84381.448 - 46.8150 * t - 0.00059 * t ^ 2 + 0.001813 * t ^ 3) * kap + - 0.02524 * t * kap - 84381.448 * kap) with (- 46.84024 * (kap * t) - 0.00059 * (kap * t ^ 2) + 0.001813 * (kap * t ^ 3)) by lra.
  replace ((84381.448 + 0.05127 * t ^ 2 - 0.007726 * t ^ 3 - 0.02524 * t) * kap - 84381.448 * kap) with (0.05127 * (kap * t ^ 2) - 0.007726 * (kap * t ^ 3) - 0.02524 * (kap * t)) by lra.
  replace ((10.5526 * t - 2.38064 * t ^ 2 - 0.001125 * t ^ 3) * kap) with (10.5526 * (kap * t) - 2.38064 * (kap * t ^ 2) - 0.001125 * (kap * t ^ 3)) by lra.
  set (k1 := kap * t) in *. set (k2 := kap * t ^ 2) in *. set (k3 := kap * t ^ 3) in *. set (t2 := t ^ 2) in *. set (t3 := t ^ 3) in *. clearbody k1 k2 k3 t2 t3.
  split; [|split]; apply Rabs_le; lra.
Qed.
Lemma sincos_psi : forall t, Rabs t <= 1 ->
  Rabs (sin (psi_A t) - (0.0244272343 * t - 0.000005200063 * t ^ 2 - 0.000002429247 * t ^ 3)) <= 1 / 10 ^ 8 /\
  Rabs (cos (psi_A t) - (1 - 0.000298344888 * t ^ 2 + 0.000000127023 * t ^ 3 + 0.000000014835 * t ^ 4)) <= 4 / 10 ^ 10.
Proof.
  intros t Ht. pose proof (psi_v t Ht) as P. set (v := psi_A t) in *. clearbody v. set (a := 0.0244272343 * t - 0.000005200063 * t ^ 2) in *.
  pose proof Ht as Ht'. apply Rabs_le_inv in Ht. assert (T2 : 0 <= t ^ 2 <= 1) by nra. assert (T3 : -1 <= t ^ 3 <= 1) by (replace (t ^ 3) with (t * t ^ 2) by ring; split; nra).
  assert (T4 : 0 <= t ^ 4 <= 1) by (replace (t ^ 4) with (t ^ 2 * t ^ 2) by ring; split; nra).
  assert (T5 : -1 <= t ^ 5 <= 1) by (replace (t ^ 5) with (t * t ^ 4) by ring; split; nra). assert (T6 : 0 <= t ^ 6 <= 1) by (replace (t ^ 6) with (t ^ 2 * t ^ 4) by ring; split; nra).
  assert (T7 : -1 <= t ^ 7 <= 1) by (replace (t ^ 7) with (t * t ^ 6) by ring; split; nra). assert (T8 : 0 <= t ^ 8 <= 1) by (replace (t ^ 8) with (t ^ 2 * t ^ 6) by ring; split; nra).
  assert (A : Rabs a <= 0.0244325) by (unfold a; apply Rabs_le; lra). assert (V : Rabs v <= 0.0244326) by (apply Rabs_le_inv in A; apply Rabs_le_inv in P; apply Rabs_le; lra).
  assert (V2 : Rabs (v * v - a * a) <= 0.0488651 * (5.7 / 10 ^ 9)) by (replace (v * v - a * a) with ((v + a) * (v - a)) by ring; apply mulb; [apply Rabs_le_inv in A; apply Rabs_le_inv in V; apply Rabs_le; lra|exact P]).
  assert (VV : 0 <= v * v <= 0.000597) by (apply Rabs_le_inv in V; split; nra). assert (AA : 0 <= a * a <= 0.000597) by (apply Rabs_le_inv in A; split; nra).
  assert (V3 : Rabs (v * (v * v) - a * (a * a)) <= 0.0244326 * (0.0488651 * (5.7 / 10 ^ 9)) + 5.7 / 10 ^ 9 * 0.000597).
  { replace (v * (v * v) - a * (a * a)) with (v * (v * v - a * a) + (v - a) * (a * a)) by ring. eapply Rle_trans; [apply Rabs_triang|]. apply Rplus_le_compat; apply mulb; try assumption. apply Rabs_le; lra. }
  assert (V4 : Rabs (v * v * (v * v) - a * a * (a * a)) <= 0.001194 * (0.0488651 * (5.7 / 10 ^ 9))).
  { replace (v * v * (v * v) - a * a * (a * a)) with ((v * v + a * a) * (v * v - a * a)) by ring. apply mulb; [apply Rabs_le; lra|exact V2]. }
  assert (S : Rabs (sin v - (v - v * (v * v) / 6)) <= 1 / 10 ^ 10).
  { pose proof (sin_t5 v ltac:(lra)) as S. replace (v ^ 3) with (v * (v * v)) in S by ring. eapply Rle_trans; [exact S|]. 
    assert (Rabs v ^ 5 <= 0.0244326 ^ 5) by (apply pow_incr; split; [apply Rabs_pos|exact V]). lra. }
  assert (C : Rabs (cos v - (1 - v * v / 2 + v * v * (v * v) / 24)) <= 1 / 10 ^ 12).
  { assert (W : cos v = cos (Rabs v)) by (unfold Rabs; destruct (Rcase_abs v); [symmetry; apply cos_neg|reflexivity]). rewrite W. pose proof (Rabs_pos v).
    destruct (L_Kepler.cos_taylor6 (Rabs v) ltac:(lra)) as [C1 C2]. assert (E2 : Rabs v ^ 2 = v * v) by (rewrite pow2_abs; ring).
    replace (Rabs v ^ 4) with (v * v * (v * v)) in C1, C2 by (replace (Rabs v ^ 4) with (Rabs v ^ 2 * Rabs v ^ 2) by ring; rewrite E2; ring).
    rewrite E2 in C1, C2. assert (Rabs v ^ 6 <= 0.0244326 ^ 6) by (apply pow_incr; lra). apply Rabs_le. lra. }
  apply Rabs_le_inv in P. apply Rabs_le_inv in V2. apply Rabs_le_inv in V3. apply Rabs_le_inv in V4. apply Rabs_le_inv in S. apply Rabs_le_inv in C.
  set (sv := sin v) in *. set (cv := cos v) in *. set (v2 := v * v) in *. set (v3 := v * v2) in *. set (v4 := v2 * v2) in *. clearbody sv cv v4 v3 v2. clear A V VV AA.
  split.
  - replace (a * (a * a)) with (0.0244272343 ^ 3 * t ^ 3 - 3 * 0.0244272343 ^ 2 * 0.000005200063 * t ^ 4 + 3 * 0.0244272343 * 0.000005200063 ^ 2 * t ^ 5 - 0.000005200063 ^ 3 * t ^ 6) in V3 by (unfold a; ring).
    unfold a in *. set (t2 := t ^ 2) in *. set (t3 := t ^ 3) in *. set (t4 := t ^ 4) in *. set (t5 := t ^ 5) in *. set (t6 := t ^ 6) in *. clearbody t2 t3 t4 t5 t6. clear V4 V2. apply Rabs_le. lra.
  - replace (a * a * (a * a)) with (0.0244272343 ^ 4 * t ^ 4 - 4 * 0.0244272343 ^ 3 * 0.000005200063 * t ^ 5 + 6 * 0.0244272343 ^ 2 * 0.000005200063 ^ 2 * t ^ 6 - 4 * 0.0244272343 * 0.000005200063 ^ 3 * t ^ 7 + 0.000005200063 ^ 4 * t ^ 8) in V4 by (unfold a; ring).
    replace (a * a) with (0.0244272343 ^ 2 * t ^ 2 - 2 * 0.0244272343 * 0.000005200063 * t ^ 3 + 0.000005200063 ^ 2 * t ^ 4) in V2 by (unfold a; ring).
    set (t2 := t ^ 2) in *. set (t3 := t ^ 3) in *. set (t4 := t ^ 4) in *. set (t5 := t ^ 5) in *. set (t6 := t ^ 6) in *. set (t7 := t ^ 7) in *. set (t8 := t ^ 8) in *. clearbody t2 t3 t4 t5 t6 t7 t8. clear V3 P. clearbody a. apply Rabs_le. lra.
Qed.
Lemma tms_ok : forall t, Rabs t <= 1 -> Forall2 (tsem (env t)) (atoms t) tms.
Proof.
  intros t Ht. destruct (env_v t Ht) as [HD HE]. destruct (small_v t Ht) as (E1 & O1 & C1). destruct (sincos_psi t Ht) as [SP CP]. destruct eps0_b as [S0 C0].
  pose proof Ht as Ht'. apply Rabs_le_inv in Ht'. assert (T2 : 0 <= t ^ 2 <= 1) by nra. assert (T3 : -1 <= t ^ 3 <= 1) by (replace (t ^ 3) with (t * t ^ 2) by ring; split; nra).
  set (D := nut_dpsi t) in *. set (E := nut_deps t) in *.
  assert (G1 : Rabs (eps_A t - eps_0 + E) <= 0.00027601) by (apply Rabs_le_inv in E1; apply Rabs_le_inv in HE; apply Rabs_le; lra).
  assert (G2 : Rabs (eps_A t - eps_0) <= 0.00022711) by (apply Rabs_le_inv in E1; apply Rabs_le; lra).
  assert (G3 : Rabs (omega_A t - eps_0) <= 0.00000041) by (apply Rabs_le_inv in O1; apply Rabs_le; lra).
  assert (G4 : Rabs (chi_A t) <= 0.0000628) by (apply Rabs_le_inv in C1; apply Rabs_le; lra).
  destruct (near_eps _ (- 0.000227087895 * t + E) _ (1.2 / 10 ^ 8) G1 ltac:(lra) ltac:(eapply Rle_trans; [|exact E1]; right; f_equal; ring)) as [A3 A4].
  destruct (near_eps _ _ _ _ G2 ltac:(lra) E1) as [A5 A6]. destruct (near_eps _ _ _ _ G3 ltac:(lra) O1) as [A11 A12].
  replace (eps_0 + (eps_A t - eps_0 + E)) with (eps_A t + E) in A3, A4 by ring. replace (eps_0 + (eps_A t - eps_0)) with (eps_A t) in A5, A6 by ring. replace (eps_0 + (omega_A t - eps_0)) with (omega_A t) in A11, A12 by ring.
  pose proof (sin_small _ _ HD ltac:(lra)) as A7. pose proof (one_cos_small _ _ HD) as A8. pose proof (sin_small _ _ HE ltac:(lra)) as A9. pose proof (one_cos_small _ _ HE) as A10.
  pose proof (sin_small _ _ G4 ltac:(lra)) as A13. pose proof (one_cos_small _ _ G4) as A14. pose proof kap_b as K.
  assert (B1 : Rabs (arcsec 0.0068192 - 0.000000033060) <= 0.6 / 10 ^ 12) by (unfold arcsec; fold kap; apply Rabs_le; lra).
  assert (B2 : Rabs (xi - (-0.000000080562)) <= 0.6 / 10 ^ 12). { unfold xi, arcsec. fold kap. apply Rabs_le_inv in S0. apply Rabs_le. split; nra. }
  assert (B3 : Rabs (arcsec (-0.0146) - (-0.000000070783)) <= 0.6 / 10 ^ 12) by (unfold arcsec; fold kap; apply Rabs_le; lra).
  destruct (tiny _ _ B1 ltac:(apply Rabs_le; lra)) as [A19 A20]. destruct (tiny _ _ B2 ltac:(apply Rabs_le; lra)) as [A21 A22]. destruct (tiny _ _ B3 ltac:(apply Rabs_le; lra)) as [A23 A24].
  unfold atoms. fold D E.
  set (a3 := sin (eps_A t + E)) in *. set (a4 := cos (eps_A t + E)) in *. set (a5 := sin (eps_A t)) in *. set (a6 := cos (eps_A t)) in *. set (a7 := sin D) in *. set (a8 := cos D) in *. set (a9 := sin E) in *. set (a10 := cos E) in *.
  set (a11 := sin (omega_A t)) in *. set (a12 := cos (omega_A t)) in *. set (a13 := sin (chi_A t)) in *. set (a14 := cos (chi_A t)) in *. set (a15 := sin (psi_A t)) in *. set (a16 := cos (psi_A t)) in *.
  set (a17 := sin eps_0) in *. set (a18 := cos eps_0) in *. set (a19 := sin (arcsec 0.0068192)) in *. set (a20 := cos (arcsec 0.0068192)) in *. set (a21 := sin xi) in *. set (a22 := cos xi) in *. set (a23 := sin (arcsec (-0.0146))) in *. set (a24 := cos (arcsec (-0.0146))) in *.
  clear B1 B2 B3 G1 G2 G3 G4 E1 O1. set (ch := chi_A t) in *. set (k := kap) in *.
  assert (EV : env t = [t; D; E; dpsi1 t; deps1 t]) by reflexivity. rewrite EV. set (D' := dpsi1 t). set (E' := deps1 t).
  clearbody a3 a4 a5 a6 a7 a8 a9 a10 a11 a12 a13 a14 a15 a16 a17 a18 a19 a20 a21 a22 a23 a24 ch k D E D' E'. clear EV.
  apply Rabs_le_inv in A3. apply Rabs_le_inv in A4. apply Rabs_le_inv in A5. apply Rabs_le_inv in A6. apply Rabs_le_inv in A7. apply Rabs_le_inv in A9. apply Rabs_le_inv in A11. apply Rabs_le_inv in A12. apply Rabs_le_inv in A13.
  apply Rabs_le_inv in C1. apply Rabs_le_inv in SP. apply Rabs_le_inv in CP. apply Rabs_le_inv in S0. apply Rabs_le_inv in C0. apply Rabs_le_inv in A19. apply Rabs_le_inv in A20. apply Rabs_le_inv in A21. apply Rabs_le_inv in A22. apply Rabs_le_inv in A23. apply Rabs_le_inv in A24.
  apply Rabs_le_inv in HD. apply Rabs_le_inv in HE.
  unfold tms. constructor; [tshow; apply Rabs_le; clear - Ht'; lra|]. constructor; [tshow; apply Rabs_le; clear - HD; lra|]. constructor; [tshow; apply Rabs_le; clear - HE; lra|].
  constructor; [tshow; apply Rabs_le; clear - A3 Ht' HE; lra|]. constructor; [tshow; apply Rabs_le; clear - A4 Ht' HE; lra|].
  constructor; [tshow; apply Rabs_le; clear - A5 Ht'; lra|]. constructor; [tshow; apply Rabs_le; clear - A6 Ht'; lra|].
  constructor; [tshow; apply Rabs_le; clear - A7; lra|]. constructor; [tshow; apply Rabs_le; clear - A8; lra|]. constructor; [tshow; apply Rabs_le; clear - A9; lra|]. constructor; [tshow; apply Rabs_le; clear - A10; lra|].
  constructor; [tshow; apply Rabs_le; clear - A11 Ht' T2 T3; lra|]. constructor; [tshow; apply Rabs_le; clear - A12 Ht' T2 T3; lra|].
  constructor; [tshow; apply Rabs_le; clear - A13 C1 Ht' T2; lra|]. constructor; [tshow; apply Rabs_le; clear - A14; lra|].
  constructor; [tshow; apply Rabs_le; clear - SP; lra|]. constructor; [tshow; apply Rabs_le; clear - CP; lra|].
  constructor; [tshow; apply Rabs_le; clear - S0; lra|]. constructor; [tshow; apply Rabs_le; clear - C0; lra|].
  constructor; [tshow; apply Rabs_le; clear - A19; lra|]. constructor; [tshow; apply Rabs_le; clear - A20; lra|]. constructor; [tshow; apply Rabs_le; clear - A21; lra|]. constructor; [tshow; apply Rabs_le; clear - A22; lra|].
  constructor; [tshow; apply Rabs_le; clear - A23; lra|]. constructor; [tshow; apply Rabs_le; clear - A24; lra|]. constructor; [tshow; apply Rabs_le; clear - K; lra|].
  constructor; [tshow; apply Rabs_le; lra|]. constructor; [tshow; apply Rabs_le; lra|]. constructor.
Qed.
Lemma tbound : forall t, Rabs t <= 1 -> forall e c, dle (tsize bnd (teval bnd tol tms e)) c = true -> Rabs (peval (atoms t) e) <= dv c.
Proof. intros t Ht. exact (teval_bound (env t) bnd (env_b t Ht) tol (atoms t) tms (tms_ok t Ht)). Qed.

(** ** The pole and its rate, against the second order *)
Definition vals : list pe := [
  PM (PV 3) (PV 7); PS (PV 9) (PM (PM (PV 3) (PV 6)) (PS one (PV 8))); PS (PV 10) (PM (PM (PV 3) (PV 5)) (PS one (PV 8)));
  PS (PM (PV 28) (PV 14)) (PM (PV 29) (PV 13)); PA (PM (PV 28) (PV 13)) (PM (PV 29) (PV 14));
  PA (PM (PV 32) (PV 12)) (PM (PV 30) (PV 11)); PS (PM (PV 30) (PV 12)) (PM (PV 32) (PV 11));
  PA (PM (PV 31) (PV 16)) (PM (PV 33) (PV 15)); PS (PM (PV 33) (PV 16)) (PM (PV 31) (PV 15));
  PS (PM (PV 36) (PV 18)) (PM (PV 34) (PV 17)); PA (PM (PV 36) (PV 17)) (PM (PV 34) (PV 18));
  PA (PM (PV 35) (PV 22)) (PM (PA (PM (PV 37) (PV 19)) (PM (PV 38) (PV 20))) (PV 21)); PS (PM (PV 37) (PV 20)) (PM (PV 38) (PV 19));
  PS (PM (PV 39) (PV 24)) (PM (PV 40) (PV 23)); PA (PM (PV 39) (PV 23)) (PM (PV 40) (PV 24))].
Definition ders' : list pe := map (fun i => nth i ders (PC 0 0)) (seq 0 28) ++ map PV (seq 43 15).
Definition prog : list pe := vals ++ map (pder ders') vals.
Lemma prog_ok : forall t, let v := ext (atoms t) prog in
  nth 41 v 0 = peval (atoms t) PX /\ nth 42 v 0 = peval (atoms t) PY /\ nth 56 v 0 = px1 t /\ nth 57 v 0 = py1 t /\ firstn 28 v = atoms t.
Proof.
  intros t. unfold px1, py1, atoms.
  set (a0 := t). set (a1 := nut_dpsi a0). set (a2 := nut_deps a0). set (a3 := sin (eps_A a0 + a2)). set (a4 := cos (eps_A a0 + a2)). set (a5 := sin (eps_A a0)). set (a6 := cos (eps_A a0)).
  set (a7 := sin a1). set (a8 := cos a1). set (a9 := sin a2). set (a10 := cos a2). set (a11 := sin (omega_A a0)). set (a12 := cos (omega_A a0)). set (a13 := sin (chi_A a0)). set (a14 := cos (chi_A a0)).
  set (a15 := sin (psi_A a0)). set (a16 := cos (psi_A a0)). set (a17 := sin eps_0). set (a18 := cos eps_0). set (a19 := sin (arcsec 0.0068192)). set (a20 := cos (arcsec 0.0068192)). set (a21 := sin xi). set (a22 := cos xi).
  set (a23 := sin (arcsec (-0.0146))). set (a24 := cos (arcsec (-0.0146))). set (a25 := kap). set (a26 := dpsi1 a0). set (a27 := deps1 a0).
  clearbody a27 a26 a25 a24 a23 a22 a21 a20 a19 a18 a17 a16 a15 a14 a13 a12 a11 a10 a9 a8 a7 a6 a5 a4 a3 a2 a1 a0. clear t.
  cbv zeta. split; [|split; [|split; [|split]]]; reflexivity.
Qed.
Definition ok_x (a : list tm) : bool := dle (tsize bnd (teval bnd tol a (PS (PV 56) XFP))) (41, 7%nat)%Z.
Definition ok_y (a : list tm) : bool := dle (tsize bnd (teval bnd tol a (PS (PV 42) YFP))) (66, 10%nat)%Z.
Definition ok_d (a : list tm) : bool := dle (tsize bnd (teval bnd tol a (PS (PV 57) (PV 27)))) (65, 5%nat)%Z.
Definition ok_l (a : list tm) : bool := dle (tsize bnd (teval bnd tol a (PS (PV 41) (PM (PC 9716595787 12) (PV 0))))) (42, 6%nat)%Z.
Definition sizes_ok (a : list tm) : bool := ok_x a && ok_y a && ok_d a && ok_l a.
Lemma sizes_true : sizes_ok (text bnd tol tms prog) = true.
Proof. vm_cast_no_check (eq_refl true). Qed.
Lemma sizes_split : forall a, sizes_ok a = true -> ok_x a = true /\ ok_y a = true /\ ok_d a = true /\ ok_l a = true.
Proof.
  intros a S. unfold sizes_ok in S. apply andb_prop in S. destruct S as [S S4]. apply andb_prop in S. destruct S as [S S3]. apply andb_prop in S. destruct S as [S1 S2]. auto.
Qed.
Lemma nth_first : forall (l : list R) n i, (i < n)%nat -> nth i (firstn n l) 0 = nth i l 0.
Proof.
  induction l as [|x l IH]; intros n i H; [rewrite firstn_nil; reflexivity|]. destruct n as [|n]; [lia|]. destruct i as [|i]; [reflexivity|]. cbn [firstn nth]. apply IH. lia.
Qed.
Lemma prog_each : forall t, Rabs t <= 1 -> exists v a, Forall2 (tsem (env t)) v a /\
  (nth 41 v 0 = peval (atoms t) PX /\ nth 42 v 0 = peval (atoms t) PY /\ nth 56 v 0 = px1 t /\ nth 57 v 0 = py1 t /\ firstn 28 v = atoms t) /\
  ok_x a = true /\ ok_y a = true /\ ok_d a = true /\ ok_l a = true.
Proof.
  intros t Ht. exists (ext (atoms t) prog), (text bnd tol tms prog).
  exact (conj (text_ok _ _ (env_b t Ht) tol prog _ _ (tms_ok t Ht)) (conj (prog_ok t) (sizes_split _ sizes_true))).
Qed.
Lemma pole_bounds : forall t, Rabs t <= 1 ->
  Rabs (px1 t - XF t) <= 0.0000041 /\ Rabs (pole_y t - YF t) <= 0.0000000066 /\ Rabs (py1 t - deps1 t) <= 0.00065 /\ Rabs (pole_x t - 0.009716595787 * t) <= 0.000042.
Proof.
  intros t Ht. destruct (prog_each t Ht) as (v & a & F & (E1 & E2 & E3 & E4 & E5) & S1 & S2 & S3 & S4). destruct (pole_atoms t) as [PX1 PY1].
  apply (teval_bound (env t) bnd (env_b t Ht) tol v a F) in S1. apply (teval_bound (env t) bnd (env_b t Ht) tol v a F) in S2.
  apply (teval_bound (env t) bnd (env_b t Ht) tol v a F) in S3. apply (teval_bound (env t) bnd (env_b t Ht) tol v a F) in S4.
  assert (N : forall i, (i < 28)%nat -> nth i v 0 = nth i (atoms t) 0) by (intros i Hi; rewrite <- E5; symmetry; apply nth_first; exact Hi).
  assert (N0 : nth 0 v 0 = t) by exact (N 0%nat ltac:(lia)). assert (N1 : nth 1 v 0 = nut_dpsi t) by exact (N 1%nat ltac:(lia)). assert (N2 : nth 2 v 0 = nut_deps t) by exact (N 2%nat ltac:(lia)).
  assert (N26 : nth 26 v 0 = dpsi1 t) by exact (N 26%nat ltac:(lia)). assert (N27 : nth 27 v 0 = deps1 t) by exact (N 27%nat ltac:(lia)).
  unfold XFP, YFP in S1, S2. cbn [peval] in S1, S2, S3, S4. rewrite E3, N26, N27, N2, N0 in S1. rewrite E2, N0, N1, N2, <- PY1 in S2. rewrite E4, N27 in S3. rewrite E1, N0, <- PX1 in S4.
  unfold dv, dcm in S1, S2, S3, S4. cbn [fst snd] in S1, S2, S3, S4.
  change (10 ^ Z.of_nat 12)%Z with 1000000000000%Z in *. change (10 ^ Z.of_nat 7)%Z with 10000000%Z in *. change (10 ^ Z.of_nat 10)%Z with 10000000000%Z in *. change (10 ^ Z.of_nat 5)%Z with 100000%Z in *. change (10 ^ Z.of_nat 6)%Z with 1000000%Z in *.
  clear - S1 S2 S3 S4. unfold XF, YF. set (D := dpsi1 t) in *. set (E := deps1 t) in *. set (p := nut_dpsi t) in *. set (q := nut_deps t) in *. set (x := px1 t) in *. set (y := pole_y t) in *. set (z := py1 t) in *. set (w := pole_x t) in *. clearbody D E p q x y z w.
  split; [|split; [|split]].
  - eapply Rle_trans; [|eapply Rle_trans; [exact S1|lra]]. right. f_equal. lra.
  - eapply Rle_trans; [|eapply Rle_trans; [exact S2|lra]]. right. f_equal. replace (t ^ 3) with (t * (t * t)) by ring. replace (t ^ 4) with (t * t * (t * t)) by ring. lra.
  - eapply Rle_trans; [exact S3|lra].
  - eapply Rle_trans; [exact S4|lra].
Qed.
