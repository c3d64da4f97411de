(** * Degrees in binary64: lemmas for the properties *)

From Coq Require Import ZArith Reals Lra Lia Bool List.
From Flocq Require Import Core BinarySingleNaN.
From Verif Require Import Outcome Arith ArithR ArithF Spec_Float Spec_Accuracy M_Common M_Ellipsoid.
From Verif Require Import L_ArithF L_ArithR L_FromJulianF L_Flit L_Apx L_ApxMod L_ApxAngle L_Libm L_PEllipsoid L_PAccuracy.
Import ListNotations.
Open Scope R_scope.

Definition degE {A : arith} (h : Z) (x : num A) : num A := add A (div A x (DEGREE (A := A))) (lit A h 0).
Definition b_wrap (h : Z) (bx : bnd) : option bnd :=
  obind (bound [bx] (degE (A := exprA) h (EVar 0))) (fun s =>
  obind (b_int (2 * h)) (fun m => obind (b_int h) (fun bh =>
  obind (b_rem s m) (fun r => obind (b_add r m) (fun r1 => b_sub (b_hull r1 r) bh))))).
Lemma degE_eval : forall (A : arith) h (x : num A), eval A [x] (degE (A := exprA) h (EVar 0)) = degE h x.
Proof. reflexivity. Qed.

Lemma apx_flit : forall z b, b_int z = Some b -> apx (Flit z 0) (IZR z) b.
Proof.
  intros z b E. assert (Hz : (Z.abs z <= 2 ^ 53)%Z) by (unfold b_int in E; destruct (Z.abs z <=? 2 ^ 53)%Z eqn:C; [apply Z.leb_le; exact C|discriminate E]).
  destruct (Flit_int z Hz) as [V F]. destruct (FofZ_ok z Hz) as [V' F'].
  pose proof (apx_int z b E) as (_ & H1 & H2). split; [exact F|]. split; [exact H1|]. rewrite V. rewrite V' in H2. exact H2.
Qed.

Lemma wrap_apx : forall lm h x r bx b, (0 < h)%Z -> apx x r bx -> b_wrap h bx = Some b ->
  exists k : Z, apx (Fsub (rem_euclid (A := b64A lm) (Fadd (Fdiv x degF) (Flit h 0)) (Flit (2 * h) 0)) (Flit h 0))
    (r * (180 / PI) + IZR k * IZR (2 * h)) b.
Proof.
  intros lm h x r bx b Hh Hx E. unfold b_wrap in E.
  destruct (obind_some E) as (s & Es & E1). clear E. destruct (obind_some E1) as (m & Em & E2). clear E1.
  destruct (obind_some E2) as (bh & Eh & E3). clear E2. destruct (obind_some E3) as (q & Eq & E4). clear E3.
  destruct (obind_some E4) as (q1 & Eq1 & E5). clear E4.
  pose proof (bound_ok nice_libm nice_good _ _ _ (apxl_cons Hx apxl_nil) _ _ Es) as S. rewrite (degE_eval (b64A nice_libm)), (degE_eval realA) in S.
  change (degE (A := b64A nice_libm) h x) with (Fadd (Fdiv x degF) (Flit h 0)) in S.
  set (sF := Fadd (Fdiv x degF) (Flit h 0)) in *. clearbody sF.
  assert (SR : degE (A := realA) h r = r * (180 / PI) + IZR h).
  { unfold degE, DEGREE. realA_ops. pose proof PI_RGT_0 as P. change (num realA) with R in *. 
    assert (RZ : forall z, Rlit z 0 = IZR z) by (intros z; unfold Rlit; change (10 ^ 0)%Z with 1%Z; rewrite Z.mul_1_r; reflexivity). rewrite ?RZ.
    field. lra. }
  rewrite SR in S. clear SR. pose proof (apx_flit _ _ Em) as M. pose proof (apx_flit _ _ Eh) as HH.
  destruct (apx_rem _ _ _ _ _ _ _ S M Eq) as (k & K). unfold rem_euclid. b64A_ops.
  assert (MA : apx (Babs (Flit (2 * h) 0)) (IZR (2 * h)) m).
  { destruct M as (F & H1 & H2). split; [rewrite is_finite_Babs; exact F|]. split; [exact H1|].
    rewrite B2R_Babs. destruct (Flit_int (2 * h)) as [V _].
    { unfold b_int in Em. destruct (Z.abs (2 * h) <=? 2 ^ 53)%Z eqn:C; [apply Z.leb_le; exact C|discriminate Em]. }
    rewrite V in *. rewrite (Rabs_pos_eq (IZR (2 * h))) by (apply (IZR_le 0); lia). exact H2. }
  destruct (Bltb (Frem sF (Flit (2 * h) 0)) (Flit 0 0)).
  - exists (k + 1)%Z. pose proof (hull_l _ _ _ q (apx_add _ _ _ _ _ _ _ K MA Eq1)) as A1.
    pose proof (apx_sub _ _ _ _ _ _ _ A1 HH E5) as A2. rewrite plus_IZR.
    match type of A2 with apx _ ?u _ => match goal with |- apx _ ?v _ => replace v with u by ring end end. exact A2.
  - exists k. pose proof (hull_r _ _ q1 _ K) as A1. pose proof (apx_sub _ _ _ _ _ _ _ A1 HH E5) as A2.
    match type of A2 with apx _ ?u _ => match goal with |- apx _ ?v _ => replace v with u by ring end end. exact A2.
Qed.

(** The way back, in degrees times the literal for a degree. *)
Definition backE {A : arith} (x : num A) : num A := mul A x (DEGREE (A := A)).
Lemma backE_eval : forall (A : arith) (x : num A), eval A [x] (backE (A := exprA) (EVar 0)) = backE x.
Proof. reflexivity. Qed.
Lemma back_apx : forall x r b b', apx x r b -> bound [b] (backE (A := exprA) (EVar 0)) = Some b' -> apx (Fmul x degF) (r * (PI / 180)) b'.
Proof.
  intros x r b b' H E. pose proof (bound_ok nice_libm nice_good _ _ _ (apxl_cons H apxl_nil) _ _ E) as S. rewrite (backE_eval (b64A nice_libm)), (backE_eval realA) in S.
  change (backE (A := b64A nice_libm) x) with (Fmul x degF) in S.
  assert (SR : backE (A := realA) r = r * (PI / 180)).
  { unfold backE, DEGREE. realA_ops. change (num realA) with R in *. unfold Rlit. change (180 * 10 ^ 0)%Z with 180%Z. reflexivity. }
  rewrite SR in S. exact S.
Qed.

Definition all_wrap (h : Z) (bx : bnd) : option (bnd * bnd) :=
  obind (b_wrap h bx) (fun b => obind (bound [b] (backE (A := exprA) (EVar 0))) (fun b' => Some (b, b'))).

Lemma wrap_near : forall lm h x n m d m' d', (0 < h)%Z -> fin x = true -> Rabs (B2R x) <= IZR n ->
  (match all_wrap h (b_sym n) with Some (b, b') => ((0 <? d) && (0 <? d') && (er b * d <=? m * one) && (er b' * d' <=? m' * one))%Z | None => false end) = true ->
  let y := Fsub (rem_euclid (A := b64A lm) (Fadd (Fdiv x degF) (Flit h 0)) (Flit (2 * h) 0)) (Flit h 0) in
  exists k : Z, near y (B2R x * (180 / PI) + IZR k * IZR (2 * h)) (IZR m / IZR d) /\
    near (Fmul y degF) (B2R x + IZR k * (IZR (2 * h) * (PI / 180))) (IZR m' / IZR d').
Proof.
  intros lm h x n m d m' d' Hh F Hx E. cbv zeta. destruct (all_wrap h (b_sym n)) as [[b b']|] eqn:EA; [|discriminate E].
  apply andb_prop in E. destruct E as [E E4]. apply andb_prop in E. destruct E as [E E3]. apply andb_prop in E. destruct E as [E1 E2].
  unfold all_wrap in EA. destruct (obind_some EA) as (c & Ec & EB). destruct (obind_some EB) as (c' & Ec' & ED). 
  assert (c = b /\ c' = b') as [-> ->] by (split; congruence).
  assert (AX : apx x (B2R x) (b_sym n)) by (apply apx_var; [exact F|]; rewrite opp_IZR; apply Rabs_le_inv; exact Hx).
  destruct (wrap_apx lm h x _ _ _ Hh AX Ec) as (k & K). exists k. split; [apply (near_of_apx _ _ _ _ _ K E1 E3)|].
  pose proof (back_apx _ _ _ _ K Ec') as K'. pose proof (near_of_apx _ _ _ _ _ K' E2 E4) as N.
  pose proof PI_RGT_0 as P.
  replace (B2R x + IZR k * (IZR (2 * h) * (PI / 180))) with ((B2R x * (180 / PI) + IZR k * IZR (2 * h)) * (PI / 180)) by (field; lra). exact N.
Qed.

(** A latitude from the south pole upwards does not wrap: the largest number
    below pi/2 is turned into exactly 90 degrees. *)
Lemma half_pi_F : let q := Fof 7074237752028440 (-52) in fin q = true /\ B2R q = 7074237752028440 / 4503599627370496 /\ Fdiv (Bopp q) degF = Flit (-90) 0 /\
  (forall x : b64, fin x = true -> - (PI / 2) <= B2R x -> - (7074237752028440 / 4503599627370496) <= B2R x).
Proof.
  cbv zeta. split; [vm_compute; reflexivity|]. split.
  { assert (SFE : B2SF (Fof 7074237752028440 (-52)) = SpecFloat.S754_finite false 7074237752028440 (-52)) by (vm_compute; reflexivity).
    rewrite <- SF2R_B2SF, SFE. cbv [SF2R]. unfold F2R, Fnum, Fexp, cond_Zopp. unfold bpow. change (Z.pow_pos radix2 52) with 4503599627370496%Z. lra. }
  split; [apply B2SF_inj; vm_compute; reflexivity|].
  intros x F H. destruct (Rle_or_lt (- 1.5) (B2R x)) as [G|G]; [lra|]. pose proof L_Pi.PI_bounds_24 as P.
  pose proof (generic_format_B2R 53 1024 x) as GF. set (v := B2R x) in *. clearbody v. clear x F.
  assert (M : mag radix2 v = 1%Z :> Z).
  { apply mag_unique. rewrite Rabs_left by lra. change (bpow radix2 (1 - 1)) with 1. change (bpow radix2 1) with 2. lra. }
  red in GF. unfold F2R, Fnum, Fexp, cexp in GF. rewrite M in GF. 
  change (SpecFloat.fexp 53 1024 1) with (-52)%Z in GF.
  set (z := Ztrunc _) in GF. clearbody z. change (bpow radix2 (-52)) with (/ 4503599627370496) in GF.
  assert (Z : (- 7074237752028440 - 1 < z)%Z). { apply lt_IZR. rewrite minus_IZR. rewrite GF in H. lra. }
  assert (Z2 : -7074237752028440 <= IZR z) by (apply IZR_le; lia). rewrite GF. lra.
Qed.

Lemma south_F : forall lm (x : b64), fin x = true -> - (PI / 2) <= B2R x <= 0 ->
  let y := Fsub (rem_euclid (A := b64A lm) (Fadd (Fdiv x degF) (Flit 90 0)) (Flit (2 * 90) 0)) (Flit 90 0) in
  B2R y <= 0.
Proof.
  intros lm x F H y. destruct half_pi_F as (Fq & Vq & Dq & Hq). specialize (Hq x F (proj1 H)). cbv zeta in *.
  destruct deg_F as [Fd Bd]. destruct (Flit_int 90 ltac:(lia)) as [V9 F9]. destruct (Flit_int (2 * 90) ltac:(lia)) as [V18 F18].
  set (q := Fof 7074237752028440 (-52)) in *. clearbody q.
  assert (DB : forall z : R, Rabs z <= 2 -> Rabs (z / B2R degF) <= 128).
  { intros z Hz. unfold Rdiv. rewrite Rabs_mult, Rabs_inv, (Rabs_pos_eq (B2R degF)) by lra. 
    assert (I : / B2R degF <= / / 64) by (apply Rinv_le_contravar; lra). rewrite Rinv_inv in I. assert (0 < / B2R degF) by (apply Rinv_0_lt_compat; lra).
    pose proof (Rabs_pos z). nra. }
  pose proof L_Pi.PI_bounds_24 as P.
  destruct (Fdiv_ok x degF F ltac:(lra)) as [D1 D2].
  { apply (small_le _ 7); [lia|]. apply DB. apply Rabs_le. lra. }
  destruct (Fdiv_ok (Bopp q) degF) as [Q1 _]; [rewrite is_finite_Bopp; exact Fq|lra| |].
  { apply (small_le _ 7); [lia|]. apply DB. rewrite B2R_Bopp, Rabs_Ropp, Vq. apply Rabs_le. lra. }
  rewrite Dq, B2R_Bopp, Vq in Q1. destruct (Flit_int (-90) ltac:(lia)) as [V90 _]. rewrite V90 in Q1.
  assert (D0 : -90 <= B2R (Fdiv x degF) <= 0).
  { rewrite D1. assert (I : 0 < / B2R degF) by (apply Rinv_0_lt_compat; lra). split.
    - rewrite Q1. apply rnd_mono. unfold Rdiv at 1 3. apply Rmult_le_compat_r; lra.
    - apply rnd_le; [apply (format_IZR 0); lia|]. unfold Rdiv. nra. }
  destruct (Fadd_ok (Fdiv x degF) (Flit 90 0) D2 F9) as [S1 S2].
  { rewrite V9. apply small_big. apply Rabs_le. lra. }
  assert (S0 : 0 <= B2R (Fadd (Fdiv x degF) (Flit 90 0)) <= 90).
  { rewrite S1, V9. split; [apply rnd_ge; [apply (format_IZR 0); lia|lra]|apply rnd_le; [apply (format_IZR 90); lia|lra]]. }
  set (s := Fadd (Fdiv x degF) (Flit 90 0)) in *. clearbody s. clear S1 D1 D2 D0 Q1.
  unfold y, rem_euclid. b64A_ops.
  destruct (Frem_full s (Flit (2 * 90) 0) S2 F18 ltac:(rewrite V18; apply IZR_neq; lia)) as (R1 & R2 & _).
  assert (R3 : B2R (Frem s (Flit (2 * 90) 0)) = B2R s).
  { rewrite R1, V18. unfold Rrem. rewrite (Ztrunc_floor (B2R s / IZR (2 * 90))) by (change (IZR (2 * 90)) with 180; lra).
    rewrite (Zfloor_imp 0) by (change (IZR (2 * 90)) with 180; change (IZR (0 + 1)) with 1; lra). ring. }
  set (r := Frem s (Flit (2 * 90) 0)) in *. clearbody r. destruct lit_0 as [Z0 F0].
  rewrite Bltb_correct, Z0 by assumption. rewrite Rlt_bool_false by lra.
  destruct (Fsub_ok r (Flit 90 0) R2 F9) as [A1 A2]; [rewrite V9; apply small_big; apply Rabs_le; lra|].
  rewrite A1, V9. apply rnd_le; [apply (format_IZR 0); lia|lra].
Qed.


(** A latitude up to the third largest number below pi/2 does not wrap either. *)
Lemma north_F : forall lm (x : b64), fin x = true -> 0 <= B2R x <= 7074237752028438 / 4503599627370496 ->
  let y := Fsub (rem_euclid (A := b64A lm) (Fadd (Fdiv x degF) (Flit 90 0)) (Flit (2 * 90) 0)) (Flit 90 0) in
  0 <= B2R y.
Proof.
  intros lm x F H y. destruct deg_F as [Fd Bd]. destruct (Flit_int 90 ltac:(lia)) as [V9 F9]. destruct (Flit_int (2 * 90) ltac:(lia)) as [V18 F18].
  set (q := Fof 7074237752028438 (-52)).
  assert (Fq : fin q = true) by (vm_compute; reflexivity).
  assert (Vq : B2R q = 7074237752028438 / 4503599627370496).
  { assert (SFE : B2SF q = SpecFloat.S754_finite false 7074237752028438 (-52)) by (vm_compute; reflexivity).
    rewrite <- SF2R_B2SF, SFE. cbv [SF2R]. unfold F2R, Fnum, Fexp, cond_Zopp. unfold bpow. change (Z.pow_pos radix2 52) with 4503599627370496%Z. lra. }
  assert (Dq : B2R (Fadd (Fdiv q degF) (Flit 90 0)) < 180).
  { set (w := Fadd (Fdiv q degF) (Flit 90 0)). assert (L : Bltb w (Flit 180 0) = true /\ fin w = true) by (vm_compute; auto). destruct L as [L FW].
    destruct (Flit_int 180 ltac:(lia)) as [V1 F1]. rewrite (Bltb_correct 53 1024 w _ FW F1), V1 in L. destruct (Rlt_bool_spec (B2R w) 180); [assumption|discriminate L]. }
  clearbody q.
  assert (DB : forall z : R, Rabs z <= 2 -> Rabs (z / B2R degF) <= 128).
  { intros z Hz. unfold Rdiv. rewrite Rabs_mult, Rabs_inv, (Rabs_pos_eq (B2R degF)) by lra. 
    assert (I : / B2R degF <= / / 64) by (apply Rinv_le_contravar; lra). rewrite Rinv_inv in I. assert (0 < / B2R degF) by (apply Rinv_0_lt_compat; lra).
    pose proof (Rabs_pos z). nra. }
  assert (I : 0 < / B2R degF) by (apply Rinv_0_lt_compat; lra).
  destruct (Fdiv_ok x degF F ltac:(lra)) as [D1 D2].
  { apply (small_le _ 7); [lia|]. apply DB. apply Rabs_le. lra. }
  destruct (Fdiv_ok q degF Fq ltac:(lra)) as [Q1 Q2].
  { apply (small_le _ 7); [lia|]. apply DB. rewrite Vq. apply Rabs_le. lra. }
  assert (D0 : 0 <= B2R (Fdiv x degF) <= B2R (Fdiv q degF)).
  { rewrite D1, Q1. split.
    - apply rnd_ge; [apply (format_IZR 0); lia|]. unfold Rdiv. nra.
    - apply rnd_mono. unfold Rdiv. apply Rmult_le_compat_r; [lra|]. rewrite Vq. lra. }
  assert (QB : B2R (Fdiv q degF) <= 128).
  { rewrite Q1. apply rnd_le; [apply (format_IZR 128); lia|]. apply Rabs_le_inv. apply DB. rewrite Vq. apply Rabs_le. lra. }
  destruct (Fadd_ok (Fdiv x degF) (Flit 90 0) D2 F9) as [S1 S2].
  { rewrite V9. apply small_big. apply Rabs_le. lra. }
  destruct (Fadd_ok (Fdiv q degF) (Flit 90 0) Q2 F9) as [T1 _].
  { rewrite V9. apply small_big. apply Rabs_le. lra. }
  assert (S0 : 90 <= B2R (Fadd (Fdiv x degF) (Flit 90 0)) < 180).
  { split; [rewrite S1, V9; apply rnd_ge; [apply (format_IZR 90); lia|lra]|]. eapply Rle_lt_trans; [|exact Dq]. rewrite S1, T1, V9. apply rnd_mono. lra. }
  set (s := Fadd (Fdiv x degF) (Flit 90 0)) in *. clearbody s. clear S1 D1 D2 D0 Q1 Q2 T1 Dq QB.
  unfold y, rem_euclid. b64A_ops.
  destruct (Frem_full s (Flit (2 * 90) 0) S2 F18 ltac:(rewrite V18; apply IZR_neq; lia)) as (R1 & R2 & _).
  assert (R3 : B2R (Frem s (Flit (2 * 90) 0)) = B2R s).
  { rewrite R1, V18. unfold Rrem. rewrite (Ztrunc_floor (B2R s / IZR (2 * 90))) by (change (IZR (2 * 90)) with 180; lra).
    rewrite (Zfloor_imp 0) by (change (IZR (2 * 90)) with 180; change (IZR (0 + 1)) with 1; lra). ring. }
  set (r := Frem s (Flit (2 * 90) 0)) in *. clearbody r. destruct lit_0 as [Z0 F0].
  rewrite Bltb_correct, Z0 by assumption. rewrite Rlt_bool_false by lra.
  destruct (Fsub_ok r (Flit 90 0) R2 F9) as [A1 A2]; [rewrite V9; apply small_big; apply Rabs_le; lra|].
  rewrite A1, V9. apply rnd_ge; [apply (format_IZR 0); lia|lra].
Qed.

(** C49, binary64: for every longitude up to 7 rad either way and every latitude
    between the poles except the two largest numbers below pi/2, the degrees are
    within 3.4e-13 of the true longitude (up to whole turns) and within 1.4e-13 of
    the true latitude, and converting back gives the angles within 1e-14 rad (up
    to whole turns) and 4e-15 rad. *)
Lemma C49_accuracy_b64_partial_pf : forall lm p (l ph h : b64), fin l = true -> fin ph = true ->
  Rabs (B2R l) <= 7 -> - (PI / 2) <= B2R ph <= 7074237752028438 / 2 ^ 52 ->
  exists lo la : b64, geodetic_to_360 (A := b64A lm) p (MkGeod (A := b64A lm) l ph h) = Val (MkG360 (A := b64A lm) lo la h) /\
  (exists k : Z, near lo (B2R l * (180 / PI) + 360 * IZR k) (34 / 10 ^ 14)) /\
  near la (B2R ph * (180 / PI)) (14 / 10 ^ 14) /\
  let g := geodetic_of_360 (A := b64A lm) (MkG360 (A := b64A lm) lo la h) in
  near_angle (elong (A := b64A lm) g) (B2R l) (1 / 10 ^ 14) /\ near (phi (A := b64A lm) g) (B2R ph) (4 / 10 ^ 15).
Proof.
  intros lm p l ph h Fl Fp Bl Bp. pose proof L_Pi.PI_bounds_24 as P.
  assert (Bp' : Rabs (B2R ph) <= 2) by (apply Rabs_le; replace (2 ^ 52) with 4503599627370496 in Bp by ring; lra).
  assert (SB : forall v, v <= 7 -> v <= bpow radix2 1000).
  { intros v Hv. apply Rle_trans with (bpow radix2 3); [change (bpow radix2 3) with 8; lra|apply bpow_le; lia]. }
  destruct (C49_range_b64_pf lm p l ph h Fl Fp (SB _ Bl) (SB (Rabs (B2R ph)) ltac:(lra))) as (lo & la & E & F1 & F2 & B1 & B2).
  pose proof (wrap_near lm 180 l 7 34 (10 ^ 14) 1 (10 ^ 14) ltac:(lia) Fl Bl ltac:(vm_compute; reflexivity)) as (k & K1 & K2).
  pose proof (wrap_near lm 90 ph 2 14 (10 ^ 14) 4 (10 ^ 15) ltac:(lia) Fp Bp' ltac:(vm_compute; reflexivity)) as (j & J1 & J2).
  pose proof (south_F lm ph Fp) as SO. cbv zeta in SO. pose proof (north_F lm ph Fp) as NO. cbv zeta in NO.
  replace (2 ^ 52) with 4503599627370496 in Bp by ring.
  pose proof E as E0. unfold geodetic_to_360 in E0. cbn [elong phi height] in E0.
  change (lon_360 (A := b64A lm) l) with (Fsub (rem_euclid (A := b64A lm) (Fadd (Fdiv l degF) (Flit 180 0)) (Flit (2 * 180) 0)) (Flit 180 0)) in E0.
  change (lat_360 (A := b64A lm) ph) with (Fsub (rem_euclid (A := b64A lm) (Fadd (Fdiv ph degF) (Flit 90 0)) (Flit (2 * 90) 0)) (Flit 90 0)) in E0.
  set (lo' := Fsub _ (Flit 180 0)) in *. set (la' := Fsub _ (Flit 90 0)) in *. clearbody lo' la'.
  assert (EE : lo' = lo /\ la' = la).
  { assert (OK : Val (MkG360 (A := b64A lm) lo' la' h) = Val (MkG360 (A := b64A lm) lo la h)) by (destruct p; [match type of E0 with match ?c with _ => _ end = _ => destruct c end|]; congruence). split; congruence. }
  destruct EE as [-> ->]. clear E0.
  assert (j = 0)%Z as ->.
  { destruct J1 as [_ J1]. apply Rabs_le_inv in J1. change (IZR (2 * 90)) with 180 in J1. change (IZR (10 ^ 14)) with 100000000000000 in J1.
    set (d := B2R ph * (180 / PI)) in *.
    assert (D1 : -90 <= d <= 90).
    { unfold d. replace (B2R ph * (180 / PI)) with (B2R ph * 180 / PI) by (field; lra). split.
      - apply Rmult_le_reg_r with PI; [lra|]. unfold Rdiv. rewrite Rmult_assoc, Rinv_l by lra. lra.
      - apply Rmult_le_reg_r with PI; [lra|]. unfold Rdiv at 1. rewrite Rmult_assoc, Rinv_l by lra. lra. }
    destruct (Rle_or_lt (B2R ph) 0) as [N|N].
    - specialize (SO (conj (proj1 Bp) N)). assert (d <= 0).
      { unfold d. apply Rmult_le_reg_r with PI; [lra|]. replace (B2R ph * (180 / PI) * PI) with (B2R ph * 180) by (field; lra). lra. }
      assert (- 1 < j < 1)%Z; [|lia]. split; apply lt_IZR; lra.
    - specialize (NO (conj (Rlt_le _ _ N) (proj2 Bp))). assert (0 <= d).
      { unfold d. apply Rmult_le_reg_r with PI; [lra|]. replace (B2R ph * (180 / PI) * PI) with (B2R ph * 180) by (field; lra). lra. }
      assert (- 1 < j < 1)%Z; [|lia]. split; apply lt_IZR; lra. }
  rewrite Rmult_0_l, Rplus_0_r in J1. rewrite Rmult_0_l, Rplus_0_r in J2.
  exists lo, la. split; [exact E|]. split; [exists k|].
  { replace (360 * IZR k) with (IZR k * IZR (2 * 180)) by (change (IZR (2 * 180)) with 360; ring). replace (34 / 10 ^ 14) with (34 / IZR (10 ^ 14)) by (change (IZR (10 ^ 14)) with 100000000000000; lra). exact K1. }
  split; [replace (14 / 10 ^ 14) with (14 / IZR (10 ^ 14)) by (change (IZR (10 ^ 14)) with 100000000000000; lra); exact J1|].
  cbv zeta. unfold geodetic_of_360. cbn [elong phi lon lat height360]. change (mul (b64A lm) lo (DEGREE (A := b64A lm))) with (Fmul lo degF).
  change (mul (b64A lm) la (DEGREE (A := b64A lm))) with (Fmul la degF). split.
  - destruct K2 as [G1 G2]. split; [exact G1|]. exists k. change (IZR (2 * 180)) with 360 in G2. change (IZR (10 ^ 14)) with 100000000000000 in G2.
    replace (IZR k * (2 * PI)) with (IZR k * (360 * (PI / 180))) by field. eapply Rle_trans; [exact G2|]. lra.
  - destruct J2 as [G1 G2]. split; [exact G1|]. change (IZR (10 ^ 15)) with 1000000000000000 in G2. eapply Rle_trans; [exact G2|]. lra.
Qed.

(** C49, binary64: the two numbers left out do wrap: each becomes -90 degrees; the
    next one down becomes a latitude just below 90 degrees. *)
Lemma C49_north_pole_b64_refuted_pf : forall lm,
  lat_360 (A := b64A lm) (Fof 7074237752028440 (-52)) = Flit (-90) 0 /\
  lat_360 (A := b64A lm) (Fof 7074237752028439 (-52)) = Flit (-90) 0 /\
  lat_360 (A := b64A lm) (Fof 7074237752028438 (-52)) = Fof 6333186975989758 (-46).
Proof. intros lm. split; [|split]; apply B2SF_inj; vm_compute; reflexivity. Qed.

(** C49, binary64, at -3 rad of longitude and 1 rad of latitude. *)
Example C49_b64_example_pf : forall lm p, exists lo la : b64,
  geodetic_to_360 (A := b64A lm) p (MkGeod (A := b64A lm) (Flit (-3) 0) (Flit 1 0) (Flit 7 0)) = Val (MkG360 (A := b64A lm) lo la (Flit 7 0)) /\
  near la (180 / PI) (14 / 10 ^ 14).
Proof.
  intros lm p. destruct (Flit_int (-3) ltac:(lia)) as [V1 F1]. destruct (Flit_int 1 ltac:(lia)) as [V2 F2]. pose proof L_Pi.PI_bounds_24 as P.
  destruct (C49_accuracy_b64_partial_pf lm p (Flit (-3) 0) (Flit 1 0) (Flit 7 0) F1 F2) as (lo & la & E & _ & N & _).
  - rewrite V1. apply Rabs_le. lra.
  - rewrite V2. replace (2 ^ 52) with 4503599627370496 by ring. lra.
  - exists lo, la. split; [exact E|]. rewrite V2, Rmult_1_l in N. exact N.
Qed.
