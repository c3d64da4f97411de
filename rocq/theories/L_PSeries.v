(** * Proofs of the series properties C39-C43, C50, C57-C61 *)

From Coq Require Import ZArith Reals Lra Lia Bool List.
From Flocq Require Import Core BinarySingleNaN.
From Verif Require Import Outcome Arith ArithR ArithF M_Common M_Time M_Earth M_Fundargs M_Locator M_Frames.
From Verif Require Import Spec_Float Spec_Matrix Spec_Frames Spec_Series.
From Verif Require Import L_ArithR L_ArithF L_Flit L_PAngles L_Matrix L_PMatrix L_Frames L_Near L_Series L_SeriesR L_Pi L_PFrames L_Epv L_Closed.
Import ListNotations.
Open Scope R_scope.

(** C39.  In any arithmetic, for any input, every table access is in bounds:
    the series functions and all that is built on them return. *)
Lemma C39_no_panic_pf : forall A : arith,
  (forall d, exists r, earth_pos_vel (A := A) d = Val r) /\
  (forall d, exists r, nutation (A := A) d = Val r) /\
  (forall d x y, exists r, cio (A := A) d x y = Val r) /\
  (forall d, exists r, precession_nutation (A := A) d = Val r) /\
  (forall d, exists r, celestial_to_intermediate (A := A) d = Val r) /\
  (forall d u xp yp, exists r, celestial_to_terrestrial (A := A) d u xp yp = Val r).
Proof.
  intros A. 
  assert (RT : forall x : num A, (exists m, rotation (A := A) 0 x = Val m) /\ (exists m, rotation (A := A) 1 x = Val m) /\
     (exists m, rotation (A := A) 2 x = Val m)).
  { intros x. unfold rotation. cbn. repeat split; eexists; reflexivity. }
  assert (PN : forall d, exists r, precession_nutation (A := A) d = Val r).
  { intros d. unfold precession_nutation, pn_from_tt. rewrite nutation_val. cbn [bind].
    unfold pn_from_tt_with_nutation. destruct (precession_rate d) as [dp de] eqn:EP. unfold bias_and_precession. rewrite EP.
    destruct frame_bias as [[x y] z].
    repeat match goal with |- context [rotation ?n ?x] => 
      let m := fresh "m" in let E := fresh "E" in
      first [destruct (proj1 (RT x)) as [m E]; rewrite E | destruct (proj1 (proj2 (RT x))) as [m E]; rewrite E |
             destruct (proj2 (proj2 (RT x))) as [m E]; rewrite E]; clear E; cbn [bind] end.
    unfold nutation_matrix.
    repeat match goal with |- context [rotation ?n ?x] => 
      let m := fresh "m" in let E := fresh "E" in
      first [destruct (proj1 (RT x)) as [m E]; rewrite E | destruct (proj1 (proj2 (RT x))) as [m E]; rewrite E |
             destruct (proj2 (proj2 (RT x))) as [m E]; rewrite E]; clear E; cbn [bind] end.
    eexists. reflexivity. }
  assert (CI : forall d, exists r, celestial_to_intermediate (A := A) d = Val r).
  { intros d. unfold celestial_to_intermediate. destruct (PN d) as [m ->]. cbn [bind]. unfold c2i_with_bpn, xy_from_bpn, c2i_with_xy.
    rewrite cio_val. cbn [bind]. unfold c2i_from_xys. cbv zeta.
    repeat match goal with |- context [rotation ?n ?x] => 
      let m := fresh "m" in let E := fresh "E" in
      first [destruct (proj1 (RT x)) as [m E]; rewrite E | destruct (proj1 (proj2 (RT x))) as [m E]; rewrite E |
             destruct (proj2 (proj2 (RT x))) as [m E]; rewrite E]; clear E; cbn [bind] end.
    eexists. reflexivity. }
  split; [intros; rewrite earth_pos_vel_val; eexists; reflexivity|].
  split; [intros; rewrite nutation_val; eexists; reflexivity|].
  split; [intros; rewrite cio_val; eexists; reflexivity|].
  split; [exact PN|]. split; [exact CI|].
  intros d u xp yp. unfold celestial_to_terrestrial. destruct (CI d) as [m ->]. cbn [bind]. unfold polar_motion_matrix, c2t_from_cio.
  repeat match goal with |- context [rotation ?n ?x] => 
      let m := fresh "m" in let E := fresh "E" in
      first [destruct (proj1 (RT x)) as [m E]; rewrite E | destruct (proj1 (proj2 (RT x))) as [m E]; rewrite E |
             destruct (proj2 (proj2 (RT x))) as [m E]; rewrite E]; clear E; cbn [bind] end.
  eexists. reflexivity.
Qed.

(** One entry further than the table is a panic in the model. *)
Example C39_example_pf : forall A : arith,
  tab_get (A := A) T_Epv00.E0 0 500 0 <> Panic /\ tab_get (A := A) T_Epv00.E0 0 501 0 = Panic.
Proof.
  intros A. split; [|reflexivity].
  rewrite (tab_get_val A T_Epv00.E0 501) by (try lia; vm_compute; reflexivity). discriminate.
Qed.

(** ** C40 *)

Lemma der_ext : forall (f g : R -> R) x l, (forall y, f y = g y) -> derivable_pt_lim f x l -> derivable_pt_lim g x l.
Proof. intros f g x l E H eps He. destruct (H eps He) as [d Hd]. exists d. intros h. rewrite <- !E. apply Hd. Qed.

Lemma D_years_1 : forall F F' b, (forall t, derivable_pt_lim F t (F' t)) ->
  forall a, derivable_pt_lim (fun a => F (years (MkTDB (A := realA) a b))) a (F' (years (MkTDB (A := realA) a b)) / 365.25).
Proof.
  intros F F' b H a. unfold Rdiv at 1. 
  apply (derivable_pt_lim_comp (fun a => years (MkTDB (A := realA) a b)) F); [|apply H].
  apply (der_ext (fun t => (b - 2451545) / 365.25 + / 365.25 * t)); [|apply lin_der].
  intros y. unfold years. cbn [tdb_1 tdb_2]. change (num realA) with R in *. lra.
Qed.
Lemma years_swap : forall a b, years (MkTDB (A := realA) a b) = years (MkTDB (A := realA) b a).
Proof. intros. unfold years. cbn [tdb_1 tdb_2]. change (num realA) with R in *. lra. Qed.
Lemma D_years_2 : forall F F' a, (forall t, derivable_pt_lim F t (F' t)) ->
  forall b, derivable_pt_lim (fun b => F (years (MkTDB (A := realA) a b))) b (F' (years (MkTDB (A := realA) a b)) / 365.25).
Proof.
  intros F F' a H b. rewrite years_swap.
  apply (der_ext (fun b => F (years (MkTDB (A := realA) b a)))); [intros; rewrite years_swap; reflexivity|].
  apply D_years_1. exact H.
Qed.

Lemma djy_R : DJY (A := realA) = 365.25.
Proof. unfold DJY. realA_ops. unfold Rlit. change (Z.pow_pos 10 2) with 100%Z. lra. Qed.

Lemma D_lin3 : forall f g h f' g' h' a b c t, derivable_pt_lim f t f' -> derivable_pt_lim g t g' -> derivable_pt_lim h t h' ->
  derivable_pt_lim (fun t => a * f t + b * g t + c * h t) t (a * f' + b * g' + c * h').
Proof.
  intros. apply (derivable_pt_lim_plus (fun t => a * f t + b * g t) (fun t => c * h t)); [|apply scal_der; assumption].
  apply (derivable_pt_lim_plus (fun t => a * f t) (fun t => b * g t)); apply scal_der; assumption.
Qed.

Definition icrf_row (i : idx) : R * R * R :=
  match i with I0 => (1, AM12 (A := realA), AM13 (A := realA)) | I1 => (AM21 (A := realA), AM22 (A := realA), AM23 (A := realA))
  | I2 => (0, AM32 (A := realA), AM33 (A := realA)) end.
Lemma ecl_row : forall x y z i, coord (ecl_to_icrf (A := realA) x y z) i =
  fst (fst (icrf_row i)) * x + snd (fst (icrf_row i)) * y + snd (icrf_row i) * z.
Proof.
  intros x y z i. unfold ecl_to_icrf, coord. destruct i; cbn [vget v0 v1 v2 icrf_row fst snd]; realA_ops; 
  change (num realA) with R; ring.
Qed.

Lemma icrf_der : forall (s0 s1 s2 : R -> R * R) i, D s0 -> D s1 -> D s2 ->
  forall t, derivable_pt_lim (fun t => coord (ecl_to_icrf (A := realA) (fst (s0 t)) (fst (s1 t)) (fst (s2 t))) i) t
   (coord (ecl_to_icrf (A := realA) (snd (s0 t)) (snd (s1 t)) (snd (s2 t))) i).
Proof.
  intros s0 s1 s2 i H0 H1 H2 t. rewrite ecl_row.
  apply (der_ext (fun t => fst (fst (icrf_row i)) * fst (s0 t) + snd (fst (icrf_row i)) * fst (s1 t) + snd (icrf_row i) * fst (s2 t)));
    [intros; rewrite ecl_row; reflexivity|].
  apply D_lin3; [apply H0|apply H1|apply H2].
Qed.
Lemma ecl_div : forall x y z c i, coord (ecl_to_icrf (A := realA) (x / c) (y / c) (z / c)) i = coord (ecl_to_icrf (A := realA) x y z) i / c.
Proof. intros. rewrite !ecl_row. unfold Rdiv. ring. Qed.

(** C40.  The velocity components are the derivatives of the position
    components with respect to either part of the date, in days. *)
Lemma C40_velocity_is_derivative_pf : exists f : R -> R -> EarthPosVel realA,
  (forall a b, earth_pos_vel (A := realA) (MkTDB (A := realA) a b) = Val (f a b)) /\
  forall a b i,
  let hp a b := coord (pv_p (A := realA) (heliocentric (A := realA) (f a b))) i in
  let hv a b := coord (pv_v (A := realA) (heliocentric (A := realA) (f a b))) i in
  let bp a b := coord (pv_p (A := realA) (barycentric (A := realA) (f a b))) i in
  let bv a b := coord (pv_v (A := realA) (barycentric (A := realA) (f a b))) i in
  derivable_pt_lim (fun x => hp x b) a (hv a b) /\ derivable_pt_lim (fun x => hp a x) b (hv a b) /\
  derivable_pt_lim (fun x => bp x b) a (bv a b) /\ derivable_pt_lim (fun x => bp a x) b (bv a b).
Proof.
  exists (fun a b => epv_val realA (MkTDB (A := realA) a b)). split; [intros; apply earth_pos_vel_val|].
  intros a b i. cbv zeta. unfold epv_val. cbn [heliocentric barycentric pv_p pv_v]. cbv zeta. rewrite djy_R.
  change (div realA) with Rdiv.
  assert (EY : forall a b, epv_years (A := realA) (MkTDB (A := realA) a b) = years (MkTDB (A := realA) a b)) by (intros; apply years_R).
  rewrite EY. rewrite !ecl_div.
  set (H := fun t => coord (ecl_to_icrf (A := realA) (fst (helio_st realA 0 t)) (fst (helio_st realA 1 t)) (fst (helio_st realA 2 t))) i).
  set (B := fun t => coord (ecl_to_icrf (A := realA) (fst (bary_st realA 0 t)) (fst (bary_st realA 1 t)) (fst (bary_st realA 2 t))) i).
  set (H' := fun t => coord (ecl_to_icrf (A := realA) (snd (helio_st realA 0 t)) (snd (helio_st realA 1 t)) (snd (helio_st realA 2 t))) i).
  set (B' := fun t => coord (ecl_to_icrf (A := realA) (snd (bary_st realA 0 t)) (snd (bary_st realA 1 t)) (snd (bary_st realA 2 t))) i).
  assert (DH : forall t, derivable_pt_lim H t (H' t)) by (intros t; apply icrf_der; apply D_helio).
  assert (DB : forall t, derivable_pt_lim B t (B' t)) by (intros t; apply icrf_der; apply D_bary).
  pose proof (D_years_1 H H' b DH a) as R1. pose proof (D_years_2 H H' a DH b) as R2.
  pose proof (D_years_1 B B' b DB a) as R3. pose proof (D_years_2 B B' a DB b) as R4.
  unfold H, B, H', B' in *.
  split; [|split; [|split]]; (eapply der_ext; [|first [exact R1|exact R2|exact R3|exact R4]]);
    intros x; cbv beta; rewrite EY; reflexivity.
Qed.

(** A table with the single term 3 cos(1/2 + 2t). *)
Example C40_example_pf : forall t : R,
  terms0 (A := realA) [[[(3, 0)]]; [[(5, -1)]]; [[(2, 0)]]]%Z 1 0 t (0, 0) =
  Val (3 * cos (1 / 2 + 2 * t), - 6 * sin (1 / 2 + 2 * t)).
Proof.
  intros t. unfold terms0. cbn [seq for_each tab_get index nth_error bind fst snd]. realA_ops.
  rewrite (Rlit_0 3), (Rlit_0 2). unfold Rlit. change (Z.pow_pos 10 1) with 10%Z. replace (5 / 10) with (1 / 2) by lra.
  f_equal. f_equal; ring.
Qed.

(** ** C41 *)

(** C41.  Exact arithmetic: the warning is set iff the date is 100 Julian years
    or more from J2000.0. *)
Lemma C41_warning_real_pf : forall d, exists r, earth_pos_vel (A := realA) d = Val r /\
  (warning (A := realA) r = Some DateOutOfRange <-> 100 <= Rabs (years d)) /\
  (warning (A := realA) r = None <-> Rabs (years d) < 100).
Proof.
  intros d. exists (epv_val realA d). split; [apply earth_pos_vel_val|]. unfold epv_val. cbv zeta. cbn [warning].
  rewrite years_R. realA_ops. rewrite (Rlit_0 100).
  destruct (Rlt_bool_spec (Rabs (years d)) 100) as [H|H]; split; split; intros; try discriminate; try reflexivity; lra.
Qed.

Lemma below_36525 : forall s, format s -> Rabs s < 36525 -> Rabs s <= 36525 - / 137438953472.
Proof.
  intros s F H. destruct (Rle_dec (Rabs s) 32768) as [L|L]; [lra|].
  apply generic_format_abs in F. set (x := Rabs s) in *. assert (X : 32768 < x) by lra.
  assert (M : mag radix2 x = 16%Z :> Z).
  { apply mag_unique_pos. change (bpow radix2 (16 - 1)) with 32768. change (bpow radix2 16) with 65536. lra. }
  unfold generic_format, F2R in F. unfold cexp, FLT_exp in F. rewrite M in F. change (Z.max (16 - 53) (-1074)) with (-37)%Z in F.
  cbn [Fnum Fexp] in F. set (m := Ztrunc _) in F. 
  change (bpow radix2 (-37)) with (/ 137438953472) in F.
  assert (Hm : (m < 36525 * 137438953472)%Z).
  { apply lt_IZR. rewrite mult_IZR. rewrite F in H. apply Rmult_lt_reg_r with (/ 137438953472); [lra|]. lra. }
  assert (Hm2 : (m <= 36525 * 137438953472 - 1)%Z) by lia. apply IZR_le in Hm2. rewrite minus_IZR, mult_IZR in Hm2. rewrite F. lra.
Qed.

Lemma format_100m : format (100 - / 70368744177664).
Proof.
  replace (100 - / 70368744177664) with (IZR 7036874417766399 * bpow radix2 (-46)).
  - apply format_dyadic; lia.
  - change (bpow radix2 (-46)) with (/ 70368744177664). lra.
Qed.

Lemma lit_djy : B2R (Flit 36525 (-2)) = 365.25 /\ fin (Flit 36525 (-2)) = true.
Proof.
  split; [|vm_compute; reflexivity]. rewrite B2R_SF. replace (B2SF (Flit 36525 (-2))) with (SpecFloat.S754_finite false 6425545952722944 (-44)) by (vm_compute; reflexivity).
  cbn [SF2R cond_Zopp]. unfold F2R. cbn [Fnum Fexp]. change (bpow radix2 (-44)) with (/ 17592186044416). lra.
Qed.
Lemma lit_100 : B2R (Flit 100 0) = 100 /\ fin (Flit 100 0) = true.
Proof.
  split; [|vm_compute; reflexivity]. rewrite B2R_SF. replace (B2SF (Flit 100 0)) with (SpecFloat.S754_finite false 7036874417766400 (-46)) by (vm_compute; reflexivity).
  cbn [SF2R cond_Zopp]. unfold F2R. cbn [Fnum Fexp]. change (bpow radix2 (-46)) with (/ 70368744177664). lra.
Qed.

Lemma years_test : forall s : b64, Bltb (Babs (Fdiv s (Flit 36525 (-2)))) (Flit 100 0) = true <-> fin s = true /\ Rabs (B2R s) < 36525.
Proof.
  intros s. destruct lit_djy as [VY FY]. destruct lit_100 as [V1 F1].
  destruct (fin s) eqn:Fs.
  - assert (SM : small (B2R s / B2R (Flit 36525 (-2)))).
    { rewrite VY. unfold small. unfold Rdiv. rewrite Rabs_mult, (Rabs_pos_eq (/ 365.25)) by lra.
      pose proof (abs_B2R_lt_emax 53 1024 s) as B. change (bpow radix2 1024) with (bpow radix2 (1 + 1023)) in B. rewrite bpow_plus in B.
      change (bpow radix2 1) with 2 in B. pose proof (bpow_ge_0 radix2 1023). pose proof (Rabs_pos (B2R s)). lra. }
    destruct (Fdiv_ok s (Flit 36525 (-2)) Fs ltac:(rewrite VY; lra) SM) as [E F]. rewrite VY in E.
    rewrite Bltb_correct by (rewrite ?is_finite_Babs; assumption). rewrite B2R_Babs, E, V1.
    split.
    + intros H. split; [reflexivity|]. destruct (Rlt_bool_spec (Rabs (rnd (B2R s / 365.25))) 100) as [L|L]; [|discriminate].
      apply Rnot_le_lt. intros G. apply (Rlt_not_le _ _ L).
      destruct (Rle_dec 0 (B2R s)) as [P|P].
      * rewrite (Rabs_pos_eq (B2R s)) in G by exact P. eapply Rle_trans; [|apply Rle_abs].
        apply rnd_ge; [apply (format_IZR 100); lia|]. lra.
      * rewrite Rabs_left in G by lra. rewrite <- Rabs_Ropp. eapply Rle_trans; [|apply Rle_abs].
        assert (rnd (B2R s / 365.25) <= -100); [|lra]. apply rnd_le; [apply (format_IZR (-100)); lia|]. lra.
    + intros [_ G]. apply Rlt_bool_true. pose proof (below_36525 _ (format_B2R s) G) as B.
      apply Rle_lt_trans with (100 - / 70368744177664); [|lra]. apply rnd_abs_le; [apply format_100m|].
      unfold Rdiv. rewrite Rabs_mult, (Rabs_pos_eq (/ 365.25)) by lra. lra.
  - split; [|intros [H _]; discriminate]. intros H. exfalso. revert H.
    destruct s as [sg|sg| |sg m e B]; try discriminate Fs.
    + destruct sg; vm_compute; discriminate.
    + vm_compute. discriminate.
Qed.

(** C41.  binary64, any libm: the warning is absent iff the rounded number of
    days since J2000.0 is finite and less than 36525 in absolute value. *)
Lemma C41_warning_b64_pf : forall lm (d : TDB (b64A lm)),
  let s := Fadd (Fsub (tdb_1 (A := b64A lm) d) (Flit 2451545 0)) (tdb_2 (A := b64A lm) d) in
  exists r, earth_pos_vel (A := b64A lm) d = Val r /\
  (warning (A := b64A lm) r = None <-> fin s = true /\ Rabs (B2R s) < 36525) /\
  (is_nan s = true -> warning (A := b64A lm) r = Some DateOutOfRange).
Proof.
  intros lm d s. exists (epv_val (b64A lm) d). split; [apply earth_pos_vel_val|].
  unfold epv_val. cbv zeta. cbn [warning].
  change (ltb (b64A lm) (nabs (b64A lm) (epv_years (A := b64A lm) d)) (lit (b64A lm) 100 0)) with (Bltb (Babs (Fdiv s (Flit 36525 (-2)))) (Flit 100 0)).
  pose proof (years_test s) as T. clearbody s. split.
  - destruct (Bltb (Babs (Fdiv s (Flit 36525 (-2)))) (Flit 100 0)); split; intros H; try reflexivity; try discriminate.
    + apply T. reflexivity.
    + apply T in H. discriminate.
  - intros N. destruct (Bltb (Babs (Fdiv s (Flit 36525 (-2)))) (Flit 100 0)); [|reflexivity].
    destruct (proj1 T eq_refl) as [F _]. destruct s; discriminate.
Qed.

Lemma nan_sum : forall d1 c d2 : b64, is_nan d1 = true \/ is_nan d2 = true -> is_nan (Fadd (Fsub d1 c) d2) = true.
Proof.
  intros d1 c d2 [H|H].
  - destruct d1; try discriminate. destruct d2; reflexivity.
  - destruct d2; try discriminate. destruct (Fsub d1 c); reflexivity.
Qed.

(** C41.  The rounded number of days is NaN when either part of the date is. *)
Lemma C41_warning_nan_pf : forall lm (d : TDB (b64A lm)),
  is_nan (tdb_1 (A := b64A lm) d) = true \/ is_nan (tdb_2 (A := b64A lm) d) = true ->
  exists r, earth_pos_vel (A := b64A lm) d = Val r /\ warning (A := b64A lm) r = Some DateOutOfRange.
Proof.
  intros lm d H. destruct (C41_warning_b64_pf lm d) as (r & E & _ & N). exists r. split; [exact E|]. apply N.
  destruct d as [d1 d2]. apply nan_sum. exact H.
Qed.

(** One day inside the limit, and exactly on it, in binary64. *)
Example C41_example_pf : forall lm,
  (exists r, earth_pos_vel (A := b64A lm) (MkTDB (A := b64A lm) (Flit 2451545 0) (Flit 36524 0)) = Val r /\
     warning (A := b64A lm) r = None) /\
  (exists r, earth_pos_vel (A := b64A lm) (MkTDB (A := b64A lm) (Flit 2451545 0) (Flit (-36525) 0)) = Val r /\
     warning (A := b64A lm) r = Some DateOutOfRange).
Proof.
  intros lm. split.
  - destruct (C41_warning_b64_pf lm (MkTDB (A := b64A lm) (Flit 2451545 0) (Flit 36524 0))) as (r & E & W & _).
    exists r. split; [exact E|]. apply W. cbn [tdb_1 tdb_2]. split; [vm_compute; reflexivity|].
    rewrite B2R_SF. match goal with |- context [B2SF ?x] => replace (B2SF x) with (SpecFloat.S754_finite false 5019820336611328 (-37)) by (vm_compute; reflexivity) end.
    cbn [SF2R cond_Zopp]. unfold F2R. cbn [Fnum Fexp]. change (bpow radix2 (-37)) with (/ 137438953472). apply Rabs_lt. lra.
  - destruct (C41_warning_b64_pf lm (MkTDB (A := b64A lm) (Flit 2451545 0) (Flit (-36525) 0))) as (r & E & W & _).
    exists r. split; [exact E|]. destruct (warning r) as [[]|] eqn:Z; [reflexivity|]. destruct (proj1 W eq_refl) as [_ Z']. exfalso. revert Z'. clear.
    cbn [tdb_1 tdb_2].
    rewrite B2R_SF. match goal with |- context [B2SF ?x] => replace (B2SF x) with (SpecFloat.S754_finite true 5019957775564800 (-37)) by (vm_compute; reflexivity) end.
    cbn [SF2R cond_Zopp Z.opp]. unfold F2R. cbn [Fnum Fexp]. change (bpow radix2 (-37)) with (/ 137438953472). intros Z. apply Rabs_lt_inv in Z. lra.
Qed.

(** ** C42 *)

Lemma precession_rate_R : forall d, precession_rate (A := realA) d = (arcsec (-0.29965 * centuries d), arcsec (-0.02524 * centuries d)).
Proof.
  intros d. unfold precession_rate. rewrite centuries_R. unfold arcsec. realA_ops. unfold Rlit.
  change (Z.pow_pos 10 5) with 100000%Z. f_equal; lra.
Qed.
Lemma mean_obliquity_R : forall d, mean_obliquity (A := realA) d =
  arcsec (84381.448 - 46.8150 * centuries d - 0.00059 * centuries d ^ 2 + 0.001813 * centuries d ^ 3).
Proof.
  intros d. unfold mean_obliquity. rewrite centuries_R. unfold arcsec. realA_ops. unfold Rlit.
  change (Z.pow_pos 10 3) with 1000%Z. change (Z.pow_pos 10 4) with 10000%Z. change (Z.pow_pos 10 5) with 100000%Z. change (Z.pow_pos 10 6) with 1000000%Z. lra.
Qed.

(** C42.  Exact arithmetic: only the total date matters. *)
Lemma C42_total_date_pf :
  (forall a b a' b' : R, a + b = a' + b' ->
     let d := MkTT (A := realA) a b in let d' := MkTT (A := realA) a' b' in
     nutation (A := realA) d = nutation (A := realA) d' /\
     precession_rate (A := realA) d = precession_rate (A := realA) d' /\
     mean_obliquity (A := realA) d = mean_obliquity (A := realA) d' /\
     bias_and_precession (A := realA) d = bias_and_precession (A := realA) d' /\
     precession_nutation (A := realA) d = precession_nutation (A := realA) d' /\
     (forall x y, cio (A := realA) d x y = cio (A := realA) d' x y) /\
     celestial_to_intermediate (A := realA) d = celestial_to_intermediate (A := realA) d') /\
  (forall a b a' b' : R, a + b = a' + b' ->
     earth_pos_vel (A := realA) (MkTDB (A := realA) a b) = earth_pos_vel (A := realA) (MkTDB (A := realA) a' b')).
Proof.
  split.
  - intros a b a' b' E d d'.
    assert (C : centuries d = centuries d') by (unfold centuries, d, d'; cbn [tt_1 tt_2]; change (num realA) with R; f_equal; lra).
    assert (N : nutation (A := realA) d = nutation (A := realA) d') by (rewrite !nutation_closed, C; reflexivity).
    assert (PR : precession_rate (A := realA) d = precession_rate (A := realA) d') by (rewrite !precession_rate_R, C; reflexivity).
    assert (MO : mean_obliquity (A := realA) d = mean_obliquity (A := realA) d') by (rewrite !mean_obliquity_R, C; reflexivity).
    assert (BP : bias_and_precession (A := realA) d = bias_and_precession (A := realA) d')
      by (rewrite !(proj1 (proj2 (proj2 C37_matrix_products_pf))), C; reflexivity).
    assert (PN : precession_nutation (A := realA) d = precession_nutation (A := realA) d').
    { unfold precession_nutation, pn_from_tt. rewrite N. destruct (nutation (A := realA) d') as [[dpsi deps]|]; [|reflexivity]. cbn [bind].
      unfold pn_from_tt_with_nutation. rewrite PR, MO, BP. reflexivity. }
    assert (CI : forall x y, cio (A := realA) d x y = cio (A := realA) d' x y) by (intros; rewrite !cio_closed, C; reflexivity).
    split; [exact N|]. split; [exact PR|]. split; [exact MO|]. split; [exact BP|]. split; [exact PN|]. split; [exact CI|].
    unfold celestial_to_intermediate. rewrite PN. destruct (precession_nutation (A := realA) d') as [m|]; [|reflexivity]. cbn [bind].
    unfold c2i_with_bpn, c2i_with_xy. destruct (xy_from_bpn m) as [x y]. rewrite CI. reflexivity.
  - intros a b a' b' E. rewrite !earth_pos_vel_val. unfold epv_val. cbv zeta. rewrite !years_R.
    assert (Y : years (MkTDB (A := realA) a b) = years (MkTDB (A := realA) a' b')) by (unfold years; cbn [tdb_1 tdb_2]; change (num realA) with R; f_equal; lra).
    rewrite Y. reflexivity.
Qed.

(** J2000.0 in three splits. *)
Example C42_example_pf : let d a b := nutation (A := realA) (MkTT (A := realA) a b) in
  d 2451545 0 = d 2400000.5 51544.5 /\ d 2451545 0 = d 0 2451545.
Proof. split; apply (proj1 C42_total_date_pf); lra. Qed.

(** ** C43 *)

(** C43.  Earth-Sun distance, 1900-2100. *)
Lemma C43_distance_pf : forall d, Rabs (years d) <= 100 -> exists r, earth_pos_vel (A := realA) d = Val r /\
  let p := pv_p (A := realA) (heliocentric (A := realA) r) in
  0.96 <= R_sqrt.sqrt (sprod p p) <= 1.04.
Proof.
  intros d H. exists (epv_val realA d). split; [apply earth_pos_vel_val|]. cbv zeta.
  unfold epv_val. cbn [heliocentric pv_p]. cbv zeta. rewrite years_R.
  destruct (ecliptic_position (years d) H) as (phi & ex & ey & ez & E0 & E1 & E2 & B0 & B1 & B2).
  set (x := fst (helio_st realA 0 (years d))) in *. set (y := fst (helio_st realA 1 (years d))) in *. set (z := fst (helio_st realA 2 (years d))) in *.
  clearbody x y z. change (num realA) with R in *.
  pose proof (sin2_cos2 phi) as SC. unfold Rsqr in SC. pose proof (SIN_bound phi) as Sb. pose proof (COS_bound phi) as Cb.
  apply Rabs_le_inv in B0. apply Rabs_le_inv in B1. apply Rabs_le_inv in B2.
  assert (N := ecl_to_icrf_norm x y z ltac:(apply Rabs_le; lra) ltac:(apply Rabs_le; lra) ltac:(apply Rabs_le; lra)).
  apply Rabs_le_inv in N. set (s := sprod _ _) in *. clearbody s.
  (* |x^2 + y^2 - a^2| <= 2 a (ex cos + ey sin) + ex^2 + ey^2 *)
  assert (K : Rabs (ex * cos phi + ey * sin phi) <= 0.0365).
  { set (c := cos phi) in *. set (q := sin phi) in *. clearbody c q. apply Rabs_le.
    assert (ex * ex + ey * ey <= 0.0365 * 0.0365) by nra.
    assert ((ex * c + ey * q) * (ex * c + ey * q) + (ex * q - ey * c) * (ex * q - ey * c) = ex * ex + ey * ey) by
      (replace (ex * ex + ey * ey) with ((ex * ex + ey * ey) * (q * q + c * c)) by (rewrite SC; ring); ring).
    pose proof (Rle_0_sqr (ex * q - ey * c)) as Q. unfold Rsqr in Q.
    set (u := ex * c + ey * q) in *. assert (U : u * u <= 0.0365 * 0.0365) by lra. clearbody u. clear - U. split; apply Rnot_lt_le; intros L; nra. }
  apply Rabs_le_inv in K.
  assert (X2 : x * x + y * y = 0.9998292878132 * 0.9998292878132 + 2 * 0.9998292878132 * (ex * cos phi + ey * sin phi) + ex * ex + ey * ey).
  { rewrite E0, E1. replace (0.9998292878132 * 0.9998292878132) with (0.9998292878132 * 0.9998292878132 * (sin phi * sin phi + cos phi * cos phi)) at 1 by (rewrite SC; lra). nra. }
  assert (0 <= ex * ex <= 0.0003) by nra. assert (0 <= ey * ey <= 0.0012) by nra. assert (0 <= z * z <= 0.000001) by (rewrite E2; nra).
  assert (S : 0.96 * 0.96 <= s <= 1.04 * 1.04) by lra.
  split.
  - rewrite <- (sqrt_square 0.96) by lra. apply sqrt_le_1_alt. lra.
  - rewrite <- (sqrt_square 1.04) by lra. apply sqrt_le_1_alt. lra.
Qed.

(** The interval of C43 is 1900 January 0.5 to 2100 January 1.5. *)
Example C43_example_pf : years (MkTDB (A := realA) 2415020 0) = -100 /\ years (MkTDB (A := realA) 2488070 0) = 100 /\
  exists r, earth_pos_vel (A := realA) (MkTDB (A := realA) 2415020 0) = Val r.
Proof.
  split; [unfold years; cbn [tdb_1 tdb_2]; lra|]. split; [unfold years; cbn [tdb_1 tdb_2]; lra|].
  apply (proj1 (C39_no_panic_pf realA)).
Qed.

(** ** C50 *)

(** C50.  The fundamental arguments are the IERS polynomials modulo one turn. *)
Lemma C50_congruent_partial_pf : forall t : R,
  same_angle (l03 (A := realA) t) (iers_l t) /\ same_angle (lp03 (A := realA) t) (iers_lp t) /\
  same_angle (f03 (A := realA) t) (iers_f t) /\ same_angle (d03 (A := realA) t) (iers_d t) /\
  same_angle (om03 (A := realA) t) (iers_om t) /\ same_angle (ve03 (A := realA) t) (iers_ve t) /\
  same_angle (e03 (A := realA) t) (iers_e t) /\ pa03 (A := realA) t = iers_pa t.
Proof.
  intros t. split; [apply l03_same|]. split; [apply lp03_same|]. split; [apply f03_same|]. split; [apply d03_same|].
  split; [apply om03_same|]. split; [apply ve03_same|]. split; [apply e03_same|apply pa03_R].
Qed.

Lemma two_turns : forall c p, 0 <= c < 1296000 -> Rabs ((c + Rrem p 1296000) * (PI / 648000)) < 2 * (2 * PI).
Proof.
  intros c p Hc. destruct (Rrem_bounds p 1296000 ltac:(lra)) as [B _]. pose proof PI_RGT_0 as P.
  apply Rabs_lt. apply Rabs_lt_inv in B || idtac.
  assert (K : -1296000 < c + Rrem p 1296000 < 2592000) by lra. set (u := c + Rrem p 1296000) in *. clearbody u. 
  split; [|]; nra.
Qed.

(** C50.  They lie within two turns of zero, ve03 and e03 within one. *)
Lemma C50_range_partial_pf : forall t : R,
  Rabs (l03 (A := realA) t) < 2 * (2 * PI) /\ Rabs (lp03 (A := realA) t) < 2 * (2 * PI) /\
  Rabs (f03 (A := realA) t) < 2 * (2 * PI) /\ Rabs (d03 (A := realA) t) < 2 * (2 * PI) /\
  Rabs (om03 (A := realA) t) < 2 * (2 * PI) /\ Rabs (ve03 (A := realA) t) < 2 * PI /\ Rabs (e03 (A := realA) t) < 2 * PI.
Proof.
  intros t. unfold l03, lp03, f03, d03, om03, ve03, e03. rewrite turnas_R. realA_ops.
  repeat (split; [first [apply two_turns; unfold Rlit; change (Z.pow_pos 10 6) with 1000000%Z; lra|
    apply Rabs_lt; destruct (Rrem_bounds (Rlit 3176146697 (-9) + Rlit 10213285546211 (-10) * t) (2 * PI) ltac:(pose proof PI_RGT_0; lra)) as [B _]; try apply Rabs_lt_inv in B; lra]|]).
  apply Rabs_lt; destruct (Rrem_bounds (Rlit 1753470314 (-9) + Rlit 6283075849991 (-10) * t) (2 * PI) ltac:(pose proof PI_RGT_0; lra)) as [B _]; try apply Rabs_lt_inv in B; lra.
Qed.

(** C50.  The claimed range fails: [%] binds tighter than [+], so the constant
    term is added after the reduction.  Witness: t = 0.00999, lp03. *)
Lemma C50_one_turn_refuted_pf : exists t : R, 2 * PI < lp03 (A := realA) t.
Proof.
  exists 0.00999. unfold lp03. rewrite turnas_R. realA_ops. pose proof PI_RGT_0 as P.
  match goal with |- context [Rrem ?p 1296000] => assert (E : 1294669 < p < 1294670) end.
  { unfold Rlit. change (Z.pow_pos 10 4) with 10000%Z. change (Z.pow_pos 10 6) with 1000000%Z. change (Z.pow_pos 10 8) with 100000000%Z. lra. }
  match goal with |- context [Rrem ?p 1296000] => set (p0 := p) in *; clearbody p0 end.
  assert (R : Rrem p0 1296000 = p0).
  { unfold Rrem. rewrite (Ztrunc_floor (p0 / 1296000)) by lra. rewrite (Zfloor_imp 0); [lra|]. split; [|rewrite plus_IZR]; lra. }
  rewrite R. unfold Rlit. change (Z.pow_pos 10 6) with 1000000%Z. 
  assert (2581000 < 1287104793048 / 1000000 + p0) by lra. nra.
Qed.

(** l03 at t = 0 is 485868.249036 arcseconds. *)
Example C50_example_pf : l03 (A := realA) 0 = arcsec 485868.249036.
Proof.
  unfold l03. rewrite turnas_R. realA_ops. rewrite !Rmult_0_l. unfold Rrem. replace (0 / 1296000) with 0 by lra.
  rewrite (Ztrunc_IZR 0). unfold arcsec, Rlit. change (Z.pow_pos 10 6) with 1000000%Z. lra.
Qed.

(** ** C57 *)

(** C57.  Exact arithmetic: cio + xy/2 depends on the total date only. *)
Lemma C57_cio_pf : exists S : R -> R, forall a b x y,
  cio (A := realA) (MkTT (A := realA) a b) x y = Val (S (a + b) - x * y / 2).
Proof.
  exists (fun j => cio_sxy2 ((j - 2451545) / 36525)). intros a b x y. rewrite cio_closed. reflexivity.
Qed.

(** Exact arithmetic: the two CIO locators at (1,1) and (1,-1) differ by 1. *)
Example C57_example_pf : forall d, exists s s', cio (A := realA) d 1 1 = Val s /\ cio (A := realA) d 1 (-1) = Val s' /\ s' - s = 1.
Proof. intros d. rewrite !cio_closed. do 2 eexists. split; [reflexivity|]. split; [reflexivity|]. lra. Qed.

(** ** C58 *)

(** C58.  Nutation within 20 and 11 arcseconds, mean obliquity between 23.4 and
    23.5 degrees, within a century of J2000.0. *)
Lemma C58_magnitudes_pf : forall d, Rabs (centuries d) <= 1 -> exists dpsi deps, nutation (A := realA) d = Val (dpsi, deps) /\
  Rabs dpsi < arcsec 20 /\ Rabs deps < arcsec 11 /\
  23.4 * (PI / 180) < mean_obliquity (A := realA) d < 23.5 * (PI / 180).
Proof.
  intros d H. destruct (nutation_bound d) as (dpsi & deps & E & B1 & B2). exists dpsi, deps. split; [exact E|].
  rewrite mean_obliquity_R. set (t := centuries d) in *. pose proof PI_RGT_0 as P. unfold arcsec in *.
  assert (T : 0 <= t ^ 2 <= 1) by (apply Rabs_le_inv in H; nra). assert (T3 : -1 <= t ^ 3 <= 1) by (apply Rabs_le_inv in H; nra).
  split; [|split].
  - eapply Rle_lt_trans; [exact B1|]. apply Rmult_lt_compat_r; lra.
  - eapply Rle_lt_trans; [exact B2|]. apply Rmult_lt_compat_r; lra.
  - apply Rabs_le_inv in H. assert (Q : 84240 < 84381.448 - 46.8150 * t - 0.00059 * t ^ 2 + 0.001813 * t ^ 3 < 84600) by lra.
    set (u := 84381.448 - 46.8150 * t - 0.00059 * t ^ 2 + 0.001813 * t ^ 3) in *. clearbody u. split; nra.
Qed.
(** At J2000.0 the mean obliquity is 84381.448 arcseconds. *)
Example C58_example_pf : mean_obliquity (A := realA) (MkTT (A := realA) 2451545 0) = arcsec 84381.448.
Proof.
  rewrite mean_obliquity_R. assert (C : centuries (MkTT (A := realA) 2451545 0) = 0) by (unfold centuries; cbn [tt_1 tt_2]; lra).
  rewrite C. f_equal. lra.
Qed.

(** ** C59-C61 *)

(** C59.  Positions are the sums over all rows of the tables, turned to ICRF. *)
Lemma C59_position_series_pf : forall d, exists r, earth_pos_vel (A := realA) d = Val r /\
  forall i, coord (pv_p (A := realA) (heliocentric (A := realA) r)) i = icrf (fun k => helio_ecl k (years d)) i /\
            coord (pv_p (A := realA) (barycentric (A := realA) r)) i = icrf (fun k => bary_ecl k (years d)) i.
Proof.
  intros d. exists (epv_val realA d). split; [apply earth_pos_vel_val|]. intros i.
  unfold epv_val. cbn [heliocentric barycentric pv_p]. cbv zeta. rewrite years_R.
  rewrite !(fun k H => proj1 (helio_closed k (years d) H)) by lia. rewrite !(fun k H => proj2 (helio_closed k (years d) H)) by lia.
  rewrite !ecl_row. unfold icrf. 
  split; destruct i; cbn [icrf_row fst snd]; unfold AM12, AM13, AM21, AM22, AM23, AM32, AM33; realA_ops; unfold Rlit;
  change (Z.pow_pos 10 12) with 1000000000000%Z; lra.
Qed.

(** The leading term of the ecliptic x coordinate, and the numbers of rows. *)
Example C59_example_pf :
  cell T_Epv00.E0 0 0 0 = 0.9998292878132 /\ cell T_Epv00.E0 1 0 0 = 1.753485171504 /\ cell T_Epv00.E0 2 0 0 = 6.283075850446 /\
  length (nth 0 T_Epv00.E0 []) = 501%nat /\ length (nth 0 T_Epv00.S0 []) = 213%nat.
Proof.
  unfold cell. rewrite <- !rl_dec. unfold rl.
  repeat split; try reflexivity; cbn [nth T_Epv00.E0 T_Epv00.E0_0 T_Epv00.E0_1 T_Epv00.E0_2]; unfold Rlit;
  match goal with |- context [Z.pow_pos 10 ?p] => let v := eval vm_compute in (Z.pow_pos 10 p) in change (Z.pow_pos 10 p) with v end; cbn [fst]; lra.
Qed.

(** C60.  Nutation is the IAU 2000B sum over the 77 rows of the tables, with
    Delaunay arguments linear in time; no reduction modulo a turn is needed. *)
Lemma C60_nutation_series_pf : forall d, nutation (A := realA) d = Val (nut_dpsi (centuries d), nut_deps (centuries d)).
Proof. exact nutation_closed. Qed.

(** The leading term of nutation is -17.2064161 arcseconds times sin Omega. *)
Example C60_example_pf : length T_Nut.NALS = 77%nat /\ nth 0 T_Nut.NALS [] = [0; 0; 0; 0; 1]%Z /\
  nut_coef 0 0 / 10000000 = -17.2064161.
Proof.
  split; [reflexivity|]. split; [reflexivity|]. unfold nut_coef. rewrite <- rl_dec. unfold rl.
  change (nth 0 (nth 0 T_Nut.CLS []) (0, 0)%Z) with (-172064161, 0)%Z.
  cbn [fst snd]. rewrite Rlit_0. lra.
Qed.

(** C61.  The CIO locator is the IERS 2003 series. *)
Lemma C61_cio_series_pf : forall d x y, cio (A := realA) d x y = Val (cio_sxy2 (centuries d) - x * y / 2).
Proof. exact cio_closed. Qed.

Lemma R3_era : forall u, R3 (rotation_angle (A := realA) u) = R3 (era_of u).
Proof.
  intros [a b]. unfold era_of. cbn [ut1_1 ut1_2].
  rewrite (proj1 (L_PAngles.C29_era_total_pf a b)). cbv zeta.
  set (th := 0.7790572732640 + 1.00273781191135448 * (a + b - 2451545)).
  replace (2 * PI * (th - IZR (Zfloor th))) with (2 * PI * th + IZR (- Zfloor th) * (2 * PI)) by (rewrite opp_IZR; ring).
  unfold R3, rot3. destruct (cos_turns (2 * PI * th) (- Zfloor th)) as [-> ->]. reflexivity.
Qed.

(** C61.  The celestial-to-terrestrial matrix, end to end: N P B gives the pole
    (x,y), and the result is W(xp,yp,0) R3(ERA) Q(x,y,s), all of them spelled out. *)
Lemma C61_celestial_to_terrestrial_pf : forall d u xp yp, Rabs (centuries d) <= 50 ->
  let t := centuries d in
  let npb := product [N_matrix (eps_A t) (nut_dpsi t) (nut_deps t); P_matrix t; B_matrix] in
  let x := entry npb I2 I0 in let y := entry npb I2 I1 in
  celestial_to_terrestrial (A := realA) d u xp yp =
    Val (product [W_matrix xp yp 0; R3 (era_of u); Q_matrix x y (cio_sxy2 t - x * y / 2)]).
Proof.
  intros d u xp yp H t npb x y. rewrite <- R3_era.
  destruct (C38_pole_inside_pf d H) as (m & Em & Z & U).
  assert (M : m = npb).
  { unfold precession_nutation, pn_from_tt in Em. rewrite nutation_closed in Em. cbn [bind] in Em.
    destruct (proj1 (proj2 (proj2 (proj2 C37_matrix_products_pf))) d (nut_dpsi (centuries d)) (nut_deps (centuries d))) as (pn & E1 & _ & E2).
    rewrite E1 in Em. cbn [bind] in Em. unfold npb, t. rewrite <- E2. congruence. }
  subst m. apply C37_celestial_to_terrestrial_pf.
  unfold celestial_to_intermediate. rewrite Em. cbn [bind]. unfold c2i_with_bpn, xy_from_bpn, c2i_with_xy.
  rewrite cio_closed. cbn [bind]. change (mget (A := realA) npb I2 I0) with x. change (mget (A := realA) npb I2 I1) with y.
  apply C36_pole_matrix_pf. exact U.
Qed.

(** The polynomial part of s + xy/2 starts with 94 microarcseconds, and its
    leading periodic term is -2640.73 sin Omega (argument 5 of 8). *)
Example C61_example_pf : dec (nth 0 T_Cio.SP (0, 0)%Z) = 0.000094 /\
  nth 0 (nth 0 T_Cio.KSS []) [] = [0; 0; 0; 0; 1; 0; 0; 0]%Z /\ cio_coef 0 0 0 = -0.00264073.
Proof.
  unfold cio_coef. rewrite <- !rl_dec. unfold rl. repeat split; try reflexivity.
Qed.
