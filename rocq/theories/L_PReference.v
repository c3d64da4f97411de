(** * Lemmas for C99 (continued): position and velocity at the reference date *)

From Coq Require Import ZArith Reals Lra Lia List.
From Flocq Require Import Core BinarySingleNaN.
From Verif Require Import Outcome Arith ArithR ArithF Spec_Float Spec_Accuracy M_Common M_Time M_Earth T_Epv00 Spec_Matrix Spec_Frames Spec_Series Spec_Reference.
From Verif Require Import L_ArithF L_ArithR L_Eval L_Reference.
From Verif Require L_Epv L_PSeries L_PAccEarth L_PAccuracy L_Flit.
Import ListNotations.
Open Scope R_scope.

(** The date rounded to binary64. *)
Definition bi_n : Z := 256601963701727%Z.
Definition bi_d : Z := 50199577755648%Z.
Definition bi_t : R := IZR bi_n / IZR bi_d.
Lemma bi_near : 0 <= bi_t <= 6 /\ Rabs (bi_t - ex_t) <= 1 / 10 ^ 15.
Proof. unfold bi_t, ex_t, bi_n, bi_d, ex_n, ex_d. split; [lra|]. apply Rabs_le. lra. Qed.

Lemma within_le : forall x p e f, within x p e -> e <= f -> within x p f.
Proof. unfold within. intros. lra. Qed.

Lemma at_E0 : let p := (-77572400984546773180 / 10 ^ 20) in let v := (-398813383866065915102 / 10 ^ 20) in
  within (helio_ecl 0 ex_t) p (622 / 10 ^ 20) /\ within (dhelio 0 ex_t) v (10101 / 10 ^ 20) /\
  within (helio_ecl 0 bi_t) p (639954 / 10 ^ 20) /\ within (dhelio 0 bi_t) v (4120013 / 10 ^ 20).
Proof.
  destruct (chk_ok _ _ _ _ _ _ _ _ _ _ _ _ (eq_refl : (0 < ex_d)%Z) ex_E_0) as (P & V & N). cbv zeta in P, V, N. fold ex_t in P, V, N.
  destruct (N bi_t (1 / 10 ^ 15) (proj1 bi_near) (proj2 bi_near)) as [P' V']. change (fsum E0 E1 E2 0) with (helio_ecl 0) in P, P'. change (dsum E0 E1 E2 0) with (dhelio 0) in V, V'.
  unfold within in *. set (x1 := helio_ecl 0 ex_t) in *. set (x2 := dhelio 0 ex_t) in *. set (x3 := helio_ecl 0 bi_t) in *. set (x4 := dhelio 0 bi_t) in *. clearbody x1 x2 x3 x4. clear N. repeat split; lra.
Qed.

Lemma at_E1 : let p := (61015154224582387908 / 10 ^ 20) in let v := (-496510964833776660759 / 10 ^ 20) in
  within (helio_ecl 1 ex_t) p (615 / 10 ^ 20) /\ within (dhelio 1 ex_t) v (10258 / 10 ^ 20) /\
  within (helio_ecl 1 bi_t) p (639987 / 10 ^ 20) /\ within (dhelio 1 bi_t) v (4120440 / 10 ^ 20).
Proof.
  destruct (chk_ok _ _ _ _ _ _ _ _ _ _ _ _ (eq_refl : (0 < ex_d)%Z) ex_E_1) as (P & V & N). cbv zeta in P, V, N. fold ex_t in P, V, N.
  destruct (N bi_t (1 / 10 ^ 15) (proj1 bi_near) (proj2 bi_near)) as [P' V']. change (fsum E0 E1 E2 1) with (helio_ecl 1) in P, P'. change (dsum E0 E1 E2 1) with (dhelio 1) in V, V'.
  unfold within in *. set (x1 := helio_ecl 1 ex_t) in *. set (x2 := dhelio 1 ex_t) in *. set (x3 := helio_ecl 1 bi_t) in *. set (x4 := dhelio 1 bi_t) in *. clearbody x1 x2 x3 x4. clear N. repeat split; lra.
Qed.

Lemma at_E2 : let p := (-478803804427631 / 10 ^ 20) in let v := (-11814317736217443 / 10 ^ 20) in
  within (helio_ecl 2 ex_t) p (167 / 10 ^ 20) /\ within (dhelio 2 ex_t) v (3873 / 10 ^ 20) /\
  within (helio_ecl 2 bi_t) p (209 / 10 ^ 20) /\ within (dhelio 2 bi_t) v (6355 / 10 ^ 20).
Proof.
  destruct (chk_ok _ _ _ _ _ _ _ _ _ _ _ _ (eq_refl : (0 < ex_d)%Z) ex_E_2) as (P & V & N). cbv zeta in P, V, N. fold ex_t in P, V, N.
  destruct (N bi_t (1 / 10 ^ 15) (proj1 bi_near) (proj2 bi_near)) as [P' V']. change (fsum E0 E1 E2 2) with (helio_ecl 2) in P, P'. change (dsum E0 E1 E2 2) with (dhelio 2) in V, V'.
  unfold within in *. set (x1 := helio_ecl 2 ex_t) in *. set (x2 := dhelio 2 ex_t) in *. set (x3 := helio_ecl 2 bi_t) in *. set (x4 := dhelio 2 bi_t) in *. clearbody x1 x2 x3 x4. clear N. repeat split; lra.
Qed.

Lemma at_S0 : let p := (431343687237304255 / 10 ^ 20) in let v := (6412284470625550 / 10 ^ 20) in
  within (sun_ecl 0 ex_t) p (426 / 10 ^ 20) /\ within (dsum S0 S1 S2 0 ex_t) v (360 / 10 ^ 20) /\
  within (sun_ecl 0 bi_t) p (788 / 10 ^ 20) /\ within (dsum S0 S1 S2 0 bi_t) v (572 / 10 ^ 20).
Proof.
  destruct (chk_ok _ _ _ _ _ _ _ _ _ _ _ _ (eq_refl : (0 < ex_d)%Z) ex_S_0) as (P & V & N). cbv zeta in P, V, N. fold ex_t in P, V, N.
  destruct (N bi_t (1 / 10 ^ 15) (proj1 bi_near) (proj2 bi_near)) as [P' V']. change (fsum S0 S1 S2 0) with (sun_ecl 0) in P, P'. change (dsum S0 S1 S2 0) with (dsum S0 S1 S2 0) in V, V'.
  unfold within in *. set (x1 := sun_ecl 0 ex_t) in *. set (x2 := dsum S0 S1 S2 0 ex_t) in *. set (x3 := sun_ecl 0 bi_t) in *. set (x4 := dsum S0 S1 S2 0 bi_t) in *. clearbody x1 x2 x3 x4. clear N. repeat split; lra.
Qed.

Lemma at_S1 : let p := (-685096620046097 / 10 ^ 20) in let v := (262404260863679131 / 10 ^ 20) in
  within (sun_ecl 1 ex_t) p (431 / 10 ^ 20) /\ within (dsum S0 S1 S2 1 ex_t) v (361 / 10 ^ 20) /\
  within (sun_ecl 1 bi_t) p (793 / 10 ^ 20) /\ within (dsum S0 S1 S2 1 bi_t) v (573 / 10 ^ 20).
Proof.
  destruct (chk_ok _ _ _ _ _ _ _ _ _ _ _ _ (eq_refl : (0 < ex_d)%Z) ex_S_1) as (P & V & N). cbv zeta in P, V, N. fold ex_t in P, V, N.
  destruct (N bi_t (1 / 10 ^ 15) (proj1 bi_near) (proj2 bi_near)) as [P' V']. change (fsum S0 S1 S2 1) with (sun_ecl 1) in P, P'. change (dsum S0 S1 S2 1) with (dsum S0 S1 S2 1) in V, V'.
  unfold within in *. set (x1 := sun_ecl 1 ex_t) in *. set (x2 := dsum S0 S1 S2 1 ex_t) in *. set (x3 := sun_ecl 1 bi_t) in *. set (x4 := dsum S0 S1 S2 1 bi_t) in *. clearbody x1 x2 x3 x4. clear N. repeat split; lra.
Qed.

Lemma at_S2 : let p := (-10626225330971385 / 10 ^ 20) in let v := (-2447802591732024 / 10 ^ 20) in
  within (sun_ecl 2 ex_t) p (99 / 10 ^ 20) /\ within (dsum S0 S1 S2 2 ex_t) v (86 / 10 ^ 20) /\
  within (sun_ecl 2 bi_t) p (111 / 10 ^ 20) /\ within (dsum S0 S1 S2 2 bi_t) v (98 / 10 ^ 20).
Proof.
  destruct (chk_ok _ _ _ _ _ _ _ _ _ _ _ _ (eq_refl : (0 < ex_d)%Z) ex_S_2) as (P & V & N). cbv zeta in P, V, N. fold ex_t in P, V, N.
  destruct (N bi_t (1 / 10 ^ 15) (proj1 bi_near) (proj2 bi_near)) as [P' V']. change (fsum S0 S1 S2 2) with (sun_ecl 2) in P, P'. change (dsum S0 S1 S2 2) with (dsum S0 S1 S2 2) in V, V'.
  unfold within in *. set (x1 := sun_ecl 2 ex_t) in *. set (x2 := dsum S0 S1 S2 2 ex_t) in *. set (x3 := sun_ecl 2 bi_t) in *. set (x4 := dsum S0 S1 S2 2 bi_t) in *. clearbody x1 x2 x3 x4. clear N. repeat split; lra.
Qed.

Lemma ex_all : forall i,
  within (icrf (fun k => helio_ecl k ex_t) i) (ref_helio_p i) (2 / 10 ^ 17) /\ within (icrf (fun k => bary_ecl k ex_t) i) (ref_bary_p i) (2 / 10 ^ 17) /\
  within (icrf (fun k => dhelio k ex_t) i / 365.25) (ref_helio_v i) (1 / 10 ^ 18) /\ within (icrf (fun k => dbary k ex_t) i / 365.25) (ref_bary_v i) (1 / 10 ^ 18).
Proof.
  destruct at_E0 as (A0 & B0 & _). destruct at_E1 as (A1 & B1 & _). destruct at_E2 as (A2 & B2 & _). destruct at_S0 as (C0 & D0 & _). destruct at_S1 as (C1 & D1 & _). destruct at_S2 as (C2 & D2 & _). 
  unfold within, icrf, bary_ecl, dbary in *.
  set (p0 := helio_ecl 0 ex_t) in *. set (p1 := helio_ecl 1 ex_t) in *. set (p2 := helio_ecl 2 ex_t) in *.
  set (v0 := dhelio 0 ex_t) in *. set (v1 := dhelio 1 ex_t) in *. set (v2 := dhelio 2 ex_t) in *.
  set (q0 := sun_ecl 0 ex_t) in *. set (q1 := sun_ecl 1 ex_t) in *. set (q2 := sun_ecl 2 ex_t) in *.
  set (w0 := dsum S0 S1 S2 0 ex_t) in *. set (w1 := dsum S0 S1 S2 1 ex_t) in *. set (w2 := dsum S0 S1 S2 2 ex_t) in *.
  clearbody p0 p1 p2 v0 v1 v2 q0 q1 q2 w0 w1 w2.
  intros []; unfold ref_helio_p, ref_bary_p, ref_helio_v, ref_bary_v; repeat split; lra.
Qed.

Lemma bi_all : forall i,
  within (icrf (fun k => helio_ecl k bi_t) i) (ref_helio_p i) (7 / 10 ^ 15) /\ within (icrf (fun k => bary_ecl k bi_t) i) (ref_bary_p i) (7 / 10 ^ 15) /\
  within (icrf (fun k => dhelio k bi_t) i / 365.25) (ref_helio_v i) (2 / 10 ^ 16) /\ within (icrf (fun k => dbary k bi_t) i / 365.25) (ref_bary_v i) (2 / 10 ^ 16).
Proof.
  destruct at_E0 as (_ & _ & A0 & B0). destruct at_E1 as (_ & _ & A1 & B1). destruct at_E2 as (_ & _ & A2 & B2). destruct at_S0 as (_ & _ & C0 & D0). destruct at_S1 as (_ & _ & C1 & D1). destruct at_S2 as (_ & _ & C2 & D2). 
  unfold within, icrf, bary_ecl, dbary in *.
  set (p0 := helio_ecl 0 bi_t) in *. set (p1 := helio_ecl 1 bi_t) in *. set (p2 := helio_ecl 2 bi_t) in *.
  set (v0 := dhelio 0 bi_t) in *. set (v1 := dhelio 1 bi_t) in *. set (v2 := dhelio 2 bi_t) in *.
  set (q0 := sun_ecl 0 bi_t) in *. set (q1 := sun_ecl 1 bi_t) in *. set (q2 := sun_ecl 2 bi_t) in *.
  set (w0 := dsum S0 S1 S2 0 bi_t) in *. set (w1 := dsum S0 S1 S2 1 bi_t) in *. set (w2 := dsum S0 S1 S2 2 bi_t) in *.
  clearbody p0 p1 p2 v0 v1 v2 q0 q1 q2 w0 w1 w2.
  intros []; unfold ref_helio_p, ref_bary_p, ref_helio_v, ref_bary_v; repeat split; lra.
Qed.

Lemma within_abs : forall x p e, within x p e -> Rabs (x - p) <= e.
Proof. intros x p e H. unfold within in H. apply Rabs_le. lra. Qed.

(** The velocities are the derivatives written out. *)
Lemma velocity_series : forall d, exists r, earth_pos_vel (A := realA) d = Val r /\ forall i,
  coord (pv_p (A := realA) (heliocentric (A := realA) r)) i = icrf (fun k => helio_ecl k (years d)) i /\
  coord (pv_p (A := realA) (barycentric (A := realA) r)) i = icrf (fun k => bary_ecl k (years d)) i /\
  coord (pv_v (A := realA) (heliocentric (A := realA) r)) i = icrf (fun k => dhelio k (years d)) i / 365.25 /\
  coord (pv_v (A := realA) (barycentric (A := realA) r)) i = icrf (fun k => dbary k (years d)) i / 365.25.
Proof.
  intros [a b]. destruct L_PSeries.C40_velocity_is_derivative_pf as (f & Hf & Hd). exists (f a b). split; [apply Hf|]. intros i.
  assert (P : forall x i, coord (pv_p (A := realA) (heliocentric (A := realA) (f x b))) i = icrf (fun k => helio_ecl k (years (MkTDB (A := realA) x b))) i /\
    coord (pv_p (A := realA) (barycentric (A := realA) (f x b))) i = icrf (fun k => bary_ecl k (years (MkTDB (A := realA) x b))) i).
  { intros x j. destruct (L_PSeries.C59_position_series_pf (MkTDB (A := realA) x b)) as (r & E & H). rewrite Hf in E. injection E as E. rewrite E. apply H. }
  destruct (Hd a b i) as (D1 & _ & D2 & _). cbv beta in D1, D2. destruct (P a i) as [P1 P2]. split; [exact P1|]. split; [exact P2|]. split.
  - refine (uniqueness_limite _ _ _ _ D1 _). apply (derivable_pt_lim_ext (fun x => icrf (fun k => helio_ecl k (years (MkTDB (A := realA) x b))) i)); [intros x; symmetry; apply P|].
    apply (icrf_der (fun k => helio_ecl k) (fun k => dhelio k (years (MkTDB (A := realA) a b))) (fun x => years (MkTDB (A := realA) x b))); [intros k; apply helio_der|apply years_der].
  - refine (uniqueness_limite _ _ _ _ D2 _). apply (derivable_pt_lim_ext (fun x => icrf (fun k => bary_ecl k (years (MkTDB (A := realA) x b))) i)); [intros x; symmetry; apply P|].
    apply (icrf_der (fun k => bary_ecl k) (fun k => dbary k (years (MkTDB (A := realA) a b))) (fun x => years (MkTDB (A := realA) x b))); [intros k; apply bary_der|apply years_der].
Qed.

(** C99.  At the date of the IAU SOFA test of EPV00, however it is split in two, the exact
    position and velocity agree with the published values within 2e-17 AU and 1e-18 AU per
    day. *)
Lemma C99_reference_pf : forall a b, a + b = 2400000.5 + 53411.52501161 ->
  exists r, earth_pos_vel (A := realA) (MkTDB (A := realA) a b) = Val r /\ forall i,
  Rabs (coord (pv_p (A := realA) (heliocentric (A := realA) r)) i - ref_helio_p i) <= 2 / 10 ^ 17 /\
  Rabs (coord (pv_v (A := realA) (heliocentric (A := realA) r)) i - ref_helio_v i) <= 1 / 10 ^ 18 /\
  Rabs (coord (pv_p (A := realA) (barycentric (A := realA) r)) i - ref_bary_p i) <= 2 / 10 ^ 17 /\
  Rabs (coord (pv_v (A := realA) (barycentric (A := realA) r)) i - ref_bary_v i) <= 1 / 10 ^ 18.
Proof.
  intros a b H. assert (Y : years (MkTDB (A := realA) a b) = ex_t) by (unfold years, ex_t, ex_n, ex_d; cbn [tdb_1 tdb_2]; lra).
  destruct (velocity_series (MkTDB (A := realA) a b)) as (r & E & V). exists r. split; [exact E|]. intros i. destruct (V i) as (-> & -> & -> & ->). rewrite Y.
  destruct (ex_all i) as (H1 & H2 & H3 & H4).
  refine (conj _ (conj _ (conj _ _))); apply within_abs; assumption.
Qed.

Lemma date_ok : fin (Flit 5341152501161 (-8)) = true /\ B2R (Flit 5341152501161 (-8)) = 7340824100939231 / 137438953472.
Proof.
  set (x := Flit 5341152501161 (-8)).
  assert (E : B2SF x = SpecFloat.S754_finite false 7340824100939231 (-37)) by (vm_compute; reflexivity).
  split; [destruct x; try discriminate E; reflexivity|].
  destruct x as [s|s| |s m e H]; try discriminate E. cbn [B2SF] in E.
  assert (s = false /\ m = 7340824100939231%positive /\ e = (-37)%Z) as (-> & -> & ->) by (split; [|split]; congruence).
  unfold B2R, F2R. cbn [Fnum Fexp cond_Zopp]. change (bpow radix2 (-37)) with (/ 137438953472). lra.
Qed.

(** C99.  The binary64 functions at that date, read as the decimal literals 2400000.5 and
    53411.52501161: within 1.31e-12 AU and 2.4e-14 AU per day of the published values. *)
Lemma C99_reference_b64_pf : forall lm, good_libm lm ->
  exists r, earth_pos_vel (A := b64A lm) (MkTDB (A := b64A lm) (Flit 24000005 (-1)) (Flit 5341152501161 (-8))) = Val r /\ forall i,
  near (vget (A := b64A lm) (pv_p (A := b64A lm) (heliocentric (A := b64A lm) r)) i) (ref_helio_p i) (1.31 / 10 ^ 12) /\
  near (vget (A := b64A lm) (pv_v (A := b64A lm) (heliocentric (A := b64A lm) r)) i) (ref_helio_v i) (2.4 / 10 ^ 14) /\
  near (vget (A := b64A lm) (pv_p (A := b64A lm) (barycentric (A := b64A lm) r)) i) (ref_bary_p i) (1.31 / 10 ^ 12) /\
  near (vget (A := b64A lm) (pv_v (A := b64A lm) (barycentric (A := b64A lm) r)) i) (ref_bary_v i) (2.4 / 10 ^ 14).
Proof.
  intros lm G. destruct L_PAccuracy.mjd0_ok as [Fa Va]. destruct date_ok as [Fb Vb].
  assert (Y : years (MkTDB (A := realA) (B2R (Flit 24000005 (-1))) (B2R (Flit 5341152501161 (-8)))) = bi_t) by (rewrite Va, Vb; unfold years, bi_t, bi_n, bi_d; cbn [tdb_1 tdb_2]; lra).
  destruct (L_PAccEarth.C67_earth_accuracy_mjd_pf lm G _ _ Fa Fb Va) as (r & E & H).
  { cbv beta. rewrite Y. apply Rabs_le. unfold bi_t, bi_n, bi_d. lra. }
  exists r. split; [exact E|]. intros i. destruct (H i) as (H1 & H2 & (v1 & D1 & H3) & (v2 & D2 & H4)). cbv beta in *.
  set (a := Flit 24000005 (-1)) in *. set (b := Flit 5341152501161 (-8)) in *.
  assert (E1 : v1 = icrf (fun k => dhelio k (years (MkTDB (A := realA) (B2R a) (B2R b)))) i / 365.25).
  { refine (uniqueness_limite _ _ _ _ D1 _).
    apply (icrf_der (fun k => helio_ecl k) (fun k => dhelio k (years (MkTDB (A := realA) (B2R a) (B2R b)))) (fun x => years (MkTDB (A := realA) x (B2R b)))); [intros k; apply helio_der|apply years_der]. }
  assert (E2 : v2 = icrf (fun k => dbary k (years (MkTDB (A := realA) (B2R a) (B2R b)))) i / 365.25).
  { refine (uniqueness_limite _ _ _ _ D2 _).
    apply (icrf_der (fun k => bary_ecl k) (fun k => dbary k (years (MkTDB (A := realA) (B2R a) (B2R b)))) (fun x => years (MkTDB (A := realA) x (B2R b)))); [intros k; apply bary_der|apply years_der]. }
  rewrite E1 in H3. rewrite E2 in H4. rewrite Y in H1, H2, H3, H4. destruct (bi_all i) as (R1 & R2 & R3 & R4).
  assert (T : forall x v p e f, near x v e -> within v p f -> near x p (e + f)).
  { intros x v p e f [F N] W. split; [exact F|]. unfold within in W. apply Rabs_le_inv in N. apply Rabs_le. lra. }
  assert (M : forall x p e f, near x p e -> e <= f -> near x p f) by (intros x p e f [F N] L; split; [exact F|lra]).
  refine (conj _ (conj _ (conj _ _))); (eapply M; [eapply T; eassumption|]); lra.
Qed.

(** C99 stated for one number: the heliocentric x coordinate, and the agreement is not vacuous,
    for the barycentric coordinate differs by 0.0043. *)
Example C99_example_pf :
  (exists r, earth_pos_vel (A := realA) (MkTDB (A := realA) 2400000.5 53411.52501161) = Val r /\
    Rabs (coord (pv_p (A := realA) (heliocentric (A := realA) r)) I0 + 0.7757238809297706813) <= 2 / 10 ^ 17) /\
  0.0043 <= ref_bary_p I0 - ref_helio_p I0 <= 0.0044.
Proof.
  split; [|unfold ref_bary_p, ref_helio_p; lra]. destruct (C99_reference_pf 2400000.5 53411.52501161 eq_refl) as (r & E & H). exists r. split; [exact E|].
  destruct (H I0) as (H1 & _). unfold ref_helio_p in H1. replace (coord (pv_p (A := realA) (heliocentric (A := realA) r)) I0 + 0.7757238809297706813) with (coord (pv_p (A := realA) (heliocentric (A := realA) r)) I0 - -0.7757238809297706813) by lra. exact H1.
Qed.
