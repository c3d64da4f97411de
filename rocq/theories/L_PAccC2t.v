(** * Accuracy of the binary64 celestial-to-terrestrial matrix: lemmas for the properties *)

From Coq Require Import ZArith Reals Lra Lia Bool List.
From Flocq Require Import Core BinarySingleNaN.
From Verif Require Import Outcome Arith ArithR ArithF Spec_Float Spec_Accuracy M_Common M_Time M_Earth M_Frames Spec_Matrix Spec_Frames Spec_Series Spec_C2t.
From Verif Require Import L_ArithF L_ArithR L_Matrix L_Frames L_PFrames L_PAngles L_Apx L_ApxMod L_ApxAngle L_ApxNut L_ApxCio L_Fro L_ApxFrames L_ApxC2i L_PAccuracy L_PAccFrames.
Import ListNotations.
Open Scope R_scope.

(** In exact arithmetic the matrices are those of the IERS Conventions with the pole,
    the CIO locator and the Earth rotation angle of the date, within 50 centuries of
    J2000. *)
Lemma C69_exact_pf : forall d, Rabs (centuries d) <= 50 ->
  celestial_to_intermediate (A := realA) d = Val (C2I (centuries d)) /\
  forall u xp yp, celestial_to_terrestrial (A := realA) d u xp yp = Val (C2T (centuries d) (era_of u) xp yp).
Proof.
  intros d H. pose proof (c2i_exact d H) as E. split; [exact E|]. intros [u1 u2] xp yp. rewrite (C37_celestial_to_terrestrial_pf d _ xp yp _ E).
  unfold C2T. replace (R3 (rotation_angle (A := realA) (MkUT1 (A := realA) u1 u2))) with (R3 (era_of (MkUT1 (A := realA) u1 u2))); [reflexivity|].
  rewrite (proj1 (C29_era_total_pf u1 u2)). unfold era_of. cbn [ut1_1 ut1_2]. set (th := 0.7790572732640 + _).
  set (k := Zfloor th). replace (2 * PI * th) with (2 * PI * (th - IZR k) + IZR k * (2 * PI)) by ring.
  destruct (trig_turns (2 * PI * (th - IZR k)) k) as [TC TS]. unfold R3, rot3. rewrite TC, TS. reflexivity.
Qed.

(** The celestial-to-intermediate matrix of a given pole within half the unit radius
    is within 1.8e-14 of the exact one, also where the squares underflow. *)
Lemma C69_pole_matrix_accuracy_pf : forall lm, good_libm lm -> forall x y s : b64, fin x = true -> fin y = true -> fin s = true ->
  B2R x * B2R x + B2R y * B2R y <= 1 / 4 -> Rabs (B2R s) <= 1 ->
  exists m, c2i_from_xys (A := b64A lm) x y s = Val m /\
  forall i j, near (mget (A := b64A lm) m i j) (entry (Q_matrix (B2R x) (B2R y) (B2R s)) i j) (1.8 / 10 ^ 14).
Proof.
  intros lm G x y s Fx Fy Fs H Hs. destruct (c2i_from_ok lm G x y s Fx Fy Fs H Hs) as (m & E & K).
  exists m. split; [exact E|]. intros i j. exact (mfro_near _ _ _ _ i j K).
Qed.

Definition bpole (f : Z) : bnd := B (- one / 4) (one / 4) f.
Definition cio_chk10 (ba bb : bnd) (f g : Z) : bool :=
  match b_cent ba bb with
  | Some bt =>
    match b_cio (B (-10 * one) (10 * one) (er bt)) (bpole f) (bpole f) with
    | Some bs => ((- one / 2 <=? lo bs) && (hi bs <=? one / 2) && (er bs <=? g))%Z
    | None => false
    end
  | None => false
  end.
Lemma cio_chk10_ok : forall lm, good_libm lm -> forall a b ra rb ba bb f g m, apx a ra ba -> apx b rb bb -> cio_chk10 ba bb f g = true ->
  let d' := MkTT (A := realA) ra rb in
  Rabs (centuries d') <= 10 -> precession_nutation (A := b64A lm) (MkTT (A := b64A lm) a b) = Val m ->
  mfro m (NPB (centuries d')) (val f) -> val f <= 1 / 10 ^ 6 -> val g <= 1 / 10 ^ 6 ->
  exists q, celestial_to_intermediate (A := b64A lm) (MkTT (A := b64A lm) a b) = Val q /\
    mfro q (C2I (centuries d')) (3 * val f + 2 * val g + 1.8 / 10 ^ 14) /\ proper (C2I (centuries d')).
Proof.
  intros lm G a b ra rb ba bb f g m Ha Hb C d' Hc Em Hm Lf Lg. unfold cio_chk10 in C.
  destruct (b_cent ba bb) as [bt|] eqn:Et; [|discriminate C]. destruct (b_cio _ _ _) as [bs|] eqn:Es in C; [|discriminate C].
  rewrite !andb_true_iff in C. destruct C as [[C1 C2] C3]. apply Z.leb_le in C1, C2, C3. apply val_le in C1, C2, C3.
  pose proof (cent_ok lm G _ _ _ _ _ _ _ Ha Hb Et) as Ht. pose proof (Rabs_le_inv _ _ Hc) as Hc'.
  apply (apx_refine _ _ _ (-10 * one) (10 * one)) in Ht; [|rewrite !val_int; exact Hc'].
  assert (V2 : val (one / 2) = 1 / 2). { assert (2 * val (one / 2) = val one); [|rewrite val_one in *; lra]. replace (2 * val (one / 2)) with (val (one / 2) + val (one / 2)) by ring. rewrite <- val_add. f_equal. }
  assert (V2' : val (- one / 2) = - 1 / 2). { replace (- one / 2)%Z with (- (one / 2))%Z by reflexivity. rewrite val_opp, V2. lra. }
  assert (V4 : val (one / 4) = 1 / 4). { assert (2 * val (one / 4) = val (one / 2)); [|lra]. replace (2 * val (one / 4)) with (val (one / 4) + val (one / 4)) by ring. rewrite <- val_add. f_equal. }
  assert (V4' : val (- one / 4) = - 1 / 4). { replace (- one / 4)%Z with (- (one / 4))%Z by reflexivity. rewrite val_opp, V4. lra. }
  rewrite V2' in C1. rewrite V2 in C2.
  assert (B1 : val (lo (bpole f)) <= -1/4) by (unfold bpole; cbn [lo]; rewrite V4'; lra).
  assert (B2 : 1/4 <= val (hi (bpole f))) by (unfold bpole; cbn [hi]; rewrite V4; lra).
  destruct (c2i_ok lm G (MkTT (A := b64A lm) a b) d' _ (val f) (val g) (bpole f) bs m Ht Hc Em Hm Lf Lg B1 B2 (Rle_refl _) Es C1 C2 C3) as (q & Eq & Hq).
  exists q. split; [exact Eq|]. split; [exact Hq|]. apply Q_proper.
    destruct (C38_pole_near_pf d' Hc) as (m' & E & U). cbv zeta in U. rewrite pn_exact in E.
    assert (OI : forall m m' : mat3 realA, Val m = Val m' -> m = m') by (intros; congruence). apply OI in E. subst m'. unfold pole_x, pole_y. lra.
Qed.

Lemma val_ge : forall m d z, (0 < d)%Z -> (m * one <= z * d)%Z -> IZR m / IZR d <= val z.
Proof.
  intros m d z D H. apply (IZR_lt 0) in D. apply Rmult_le_reg_r with (IZR d); [exact D|]. unfold Rdiv. rewrite Rmult_assoc, Rinv_l, Rmult_1_r by lra.
  apply IZR_le in H. rewrite !mult_IZR in H. unfold val. apply (Rmult_le_compat_r uu) in H; [|apply Rlt_le, uu_pos].
  pose proof val_one as V. unfold val in V. rewrite Rmult_assoc in H. rewrite V in H. lra.
Qed.
Lemma val_lt : forall m d z, (0 < d)%Z -> (z * d <= m * one)%Z -> val z <= IZR m / IZR d.
Proof.
  intros m d z D H. apply (IZR_lt 0) in D. apply Rmult_le_reg_r with (IZR d); [exact D|]. unfold Rdiv. rewrite Rmult_assoc, Rinv_l, Rmult_1_r by lra.
  apply IZR_le in H. rewrite !mult_IZR in H. unfold val. apply (Rmult_le_compat_r uu) in H; [|apply Rlt_le, uu_pos].
  pose proof val_one as V. unfold val in V. rewrite (Rmult_assoc (IZR m)) in H. rewrite V in H. lra.
Qed.

Definition f_gen : Z := (24 * one / 100000000000000 + 1)%Z.
Definition g_gen : Z := (61 * one / 1000000000000000)%Z.
Definition f_mjd : Z := (5 * one / 100000000000000 + 1)%Z.
Definition g_mjd : Z := (13 * one / 1000000000000000)%Z.
Lemma cio10_gen : cio_chk10 (B (-4194304 * one) (4194304 * one) 0) (B (-4194304 * one) (4194304 * one) 0) f_gen g_gen = true.
Proof. vm_cast_no_check (@eq_refl bool true). Qed.
Lemma cio10_mjd : cio_chk10 b_mjd0 (B (-100000 * one) (100000 * one) 0) f_mjd g_mjd = true.
Proof. vm_cast_no_check (@eq_refl bool true). Qed.
Lemma fg_gen : 2.4 / 10 ^ 13 <= val f_gen <= 2.41 / 10 ^ 13 /\ val g_gen <= 6.1 / 10 ^ 14.
Proof.
  replace (2.4 / 10 ^ 13) with (24 / 100000000000000) by lra. replace (2.41 / 10 ^ 13) with (241 / 1000000000000000) by lra. replace (6.1 / 10 ^ 14) with (61 / 1000000000000000) by lra.
  split; [split|]; [apply val_ge|apply val_lt|apply val_lt]; solve [reflexivity|vm_compute; discriminate].
Qed.
Lemma fg_mjd : 5 / 10 ^ 14 <= val f_mjd <= 5.01 / 10 ^ 14 /\ val g_mjd <= 1.3 / 10 ^ 14.
Proof.
  replace (5 / 10 ^ 14) with (5 / 100000000000000) by lra. replace (5.01 / 10 ^ 14) with (501 / 10000000000000000) by lra. replace (1.3 / 10 ^ 14) with (13 / 1000000000000000) by lra.
  split; [split|]; [apply val_ge|apply val_lt|apply val_lt]; solve [reflexivity|vm_compute; discriminate].
Qed.

Lemma c2i_gen : forall lm, good_libm lm -> forall a b : b64, fin a = true -> fin b = true ->
  Rabs (B2R a) <= 4194304 -> Rabs (B2R b) <= 4194304 -> let t := centuries (MkTT (A := realA) (B2R a) (B2R b)) in Rabs t <= 10 ->
  exists q, celestial_to_intermediate (A := b64A lm) (MkTT (A := b64A lm) a b) = Val q /\ mfro q (C2I t) (8.7 / 10 ^ 13) /\ proper (C2I t).
Proof.
  intros lm G a b Fa Fb Ha Hb t Ht. apply Rabs_le_inv in Ha, Hb.
  pose proof (apx_var a (-4194304) 4194304 Fa Ha) as Xa. pose proof (apx_var b (-4194304) 4194304 Fb Hb) as Xb.
  destruct (rbpn_ok lm G a b _ _ _ _ q_gen Xa Xb frames_gen q_gen_ok) as (m & E & H). fold t in H. destruct fg_gen as [[V1 V2] V3].
  apply (mfro_le _ _ _ _ (val f_gen)) in H; [|eapply Rle_trans; [|exact V1]; unfold qr, q_gen, den; cbn [q1 q2 q3 qE qS qD]; lra].
  destruct (cio_chk10_ok lm G a b _ _ _ _ f_gen g_gen m Xa Xb cio10_gen Ht E H ltac:(lra) ltac:(lra)) as (q & Eq & Hq & Pq).
  exists q. split; [exact Eq|]. split; [|exact Pq]. eapply mfro_le; [exact Hq|lra].
Qed.
Lemma c2i_mjd : forall lm, good_libm lm -> forall a b : b64, fin a = true -> fin b = true ->
  B2R a = 2400000.5 -> Rabs (B2R b) <= 100000 -> let t := centuries (MkTT (A := realA) (B2R a) (B2R b)) in
  exists q, celestial_to_intermediate (A := b64A lm) (MkTT (A := b64A lm) a b) = Val q /\ mfro q (C2I t) (2 / 10 ^ 13) /\ proper (C2I t).
Proof.
  intros lm G a b Fa Fb Ha Hb t. apply Rabs_le_inv in Hb.
  assert (Ht : Rabs t <= 10) by (unfold t, centuries; cbn [tt_1 tt_2]; rewrite Ha; apply Rabs_le; lra).
  pose proof (apx_mjd0 a Fa Ha) as Xa. pose proof (apx_var b (-100000) 100000 Fb Hb) as Xb.
  destruct (rbpn_ok lm G a b _ _ _ _ q_mjd Xa Xb frames_mjd q_mjd_ok) as (m & E & H). fold t in H. destruct fg_mjd as [[V1 V2] V3].
  apply (mfro_le _ _ _ _ (val f_mjd)) in H; [|eapply Rle_trans; [|exact V1]; unfold qr, q_mjd, den; cbn [q1 q2 q3 qE qS qD]; lra].
  destruct (cio_chk10_ok lm G a b _ _ _ _ f_mjd g_mjd m Xa Xb cio10_mjd Ht E H ltac:(lra) ltac:(lra)) as (q & Eq & Hq & Pq).
  exists q. split; [exact Eq|]. split; [|exact Pq]. eapply mfro_le; [exact Hq|lra].
Qed.

(** For every split with parts up to 2^22 days of every date within 10 centuries of
    J2000, the binary64 celestial-to-intermediate matrix is within 8.7e-13 of the
    exact one, entry by entry, and the celestial-to-terrestrial matrix within 3.3e-10,
    for every finite pole position. *)
Lemma C69_terrestrial_accuracy_pf : forall lm, good_libm lm -> forall a b : b64, fin a = true -> fin b = true ->
  Rabs (B2R a) <= 4194304 -> Rabs (B2R b) <= 4194304 ->
  let t := centuries (MkTT (A := realA) (B2R a) (B2R b)) in
  Rabs t <= 10 ->
  (exists q, celestial_to_intermediate (A := b64A lm) (MkTT (A := b64A lm) a b) = Val q /\
     forall i j, near (mget (A := b64A lm) q i j) (entry (C2I t) i j) (8.7 / 10 ^ 13)) /\
  forall u1 u2 xp yp : b64, fin u1 = true -> fin u2 = true -> fin xp = true -> fin yp = true ->
  Rabs (B2R u1) <= 4194304 -> Rabs (B2R u2) <= 4194304 ->
  exists m, celestial_to_terrestrial (A := b64A lm) (MkTT (A := b64A lm) a b) (MkUT1 (A := b64A lm) u1 u2) xp yp = Val m /\
    forall i j, near (mget (A := b64A lm) m i j)
      (entry (C2T t (era_of (MkUT1 (A := realA) (B2R u1) (B2R u2))) (B2R xp) (B2R yp)) i j) (3.3 / 10 ^ 10).
Proof.
  intros lm G a b Fa Fb Ha Hb t Ht. destruct (c2i_gen lm G a b Fa Fb Ha Hb Ht) as (q & Eq & Hq & Pq). fold t in Hq, Pq. split.
  - exists q. split; [exact Eq|]. intros i j. exact (mfro_near _ _ _ _ i j Hq).
  - intros u1 u2 xp yp F1 F2 Fx Fy H1 H2. pose proof (C64_era_accuracy_pf lm u1 u2 F1 F2 H1 H2) as HE.
    destruct (c2t_ok lm G _ _ xp yp _ _ 0 0 t _ q _ _ (near_self xp Fx) (near_self yp Fy) ltac:(lra) ltac:(lra) Eq Hq Pq ltac:(lra) HE ltac:(lra)) as (m & Em & Hm).
    exists m. split; [exact Em|]. intros i j. eapply near_le; [exact (mfro_near _ _ _ _ i j Hm)|lra].
Qed.

(** With both dates split as modified Julian dates between 1585 and 2132 the errors are
    below 2e-13 and 1.45e-11 (0.1 mm at the surface of the Earth). *)
Lemma C69_terrestrial_accuracy_mjd_pf : forall lm, good_libm lm -> forall a b : b64, fin a = true -> fin b = true ->
  B2R a = 2400000.5 -> Rabs (B2R b) <= 100000 ->
  let t := centuries (MkTT (A := realA) (B2R a) (B2R b)) in
  (exists q, celestial_to_intermediate (A := b64A lm) (MkTT (A := b64A lm) a b) = Val q /\
     forall i j, near (mget (A := b64A lm) q i j) (entry (C2I t) i j) (2 / 10 ^ 13)) /\
  forall u1 u2 xp yp : b64, fin u1 = true -> fin u2 = true -> fin xp = true -> fin yp = true ->
  B2R u1 = 2400000.5 -> Rabs (B2R u2) <= 100000 ->
  exists m, celestial_to_terrestrial (A := b64A lm) (MkTT (A := b64A lm) a b) (MkUT1 (A := b64A lm) u1 u2) xp yp = Val m /\
    forall i j, near (mget (A := b64A lm) m i j)
      (entry (C2T t (era_of (MkUT1 (A := realA) (B2R u1) (B2R u2))) (B2R xp) (B2R yp)) i j) (1.45 / 10 ^ 11).
Proof.
  intros lm G a b Fa Fb Ha Hb t. destruct (c2i_mjd lm G a b Fa Fb Ha Hb) as (q & Eq & Hq & Pq). fold t in Hq, Pq. split.
  - exists q. split; [exact Eq|]. intros i j. exact (mfro_near _ _ _ _ i j Hq).
  - intros u1 u2 xp yp F1 F2 Fx Fy H1 H2. pose proof (C64_era_accuracy_mjd_pf lm u1 u2 F1 F2 H1 H2) as HE.
    destruct (c2t_ok lm G _ _ xp yp _ _ 0 0 t _ q _ _ (near_self xp Fx) (near_self yp Fy) ltac:(lra) ltac:(lra) Eq Hq Pq ltac:(lra) HE ltac:(lra)) as (m & Em & Hm).
    exists m. split; [exact Em|]. intros i j. eapply near_le; [exact (mfro_near _ _ _ _ i j Hm)|lra].
Qed.

(** C69 at TT = UT1 = 2400000.5 + 53736 with the pole on the axis. *)
Example C69_example_pf : forall lm, good_libm lm -> exists m,
  celestial_to_terrestrial (A := b64A lm) (MkTT (A := b64A lm) (Flit 24000005 (-1)) (Flit 53736 0))
    (MkUT1 (A := b64A lm) (Flit 24000005 (-1)) (Flit 53736 0)) (Flit 0 0) (Flit 0 0) = Val m /\
  near (mget (A := b64A lm) m I0 I0)
    (entry (C2T (2191.5 / 36525) (era_of (MkUT1 (A := realA) 2400000.5 53736)) 0 0) I0 I0) (1.45 / 10 ^ 11).
Proof.
  intros lm G. destruct mjd0_ok as [Fa Va]. destruct (int_ok 53736 eq_refl) as [Fb Vb]. destruct lit_0 as [V0 F0].
  assert (HB : Rabs (B2R (Flit 53736 0)) <= 100000) by (rewrite Vb; apply Rabs_le; lra).
  destruct (proj2 (C69_terrestrial_accuracy_mjd_pf lm G _ _ Fa Fb Va HB) _ _ _ _ Fa Fb F0 F0 Va HB) as (m & E & H).
  exists m. split; [exact E|]. specialize (H I0 I0). rewrite Va, Vb, V0 in H.
  replace (2191.5 / 36525) with (centuries (MkTT (A := realA) 2400000.5 53736)); [exact H|].
  unfold centuries. cbn [tt_1 tt_2]. lra.
Qed.
