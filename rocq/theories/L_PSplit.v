(** * Independence of the split in binary64, orthonormality, offsets: lemmas for the properties *)

From Coq Require Import ZArith Reals Lra Lia Bool List.
From Flocq Require Import Core BinarySingleNaN.
From Verif Require Import Outcome Arith ArithR ArithF Spec_Float Spec_Accuracy M_Common M_Calendar M_Time M_Earth M_Locator M_Frames M_Ellipsoid M_SunAngle
  Spec_Matrix Spec_Frames Spec_Series Spec_C2t Spec_Api Spec_Sun Spec_SunAcc.
From Verif Require Import L_ArithF L_ArithR L_FromJulianF L_Flit L_Matrix L_Frames L_PFrames L_PSeries L_Apx L_ApxMod L_ApxAngle L_ApxNut L_ApxCio L_Fro.
From Verif Require Import L_ApxFrames L_ApxC2i L_Libm L_PAccuracy L_PAccFrames L_PAccEarth L_PAccC2t L_PSunAngle L_PAccSun L_PFund.
Import ListNotations.
Open Scope R_scope.

Lemma near_diff : forall x y r e f, near x r e -> near y r f -> fin x = true /\ fin y = true /\ Rabs (B2R x - B2R y) <= e + f.
Proof.
  intros x y r e f [Fx Hx] [Fy Hy]. split; [exact Fx|]. split; [exact Fy|].
  replace (B2R x - B2R y) with ((B2R x - r) + - (B2R y - r)) by ring. eapply Rle_trans; [apply Rabs_triang|]. rewrite Rabs_Ropp. lra.
Qed.
Lemma near_angle_diff : forall x y r e f, near_angle x r e -> near_angle y r f -> near_angle x (B2R y) (e + f) /\ fin y = true.
Proof.
  intros x y r e f [Fx [k Hx]] [Fy [j Hy]]. split; [|exact Fy]. split; [exact Fx|]. exists (k - j)%Z. rewrite minus_IZR.
  replace (B2R x - (B2R y + (IZR k - IZR j) * (2 * PI))) with ((B2R x - (r + IZR k * (2 * PI))) + - (B2R y - (r + IZR j * (2 * PI)))) by ring.
  eapply Rle_trans; [apply Rabs_triang|]. rewrite Rabs_Ropp. lra.
Qed.
Lemma near_near : forall x y r e f g, near x r e -> near y r f -> e + f <= g -> near x (B2R y) g.
Proof. intros x y r e f g Hx Hy L. destruct (near_diff _ _ _ _ _ Hx Hy) as (F & _ & H). split; [exact F|lra]. Qed.

(** C29 in binary64: two splits of the same UT1 date, with parts up to 2^22 days, give the
    same Earth rotation angle within 3.2e-10 rad, up to whole turns. *)
Lemma C29_era_split_b64_pf : forall lm (a b a' b' : b64), fin a = true -> fin b = true -> fin a' = true -> fin b' = true ->
  Rabs (B2R a) <= 4194304 -> Rabs (B2R b) <= 4194304 -> Rabs (B2R a') <= 4194304 -> Rabs (B2R b') <= 4194304 ->
  B2R a + B2R b = B2R a' + B2R b' ->
  near_angle (rotation_angle (A := b64A lm) (MkUT1 (A := b64A lm) a b))
    (B2R (rotation_angle (A := b64A lm) (MkUT1 (A := b64A lm) a' b'))) (3.2 / 10 ^ 10).
Proof.
  intros lm a b a' b' Fa Fb Fa' Fb' Ha Hb Ha' Hb' E.
  pose proof (C64_era_accuracy_pf lm a b Fa Fb Ha Hb) as H. pose proof (C64_era_accuracy_pf lm a' b' Fa' Fb' Ha' Hb') as H'.
  assert (EE : era_of (MkUT1 (A := realA) (B2R a) (B2R b)) = era_of (MkUT1 (A := realA) (B2R a') (B2R b'))).
  { unfold era_of. cbn [ut1_1 ut1_2]. rewrite E. reflexivity. }
  rewrite EE in H. destruct (near_angle_diff _ _ _ _ _ H H') as [K _]. eapply near_angle_le; [exact K|lra].
Qed.

(** C42 in binary64: two splits of the same date, with parts up to 2^22 days, give the same
    nutation within 1.1e-13 and 5e-14 rad, the same mean obliquity within 1.2e-15 rad, the
    same precession-nutation matrix within 4.8e-13 and, within ten centuries of J2000.0, the
    same celestial-to-intermediate matrix within 1.8e-12. *)
Lemma C42_split_b64_pf : forall lm, good_libm lm -> forall (a b a' b' : b64), fin a = true -> fin b = true -> fin a' = true -> fin b' = true ->
  Rabs (B2R a) <= 4194304 -> Rabs (B2R b) <= 4194304 -> Rabs (B2R a') <= 4194304 -> Rabs (B2R b') <= 4194304 ->
  B2R a + B2R b = B2R a' + B2R b' ->
  let d := MkTT (A := b64A lm) a b in let d' := MkTT (A := b64A lm) a' b' in
  (exists p e p' e', nutation (A := b64A lm) d = Val (p, e) /\ nutation (A := b64A lm) d' = Val (p', e') /\
     near p (B2R p') (1.1 / 10 ^ 13) /\ near e (B2R e') (5 / 10 ^ 14)) /\
  near (mean_obliquity (A := b64A lm) d) (B2R (mean_obliquity (A := b64A lm) d')) (1.2 / 10 ^ 15) /\
  (exists m m', precession_nutation (A := b64A lm) d = Val m /\ precession_nutation (A := b64A lm) d' = Val m' /\
     forall i j, near (mget (A := b64A lm) m i j) (B2R (mget (A := b64A lm) m' i j)) (4.8 / 10 ^ 13)) /\
  (Rabs (centuries (MkTT (A := realA) (B2R a) (B2R b))) <= 10 ->
   exists m m', celestial_to_intermediate (A := b64A lm) d = Val m /\ celestial_to_intermediate (A := b64A lm) d' = Val m' /\
     forall i j, near (mget (A := b64A lm) m i j) (B2R (mget (A := b64A lm) m' i j)) (1.8 / 10 ^ 12)).
Proof.
  intros lm G a b a' b' Fa Fb Fa' Fb' Ha Hb Ha' Hb' E d d'.
  assert (EC : centuries (MkTT (A := realA) (B2R a) (B2R b)) = centuries (MkTT (A := realA) (B2R a') (B2R b'))).
  { unfold centuries. cbn [tt_1 tt_2]. rewrite E. reflexivity. }
  split; [|split; [|split]].
  - destruct (C65_nutation_accuracy_pf lm G a b Fa Fb Ha Hb) as (p & e & E1 & N1 & N2).
    destruct (C65_nutation_accuracy_pf lm G a' b' Fa' Fb' Ha' Hb') as (p' & e' & E1' & N1' & N2').
    rewrite EC in N1, N2. exists p, e, p', e'. split; [exact E1|]. split; [exact E1'|].
    split; [apply (near_near _ _ _ _ _ _ N1 N1'); lra|apply (near_near _ _ _ _ _ _ N2 N2'); lra].
  - destruct (C81_obliquity_b64_pf lm a b Fa Fb Ha Hb) as [N _]. destruct (C81_obliquity_b64_pf lm a' b' Fa' Fb' Ha' Hb') as [N' _].
    rewrite EC in N. apply (near_near _ _ _ _ _ _ N N'). lra.
  - destruct (C68_precession_nutation_accuracy_pf lm G a b Fa Fb Ha Hb) as (m & E1 & N & _).
    destruct (C68_precession_nutation_accuracy_pf lm G a' b' Fa' Fb' Ha' Hb') as (m' & E1' & N' & _).
    rewrite EC in N. exists m, m'. split; [exact E1|]. split; [exact E1'|]. intros i j. apply (near_near _ _ _ _ _ _ (N i j) (N' i j)). lra.
  - intros Ht. destruct (C69_terrestrial_accuracy_pf lm G a b Fa Fb Ha Hb Ht) as [(m & E1 & N) _]. rewrite EC in Ht.
    destruct (C69_terrestrial_accuracy_pf lm G a' b' Fa' Fb' Ha' Hb' Ht) as [(m' & E1' & N') _].
    rewrite EC in N. exists m, m'. split; [exact E1|]. split; [exact E1'|]. intros i j. apply (near_near _ _ _ _ _ _ (N i j) (N' i j)). lra.
Qed.

(** The same for the Earth's position, within a century of J2000.0: 1.6e-10 AU. *)
Lemma C42_earth_split_b64_pf : forall lm, good_libm lm -> forall (a b a' b' : b64), fin a = true -> fin b = true -> fin a' = true -> fin b' = true ->
  Rabs (B2R a) <= 4194304 -> Rabs (B2R b) <= 4194304 -> Rabs (B2R a') <= 4194304 -> Rabs (B2R b') <= 4194304 ->
  B2R a + B2R b = B2R a' + B2R b' -> Rabs (years (MkTDB (A := realA) (B2R a) (B2R b))) <= 100 ->
  exists r r', earth_pos_vel (A := b64A lm) (MkTDB (A := b64A lm) a b) = Val r /\
  earth_pos_vel (A := b64A lm) (MkTDB (A := b64A lm) a' b') = Val r' /\
  forall i,
  near (vget (A := b64A lm) (pv_p (A := b64A lm) (heliocentric (A := b64A lm) r)) i)
    (B2R (vget (A := b64A lm) (pv_p (A := b64A lm) (heliocentric (A := b64A lm) r')) i)) (1.6 / 10 ^ 10) /\
  near (vget (A := b64A lm) (pv_p (A := b64A lm) (barycentric (A := b64A lm) r)) i)
    (B2R (vget (A := b64A lm) (pv_p (A := b64A lm) (barycentric (A := b64A lm) r')) i)) (1.6 / 10 ^ 10).
Proof.
  intros lm G a b a' b' Fa Fb Fa' Fb' Ha Hb Ha' Hb' E Ht.
  assert (EC : years (MkTDB (A := realA) (B2R a) (B2R b)) = years (MkTDB (A := realA) (B2R a') (B2R b'))).
  { unfold years. cbn [tdb_1 tdb_2]. rewrite E. reflexivity. }
  destruct (C67_earth_accuracy_pf lm G a b Fa Fb Ha Hb Ht) as (r & E1 & N). rewrite EC in Ht.
  destruct (C67_earth_accuracy_pf lm G a' b' Fa' Fb' Ha' Hb' Ht) as (r' & E1' & N').
  exists r, r'. split; [exact E1|]. split; [exact E1'|]. intros i.
  destruct (N i) as (P1 & P2 & _). destruct (N' i) as (P1' & P2' & _). rewrite EC in P1, P2.
  split; [apply (near_near _ _ _ _ _ _ P1 P1'); lra|apply (near_near _ _ _ _ _ _ P2 P2'); lra].
Qed.

(** ** Orthonormality of the terrestrial matrix *)

(** C69 in binary64: the rows of the celestial-to-terrestrial matrix are orthonormal within
    1.9e-12 for every split of dates within ten centuries of J2000.0, every UT1 with parts up
    to 2^22 days and every finite pole position, although the entries themselves are only
    known within 3.3e-10. *)
Lemma C69_orthonormal_b64_pf : forall lm, good_libm lm -> forall a b u1 u2 xp yp : b64, fin a = true -> fin b = true ->
  Rabs (B2R a) <= 4194304 -> Rabs (B2R b) <= 4194304 -> Rabs (centuries (MkTT (A := realA) (B2R a) (B2R b))) <= 10 ->
  fin u1 = true -> fin u2 = true -> fin xp = true -> fin yp = true -> Rabs (B2R u1) <= 4194304 -> Rabs (B2R u2) <= 4194304 ->
  exists m, celestial_to_terrestrial (A := b64A lm) (MkTT (A := b64A lm) a b) (MkUT1 (A := b64A lm) u1 u2) xp yp = Val m /\
  forall i j, Rabs (B2R (mget (A := b64A lm) m i I0) * B2R (mget (A := b64A lm) m j I0)
    + B2R (mget (A := b64A lm) m i I1) * B2R (mget (A := b64A lm) m j I1)
    + B2R (mget (A := b64A lm) m i I2) * B2R (mget (A := b64A lm) m j I2) - kron i j) <= 1.9 / 10 ^ 12.
Proof.
  intros lm G a b u1 u2 xp yp Fa Fb Ha Hb Ht F1 F2 Fx Fy H1 H2.
  destruct (c2i_gen lm G a b Fa Fb Ha Hb Ht) as (q & Eq & Hq & Pq).
  assert (FE : fin (rotation_angle (A := b64A lm) (MkUT1 (A := b64A lm) u1 u2)) = true) by (apply (C64_era_accuracy_pf lm u1 u2 F1 F2 H1 H2)).
  pose proof (near_angle_of_near _ _ _ (near_self _ FE)) as HE.
  destruct (c2t_ok lm G _ _ xp yp _ _ 0 0 _ _ q _ _ (near_self xp Fx) (near_self yp Fy) ltac:(lra) ltac:(lra) Eq Hq Pq ltac:(lra) HE ltac:(lra)) as (m & Em & Hm).
  exists m. split; [exact Em|]. intros i j.
  match type of Hm with mfro _ ?M _ => assert (PM : proper M) end.
  { unfold C2T. rewrite product_3. apply proper_mm; [apply proper_mm|exact Pq]; [|apply rot3_proper].
    unfold W_matrix. rewrite product_3. prove_proper. }
  eapply Rle_trans; [apply (mfro_ortho lm m _ _ PM Hm i j)|lra].
Qed.

(** ** Offsets *)

(** C53 in binary64: two runs for the same place and day with the same TAI-UTC, whose clocks
    plus offsets denote the same instant, report dates within 6e-11 days, the same rotation
    angle within 2.6e-10 rad up to whole turns, Earth and Sun vectors within 3.8e-12 AU and
    84 m, and, for zenith angles between 0.01 and pi - 0.01, the same angle within 1.9e-7 rad. *)
Lemma C53_offset_b64_pf : forall lm, good_libm lm -> forall p g h m s h' m' s' lo la ht ds ds',
  usual_inputs g h m s lo la ht ds -> usual_inputs g h' m' s' lo la ht ds' ->
  3600 * IZR h + 60 * IZR m + B2R s + B2R ds = 3600 * IZR h' + 60 * IZR m' + B2R s' + B2R ds' ->
  (12 * 1972 + 2 <= 12 * year g + month g)%Z ->
  exists c r c' r', sun_new (A := b64A lm) p (parF lm g h m s lo la ht) = Val c /\ sun_compute (A := b64A lm) c ds = Val r /\
  sun_new (A := b64A lm) p (parF lm g h' m' s' lo la ht) = Val c' /\ sun_compute (A := b64A lm) c' ds' = Val r' /\
  near (sr_jd0 (A := b64A lm) r) (B2R (sr_jd0 (A := b64A lm) r')) 0 /\
  near (sr_jd1 (A := b64A lm) r) (B2R (sr_jd1 (A := b64A lm) r')) (2 / 10 ^ 11) /\
  near (tt_2 (A := b64A lm) (sr_tt (A := b64A lm) r)) (B2R (tt_2 (A := b64A lm) (sr_tt (A := b64A lm) r'))) (6 / 10 ^ 11) /\
  near (ut1_2 (A := b64A lm) (sr_ut1 (A := b64A lm) r)) (B2R (ut1_2 (A := b64A lm) (sr_ut1 (A := b64A lm) r'))) (4 / 10 ^ 11) /\
  near_angle (sr_era (A := b64A lm) r) (B2R (sr_era (A := b64A lm) r')) (2.6 / 10 ^ 10) /\
  (forall i, near (vget (A := b64A lm) (sr_earth (A := b64A lm) r) i) (B2R (vget (A := b64A lm) (sr_earth (A := b64A lm) r') i)) (3.8 / 10 ^ 12)) /\
  (forall i, near (vget (A := b64A lm) (sr_sun_e (A := b64A lm) r) i) (B2R (vget (A := b64A lm) (sr_sun_e (A := b64A lm) r') i)) 84) /\
  forall ce re, sun_new (A := realA) p (parR g h m s lo la ht) = Val ce -> sun_compute (A := realA) ce (B2R ds) = Val re ->
  0.01 <= sr_sza (A := realA) re <= PI - 0.01 -> near (sr_sza (A := b64A lm) r) (B2R (sr_sza (A := b64A lm) r')) (1.9 / 10 ^ 7).
Proof.
  intros lm G p g h m s h' m' s' lo la ht ds ds' U U' CK HY.
  destruct (C72_sun_accuracy_pf lm G p g h m s lo la ht ds U) as (c & r & c1 & r1 & E1 & E2 & E3 & E4 & J0 & J1 & _ & _ & _ & _ & _ & _ & T2 & _ & U2 & EA & EV & _ & SV & _).
  destruct (C72_sun_accuracy_pf lm G p g h' m' s' lo la ht ds' U') as (c' & r' & c1' & r1' & E1' & E2' & E3' & E4' & J0' & J1' & _ & _ & _ & _ & _ & _ & T2' & _ & U2' & EA' & EV' & _ & SV' & _).
  destruct (C53_offset_is_shift_pf p (parR g h m s lo la ht) (parR g h' m' s' lo la ht) c1 c1' (B2R ds) (B2R ds') E3 E3' eq_refl eq_refl)
    as (r2 & r2' & Q1 & Q2 & Q3 & Q4 & _ & _ & _ & _ & Q5 & Q6 & Q7 & Q8 & Q9 & Q10).
  { unfold parR, clock. cbn [sp_time hour minute second]. lra. }
  { apply (C53_same_dat_pf p _ _ c1 c1' E3 E3' eq_refl); unfold parR; cbn [sp_date]; [apply U|exact HY|]. destruct U as (_ & Y & _). lia. }
  assert (OI : forall x y : SunAngleResult realA, Val x = Val y -> x = y) by (intros; congruence).
  rewrite E4 in Q1. apply OI in Q1. rewrite E4' in Q2. apply OI in Q2. subst r2 r2'.
  exists c, r, c', r'. split; [exact E1|]. split; [exact E2|]. split; [exact E1'|]. split; [exact E2'|].
  rewrite Q3 in J0. rewrite Q4 in J1. rewrite Q5 in T2. rewrite Q6 in U2. rewrite Q7 in EA. rewrite Q8 in EV. rewrite Q9 in SV.
  split; [apply (near_near _ _ _ _ _ _ J0 J0'); lra|]. split; [apply (near_near _ _ _ _ _ _ J1 J1'); lra|].
  split; [apply (near_near _ _ _ _ _ _ T2 T2'); lra|]. split; [apply (near_near _ _ _ _ _ _ U2 U2'); lra|].
  split; [destruct (near_angle_diff _ _ _ _ _ EA EA') as [K _]; eapply near_angle_le; [exact K|lra]|].
  split; [intros i; apply (near_near _ _ _ _ _ _ (EV i) (EV' i)); lra|].
  split; [intros i; apply (near_near _ _ _ _ _ _ (SV i) (SV' i)); lra|].
  destruct (C72_zenith_angle_pf lm G p g h m s lo la ht ds U c r c1 r1 E1 E2 E3 E4) as [Z _].
  destruct (C72_zenith_angle_pf lm G p g h' m' s' lo la ht ds' U' c' r' c1' r1' E1' E2' E3' E4') as [Z' _].
  intros ce re E5 E6 B.
  assert (OC : forall x y : SunAngleCalculator realA, Val x = Val y -> x = y) by (intros; congruence).
  rewrite E3 in E5. apply OC in E5. rewrite <- E5, E4 in E6. apply OI in E6. rewrite <- E6 in B. rewrite Q10 in Z, B.
  destruct (Z B) as [Z1 _]. destruct (Z' B) as [Z1' _]. apply (near_near _ _ _ _ _ _ Z1 Z1'). lra.
Qed.

(** J2000.0 in two splits, in binary64: the same Earth rotation angle within 3.2e-10 rad. *)
Example C29_b64_example_pf : forall lm,
  near_angle (rotation_angle (A := b64A lm) (MkUT1 (A := b64A lm) (Flit 24000005 (-1)) (Flit 515445 (-1))))
    (B2R (rotation_angle (A := b64A lm) (MkUT1 (A := b64A lm) (Flit 2451545 0) (Flit 0 0)))) (3.2 / 10 ^ 10).
Proof.
  intros lm. destruct lit_mjd0 as [V1 F1]. destruct lit_x as [V2 F2]. destruct lit_0 as [V3 F3]. destruct (int_ok 2451545 eq_refl) as [F4 V4].
  apply C29_era_split_b64_pf; try assumption; rewrite ?V1, ?V2, ?V3, ?V4; try lra; apply Rabs_le; lra.
Qed.
