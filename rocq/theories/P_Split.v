(** * Properties: Split

    Statements only; proofs are in L_PSplit.v. *)

From Coq Require Import ZArith Reals Lra Lia Bool List.
From Flocq Require Import Core BinarySingleNaN.
From Verif Require Import Outcome Arith ArithR ArithF Spec_Float Spec_Accuracy M_Common M_Calendar M_Time M_Earth M_Locator M_Frames M_Ellipsoid M_SunAngle
  Spec_Matrix Spec_Frames Spec_Series Spec_C2t Spec_Api Spec_Sun Spec_SunAcc.
Import ListNotations.
Open Scope R_scope.
From Verif Require L_PSplit.

(** C29 in binary64: two splits of the same UT1 date, with parts up to 2^22 days, give the
    same Earth rotation angle within 3.2e-10 rad, up to whole turns. *)
Theorem C29_era_split_b64 : forall lm (a b a' b' : b64), fin a = true -> fin b = true -> fin a' = true -> fin b' = true ->
  Rabs (B2R a) <= 4194304 -> Rabs (B2R b) <= 4194304 -> Rabs (B2R a') <= 4194304 -> Rabs (B2R b') <= 4194304 ->
  B2R a + B2R b = B2R a' + B2R b' ->
  near_angle (rotation_angle (A := b64A lm) (MkUT1 (A := b64A lm) a b))
    (B2R (rotation_angle (A := b64A lm) (MkUT1 (A := b64A lm) a' b'))) (3.2 / 10 ^ 10).
Proof. exact L_PSplit.C29_era_split_b64_pf. Qed.
Print Assumptions C29_era_split_b64.

(** C42 in binary64: two splits of the same date, with parts up to 2^22 days, give the same
    nutation within 1.1e-13 and 5e-14 rad, the same mean obliquity within 1.2e-15 rad, the
    same precession-nutation matrix within 4.8e-13 and, within ten centuries of J2000.0, the
    same celestial-to-intermediate matrix within 1.8e-12. *)
Theorem C42_split_b64 : forall lm, good_libm lm -> forall (a b a' b' : b64), fin a = true -> fin b = true -> fin a' = true -> fin b' = true ->
  Rabs (B2R a) <= 4194304 -> Rabs (B2R b) <= 4194304 -> Rabs (B2R a') <= 4194304 -> Rabs (B2R b') <= 4194304 ->
  B2R a + B2R b = B2R a' + B2R b' ->
  let d := MkTT (A := b64A lm) a b in let d' := MkTT (A := b64A lm) a' b' in
  (exists p e p' e', nutation (A := b64A lm) d = Val (p, e) /\ nutation (A := b64A lm) d' = Val (p', e') /\
     near p (B2R p') (1.1 / 10 ^ 13) /\ near e (B2R e') (5 / 10 ^ 14)) /\
  near (mean_obliquity (A := b64A lm) d) (B2R (mean_obliquity (A := b64A lm) d')) (1.2 / 10 ^ 15) /\
  (exists m m', precession_nutation (A := b64A lm) d = Val m /\ precession_nutation (A := b64A lm) d' = Val m' /\
     forall i j, near (mget (A := b64A lm) m i j) (B2R (mget (A := b64A lm) m' i j)) (4.8 / 10 ^ 13)) /\
  (Rabs (centuries (MkTT (A := realA) (B2R a) (B2R b))) <= 10 ->
   exists m m', celestial_to_intermediate (A := b64A lm) d = Val m /\ celestial_to_intermediate (A := b64A lm) d' = Val m' /\
     forall i j, near (mget (A := b64A lm) m i j) (B2R (mget (A := b64A lm) m' i j)) (1.8 / 10 ^ 12)).
Proof. exact L_PSplit.C42_split_b64_pf. Qed.
Print Assumptions C42_split_b64.

(** The same for the Earth's position, within a century of J2000.0: 1.6e-10 AU. *)
Theorem C42_earth_split_b64 : forall lm, good_libm lm -> forall (a b a' b' : b64), fin a = true -> fin b = true -> fin a' = true -> fin b' = true ->
  Rabs (B2R a) <= 4194304 -> Rabs (B2R b) <= 4194304 -> Rabs (B2R a') <= 4194304 -> Rabs (B2R b') <= 4194304 ->
  B2R a + B2R b = B2R a' + B2R b' -> Rabs (years (MkTDB (A := realA) (B2R a) (B2R b))) <= 100 ->
  exists r r', earth_pos_vel (A := b64A lm) (MkTDB (A := b64A lm) a b) = Val r /\
  earth_pos_vel (A := b64A lm) (MkTDB (A := b64A lm) a' b') = Val r' /\
  forall i,
  near (vget (A := b64A lm) (pv_p (A := b64A lm) (heliocentric (A := b64A lm) r)) i)
    (B2R (vget (A := b64A lm) (pv_p (A := b64A lm) (heliocentric (A := b64A lm) r')) i)) (1.6 / 10 ^ 10) /\
  near (vget (A := b64A lm) (pv_p (A := b64A lm) (barycentric (A := b64A lm) r)) i)
    (B2R (vget (A := b64A lm) (pv_p (A := b64A lm) (barycentric (A := b64A lm) r')) i)) (1.6 / 10 ^ 10).
Proof. exact L_PSplit.C42_earth_split_b64_pf. Qed.
Print Assumptions C42_earth_split_b64.

(** C69 in binary64: the rows of the celestial-to-terrestrial matrix are orthonormal within
    1.9e-12 for every split of dates within ten centuries of J2000.0, every UT1 with parts up
    to 2^22 days and every finite pole position, although the entries themselves are only
    known within 3.3e-10. *)
Theorem C69_orthonormal_b64 : forall lm, good_libm lm -> forall a b u1 u2 xp yp : b64, fin a = true -> fin b = true ->
  Rabs (B2R a) <= 4194304 -> Rabs (B2R b) <= 4194304 -> Rabs (centuries (MkTT (A := realA) (B2R a) (B2R b))) <= 10 ->
  fin u1 = true -> fin u2 = true -> fin xp = true -> fin yp = true -> Rabs (B2R u1) <= 4194304 -> Rabs (B2R u2) <= 4194304 ->
  exists m, celestial_to_terrestrial (A := b64A lm) (MkTT (A := b64A lm) a b) (MkUT1 (A := b64A lm) u1 u2) xp yp = Val m /\
  forall i j, Rabs (B2R (mget (A := b64A lm) m i I0) * B2R (mget (A := b64A lm) m j I0)
    + B2R (mget (A := b64A lm) m i I1) * B2R (mget (A := b64A lm) m j I1)
    + B2R (mget (A := b64A lm) m i I2) * B2R (mget (A := b64A lm) m j I2) - kron i j) <= 1.9 / 10 ^ 12.
Proof. exact L_PSplit.C69_orthonormal_b64_pf. Qed.
Print Assumptions C69_orthonormal_b64.

(** C53 in binary64: two runs for the same place and day with the same TAI-UTC, whose clocks
    plus offsets denote the same instant, report dates within 6e-11 days, the same rotation
    angle within 2.6e-10 rad up to whole turns, Earth and Sun vectors within 3.8e-12 AU and
    84 m, and, for zenith angles between 0.01 and pi - 0.01, the same angle within 1.9e-7 rad. *)
Theorem C53_offset_b64 : forall lm, good_libm lm -> forall p g h m s h' m' s' lo la ht ds ds',
  usual_inputs g h m s lo la ht ds -> usual_inputs g h' m' s' lo la ht ds' ->
  3600 * IZR h + 60 * IZR m + B2R s + B2R ds = 3600 * IZR h' + 60 * IZR m' + B2R s' + B2R ds' ->
  (12 * 1972 + 2 <= 12 * year g + month g)%Z ->
  exists c r c' r', sun_new (A := b64A lm) p (parF lm g h m s lo la ht) = Val c /\ sun_compute (A := b64A lm) c ds = Val r /\
  sun_new (A := b64A lm) p (parF lm g h' m' s' lo la ht) = Val c' /\ sun_compute (A := b64A lm) c' ds' = Val r' /\
  near (sr_jd0 (A := b64A lm) r) (B2R (sr_jd0 (A := b64A lm) r')) 0 /\
  near (sr_jd1 (A := b64A lm) r) (B2R (sr_jd1 (A := b64A lm) r')) (2 / 10 ^ 11) /\
  near (tt_2 (A := b64A lm) (sr_tt (A := b64A lm) r)) (B2R (tt_2 (A := b64A lm) (sr_tt (A := b64A lm) r'))) (6 / 10 ^ 11) /\
  near (ut1_2 (A := b64A lm) (sr_ut1 (A := b64A lm) r)) (B2R (ut1_2 (A := b64A lm) (sr_ut1 (A := b64A lm) r'))) (4 / 10 ^ 11) /\
  near_angle (sr_era (A := b64A lm) r) (B2R (sr_era (A := b64A lm) r')) (2.6 / 10 ^ 10) /\
  (forall i, near (vget (A := b64A lm) (sr_earth (A := b64A lm) r) i) (B2R (vget (A := b64A lm) (sr_earth (A := b64A lm) r') i)) (3.8 / 10 ^ 12)) /\
  (forall i, near (vget (A := b64A lm) (sr_sun_e (A := b64A lm) r) i) (B2R (vget (A := b64A lm) (sr_sun_e (A := b64A lm) r') i)) 84) /\
  forall ce re, sun_new (A := realA) p (parR g h m s lo la ht) = Val ce -> sun_compute (A := realA) ce (B2R ds) = Val re ->
  0.01 <= sr_sza (A := realA) re <= PI - 0.01 -> near (sr_sza (A := b64A lm) r) (B2R (sr_sza (A := b64A lm) r')) (1.9 / 10 ^ 7).
Proof. exact L_PSplit.C53_offset_b64_pf. Qed.
Print Assumptions C53_offset_b64.

(** J2000.0 in two splits, in binary64: the same Earth rotation angle within 3.2e-10 rad. *)
Example C29_b64_example : forall lm,
  near_angle (rotation_angle (A := b64A lm) (MkUT1 (A := b64A lm) (Flit 24000005 (-1)) (Flit 515445 (-1))))
    (B2R (rotation_angle (A := b64A lm) (MkUT1 (A := b64A lm) (Flit 2451545 0) (Flit 0 0)))) (3.2 / 10 ^ 10).
Proof. exact L_PSplit.C29_b64_example_pf. Qed.
