(** * Proofs of C89 *)

From Coq Require Import ZArith Reals Lra Lia Bool Psatz.
From Flocq Require Import Core BinarySingleNaN.
From Verif Require Import Outcome Arith ArithR ArithF Spec_Float Spec_Time Spec_Accuracy Spec_Api M_Common M_Calendar M_Time M_Ellipsoid M_SunAngle Spec_Calendar Spec_SunAcc.
From Verif Require L_PCalendar L_PAccSun L_PSunAngle L_AlmanacDat L_ApxDat L_Calendar.
From Verif Require Import L_ArithR L_ArithF L_PTimeScales.
Open Scope R_scope.

(** C89. Two binary64 dates that share their larger part keep their order, and that
    part, under every conversion of time scale. *)
Lemma C89_order_b64_pf : forall lm (a b b' d : b64), moderate a -> moderate b -> moderate b' -> moderate d ->
  B2R b <= B2R b' -> B2R b' < B2R a ->
  (let t := tt_from_ut1 (A := b64A lm) (MkUT1 (A := b64A lm) a b) d in let t' := tt_from_ut1 (A := b64A lm) (MkUT1 (A := b64A lm) a b') d in
     tt_1 t = a /\ tt_1 t' = a /\ B2R (tt_2 (A := b64A lm) t) <= B2R (tt_2 (A := b64A lm) t')) /\
  (let u := ut1_from_tt (A := b64A lm) (MkTT (A := b64A lm) a b) d in let u' := ut1_from_tt (A := b64A lm) (MkTT (A := b64A lm) a b') d in
     ut1_1 u = a /\ ut1_1 u' = a /\ B2R (ut1_2 (A := b64A lm) u) <= B2R (ut1_2 (A := b64A lm) u')) /\
  (let t := tai_from_utc (A := b64A lm) (MkUTC (A := b64A lm) a b) d in let t' := tai_from_utc (A := b64A lm) (MkUTC (A := b64A lm) a b') d in
     tai_1 t = a /\ tai_1 t' = a /\ B2R (tai_2 (A := b64A lm) t) <= B2R (tai_2 (A := b64A lm) t')) /\
  (let t := tt_from_tai (A := b64A lm) (MkTAI (A := b64A lm) a b) in let t' := tt_from_tai (A := b64A lm) (MkTAI (A := b64A lm) a b') in
     tt_1 t = a /\ tt_1 t' = a /\ B2R (tt_2 (A := b64A lm) t) <= B2R (tt_2 (A := b64A lm) t')) /\
  (let t := tdb_from_tt (A := b64A lm) (MkTT (A := b64A lm) a b) d in let t' := tdb_from_tt (A := b64A lm) (MkTT (A := b64A lm) a b') d in
     tdb_1 t = a /\ tdb_1 t' = a /\ B2R (tdb_2 (A := b64A lm) t) <= B2R (tdb_2 (A := b64A lm) t')).
Proof.
  intros lm a b b' d Ha Hb Hb' Hd L L'.
  destruct (C27_larger_part_untouched_pf lm a b d Ha Hb Hd) as (P1 & P2 & P3 & P4 & P5).
  destruct (C27_larger_part_untouched_pf lm a b' d Ha Hb' Hd) as (Q1 & Q2 & Q3 & Q4 & Q5).
  unfold shifted in *. cbv zeta in *.
  destruct P1 as [P1 _], P2 as [P2 _], P3 as [P3 _], P4 as [P4 _], P5 as [P5 _], Q1 as [Q1 _], Q2 as [Q2 _], Q3 as [Q3 _], Q4 as [Q4 _], Q5 as [Q5 _].
  assert (L0 : B2R b < B2R a) by lra.
  destruct (P1 L0) as (A1 & _ & A2), (P2 L0) as (B1 & _ & B2), (P3 L0) as (C1 & _ & C2), (P4 L0) as (D1 & _ & D2), (P5 L0) as (E1 & _ & E2).
  destruct (Q1 L') as (A3 & _ & A4), (Q2 L') as (B3 & _ & B4), (Q3 L') as (C3 & _ & C4), (Q4 L') as (D3 & _ & D4), (Q5 L') as (E3 & _ & E4).
  repeat (split; [(split; [assumption|split; [assumption|]])|]); try (split; [assumption|split; [assumption|]]).
  - rewrite A2, A4. apply rnd_mono. lra.
  - rewrite B2, B4. apply rnd_mono. lra.
  - rewrite C2, C4. apply rnd_mono. lra.
  - rewrite D2, D4. apply rnd_mono. lra.
  - rewrite E2, E4. apply rnd_mono. lra.
Qed.

(** A finite sum has finite terms and did not overflow. *)
Lemma Fadd_inv : forall x y, fin (Fadd x y) = true -> fin x = true /\ fin y = true /\ B2R (Fadd x y) = rnd (B2R x + B2R y).
Proof.
  intros x y H. assert (F : fin x = true /\ fin y = true).
  { destruct x as [sx|sx| |sx mx ex Hx], y as [sy|sy| |sy my ey Hy]; try (split; reflexivity); try discriminate H. destruct sx, sy; discriminate H. }
  destruct F as [Fx Fy]. split; [exact Fx|]. split; [exact Fy|].
  pose proof (Bplus_correct 53 1024 _ _ mode_NE x y Fx Fy) as C.
  change (round_mode mode_NE) with ZnearestE in C. change (SpecFloat.fexp 53 1024) with fx in C.
  destruct (Rlt_bool _ _); [exact (proj1 C)|]. exfalso. destruct C as [C _].
  change (Bplus mode_NE x y) with (Fadd x y) in C. rewrite fin_SF, C in H. destruct (Bsign x); discriminate H.
Qed.

Lemma Fadd_mono : forall x x' y y', fin (Fadd x y) = true -> fin (Fadd x' y') = true -> B2R x <= B2R x' -> B2R y <= B2R y' -> B2R (Fadd x y) <= B2R (Fadd x' y').
Proof.
  intros x x' y y' H H' Lx Ly. destruct (Fadd_inv _ _ H) as (_ & _ & ->). destruct (Fadd_inv _ _ H') as (_ & _ & ->). apply rnd_mono. lra.
Qed.

Lemma Fdiv_inv : forall x y, B2R y <> 0 -> fin (Fdiv x y) = true -> fin x = true -> B2R (Fdiv x y) = rnd (B2R x / B2R y).
Proof.
  intros x y Hy H Fx. pose proof (Bdiv_correct 53 1024 _ _ mode_NE x y Hy) as C.
  change (round_mode mode_NE) with ZnearestE in C. change (SpecFloat.fexp 53 1024) with fx in C.
  destruct (Rlt_bool _ _); [exact (proj1 C)|]. exfalso. 
  change (Bdiv mode_NE x y) with (Fdiv x y) in C. rewrite fin_SF, C in H. destruct (xorb _ _); discriminate H.
Qed.

(** The dates in the result of compute. *)
Lemma compute_dates : forall (A : arith) (c : SunAngleCalculator A) ds r, sun_compute (A := A) c ds = Val r ->
  let jd1 := add A (sc_jd1_date c) (add A (sc_fr c) (div A ds (lit A 86400 0))) in
  sr_jd0 r = sc_jd0 c /\ sr_jd1 r = jd1 /\ sr_dat r = sc_dat c /\ sr_utc r = MkUTC (sc_jd0 c) jd1 /\
  sr_tai r = tai_from_utc (MkUTC (sc_jd0 c) jd1) (sc_dat c) /\ sr_tt r = tt_from_tai (sr_tai r) /\
  sr_ut1 r = MkUT1 (sc_jd0 c) (add A jd1 (div A (sc_dut1 c) (lit A 86400 0))).
Proof.
  intros A c ds r H jd1. destruct (L_PSunAngle.sun_compute_eq (A := A) c ds) as (e & m & _ & _ & E). rewrite E in H. clear E.
  assert (X : forall x y : SunAngleResult A, Val x = Val y -> x = y) by (intros x y X; congruence). apply X in H. subst r. repeat split.
Qed.

Lemma dates_R : forall p g h m s lo la ht c, accepted g -> (1901 <= year g <= 2098)%Z -> (0 <= h < 24)%Z -> (0 <= m < 60)%Z -> 0 <= B2R s < 60 ->
  sun_new (A := realA) p (parR g h m s lo la ht) = Val c ->
  exists d t, Rabs d <= 90000 /\ -2 <= t <= 40 /\
  forall x r, Rabs x <= 31104000 -> sun_compute (A := realA) c x = Val r ->
  sr_jd0 (A := realA) r = 2400000.5 /\ sr_jd1 (A := realA) r = d + x / 86400 /\
  sr_tai (A := realA) r = MkTAI (A := realA) 2400000.5 (d + x / 86400 + t / 86400) /\
  sr_tt (A := realA) r = MkTT (A := realA) 2400000.5 (d + x / 86400 + t / 86400 + 32.184 / 86400) /\
  sr_ut1 (A := realA) r = MkUT1 (A := realA) 2400000.5 (d + x / 86400 - 0.072073685 / 86400).
Proof.
  intros p g h m s lo la ht c Hg Hy Hh Hm Bs H. apply L_PSunAngle.sun_new_inv in H. destruct H as (j0 & j1 & o & wg & pos & Hj & Hd & _ & _ & Ec).
  cbn [parR sp_date sp_time] in Hj, Hd, Ec.
  assert (HF : hms_to_fraction (A := realA) (MkHMS (A := realA) h m (B2R s)) = (3600 * IZR h + 60 * IZR m + B2R s) / 86400).
  { unfold hms_to_fraction. cbn [hour minute second]. realA_ops. rlit_in_goal. unfold Rdiv. lra. }
  rewrite HF in *. pose proof (L_AlmanacDat.dat_range p _ _ o Hg ltac:(lia) Hd) as DR.
  assert (HJ : to_mjd p g = Val (L_Calendar.mjd (of_date g))) by (apply L_PCalendar.to_mjd_accepted; [exact Hg|lia]).
  unfold to_julian in Hj. rewrite HJ in Hj. cbn [bind] in Hj. change (of_int realA) with IZR in Hj.
  pose proof (L_ApxDat.mjd_between g 1901 2098 Hg ltac:(lia) ltac:(lia)) as MB.
  change (L_Calendar.mjd (1901, 1, 1)%Z) with 15385%Z in MB. change (L_Calendar.mjd (2098, 12, 31)%Z) with 87703%Z in MB.
  set (k := L_Calendar.mjd (of_date g)) in *. clearbody k. assert (J0 : j0 = MJD_ZERO (A := realA)) by congruence. assert (J1 : j1 = IZR k) by congruence. subst j0 j1. clear Hj. destruct MB as [M1 M2]. apply IZR_le in M1. apply IZR_le in M2.
  assert (0 <= IZR h <= 23) by (split; apply IZR_le; lia). assert (0 <= IZR m <= 59) by (split; apply IZR_le; lia).
  set (f := (3600 * IZR h + 60 * IZR m + B2R s) / 86400) in *. assert (Bf : 0 <= f <= 1) by (unfold f; lra). clearbody f.
  set (t := match o with Some d => d | None => 0 end) in *.
  assert (DT : -2 <= t <= 40) by exact DR. clear DR. rename DT into DR. exists (IZR k + f), t. split; [apply Rabs_le; lra|]. split; [exact DR|]. intros x r Hx Hr. apply Rabs_le_inv in Hx.
  destruct (compute_dates realA c x r Hr) as (E0 & E1 & _ & _ & E2 & E3 & E4).
  rewrite E4, E3, E2, E1, E0. clear E0 E1 E2 E3 E4 Hr. rewrite Ec. clear Ec.
  cbn [sc_jd0 sc_jd1_date sc_fr sc_dat sc_dut1]. change (match o with Some d => d | None => lit realA 0 0 end) with (match o with Some d => d | None => Rlit 0 0 end).
  replace (match o with Some d => d | None => Rlit 0 0 end) with t by (unfold t; destruct o; reflexivity). clearbody t. clear - M1 M2 Bf Hx DR.
  unfold tai_from_utc, tt_from_tai, MJD_ZERO, DTAT. cbn [utc_1 utc_2]. realA_ops. rlit_in_goal.
  rewrite (Rlt_bool_true (IZR k + (f + x / 86400))) by lra. cbn [tai_1 tai_2]. rewrite Rlt_bool_true by lra.
  repeat split; try (f_equal; lra); lra.
Qed.

Lemma dates_F : forall lm c ds r, sun_compute (A := b64A lm) c ds = Val r ->
  fin (sr_jd0 (A := b64A lm) r) = true -> B2R (sr_jd0 (A := b64A lm) r) = 2400000.5 ->
  fin (sr_jd1 (A := b64A lm) r) = true -> B2R (sr_jd1 (A := b64A lm) r) < 2400000 ->
  fin (tai_2 (A := b64A lm) (sr_tai (A := b64A lm) r)) = true -> B2R (tai_2 (A := b64A lm) (sr_tai (A := b64A lm) r)) < 2400000 ->
  let jd0 := sc_jd0 (A := b64A lm) c in
  let jd1 := Fadd (sc_jd1_date (A := b64A lm) c) (Fadd (sc_fr (A := b64A lm) c) (Fdiv ds (Flit 86400 0))) in
  let ta2 := Fadd jd1 (Fdiv (sc_dat (A := b64A lm) c) (Flit 86400 0)) in
  sr_jd1 (A := b64A lm) r = jd1 /\ sr_utc (A := b64A lm) r = MkUTC (A := b64A lm) jd0 jd1 /\ sr_tai (A := b64A lm) r = MkTAI (A := b64A lm) jd0 ta2 /\
  sr_tt (A := b64A lm) r = MkTT (A := b64A lm) jd0 (Fadd ta2 (Fdiv (Flit 32184 (-3)) (Flit 86400 0))) /\
  sr_ut1 (A := b64A lm) r = MkUT1 (A := b64A lm) jd0 (Fadd jd1 (Fdiv (sc_dut1 (A := b64A lm) c) (Flit 86400 0))).
Proof.
  intros lm c ds r H F0 V0 F1 V1 F2 V2. destruct (compute_dates (b64A lm) c ds r H) as (E0 & E1 & _ & EU & E2 & E3 & E4). clear H.
  unfold tai_from_utc in E2. cbn [utc_1 utc_2] in E2. unfold tt_from_tai, DTAT in E3. rewrite E0 in *. rewrite E1 in *.
  b64A_ops. set (jd0 := sc_jd0 (A := b64A lm) c) in *. set (jd1 := Fadd _ (Fadd _ _)) in *. clearbody jd0 jd1.
  rewrite (Bltb_correct 53 1024 jd1 jd0 F1 F0), Rlt_bool_true in E2 by lra. rewrite E2 in *. cbn [tai_1 tai_2] in *.
  set (ta2 := Fadd jd1 _) in *. clearbody ta2. rewrite (Bltb_correct 53 1024 ta2 jd0 F2 F0), Rlt_bool_true in E3 by lra.
  split; [reflexivity|]. split; [exact EU|]. split; [reflexivity|]. split; [exact E3|exact E4].
Qed.

(** C89 for the Sun angle: with one request and two offsets, the later offset never
    gives an earlier UTC, TAI, TT or UT1 in binary64, and gives a later one if the
    offsets differ by at least 6 microseconds. *)
Lemma C89_compute_order_pf : forall lm, good_libm lm -> forall p g h m s lo la ht ds ds',
  usual_inputs g h m s lo la ht ds -> usual_inputs g h m s lo la ht ds' -> B2R ds <= B2R ds' ->
  exists c r r', sun_new (A := b64A lm) p (parF lm g h m s lo la ht) = Val c /\
  sun_compute (A := b64A lm) c ds = Val r /\ sun_compute (A := b64A lm) c ds' = Val r' /\
  utc_1 (sr_utc (A := b64A lm) r) = utc_1 (sr_utc (A := b64A lm) r') /\ tai_1 (sr_tai (A := b64A lm) r) = tai_1 (sr_tai (A := b64A lm) r') /\
  tt_1 (sr_tt (A := b64A lm) r) = tt_1 (sr_tt (A := b64A lm) r') /\ ut1_1 (sr_ut1 (A := b64A lm) r) = ut1_1 (sr_ut1 (A := b64A lm) r') /\
  let ordered (f : SunAngleResult (b64A lm) -> b64) := B2R (f r) <= B2R (f r') /\ (B2R ds + 6 / 10 ^ 6 <= B2R ds' -> B2R (f r) < B2R (f r')) in
  ordered (fun x => utc_2 (sr_utc (A := b64A lm) x)) /\ ordered (fun x => tai_2 (sr_tai (A := b64A lm) x)) /\
  ordered (fun x => tt_2 (sr_tt (A := b64A lm) x)) /\ ordered (fun x => ut1_2 (sr_ut1 (A := b64A lm) x)).
Proof.
  intros lm G p g h m s lo la ht ds ds' U U' L.
  destruct (L_PAccSun.C72_sun_accuracy_pf lm G p g h m s lo la ht ds U) as (c & r & cx & rx & C1 & C2 & C3 & C4 & N1 & N2 & N3 & _ & N5 & N6 & N7 & N8 & N9 & N10 & N11 & _).
  destruct (L_PAccSun.C72_sun_accuracy_pf lm G p g h m s lo la ht ds' U') as (c' & r' & cx' & rx' & C1' & C2' & C3' & C4' & N1' & N2' & N3' & _ & N5' & N6' & N7' & N8' & N9' & N10' & N11' & _).
  assert (c' = c) by congruence. subst c'. assert (cx' = cx) by congruence. subst cx'.
  exists c, r, r'. split; [exact C1|]. split; [exact C2|]. split; [exact C2'|].
  pose proof U as (Hg & Hy & Hh & Hm & _ & Bs & _ & _ & _ & _ & _ & _ & Fd & Bd). pose proof U' as (_ & _ & _ & _ & _ & _ & _ & _ & _ & _ & _ & _ & Fd' & Bd').
  destruct (dates_R p g h m s lo la ht cx Hg Hy Hh Hm Bs C3) as (d & t & Hd & Ht & DT).
  destruct (DT _ _ Bd C4) as (R0 & R1 & R2 & R3 & R4). destruct (DT _ _ Bd' C4') as (R0' & R1' & R2' & R3' & R4').
  rewrite R0, ?R1, ?R2, ?R3, ?R4 in *. rewrite R0', ?R1', ?R2', ?R3', ?R4' in *. cbn [tai_1 tai_2 tt_1 tt_2 ut1_1 ut1_2] in *.
  assert (FF : forall x v e, near x v e -> fin x = true) by (intros x v e [F _]; exact F).
  assert (V0 : B2R (sr_jd0 (A := b64A lm) r) = 2400000.5) by (destruct N1 as [_ B]; apply Rabs_le_inv in B; lra).
  assert (V0' : B2R (sr_jd0 (A := b64A lm) r') = 2400000.5) by (destruct N1' as [_ B]; apply Rabs_le_inv in B; lra).
  assert (VV : forall x v, v < 2000000 -> near x v (2 / 10 ^ 11) -> B2R x < 2400000) by (intros x v Hv [_ B]; apply Rabs_le_inv in B; lra).
  assert (WW : forall x v, near x v (1 / 10 ^ 11) -> near x v (2 / 10 ^ 11)) by (intros x v [F B]; split; [exact F|lra]).
  apply Rabs_le_inv in Hd. apply Rabs_le_inv in Bd. apply Rabs_le_inv in Bd'.
  assert (Q1 : B2R (sr_jd1 (A := b64A lm) r) < 2400000) by (apply VV with (2 := WW _ _ N2); lra). assert (Q1' : B2R (sr_jd1 (A := b64A lm) r') < 2400000) by (apply VV with (2 := WW _ _ N2'); lra).
  assert (Q2 : B2R (tai_2 (A := b64A lm) (sr_tai (A := b64A lm) r)) < 2400000) by (apply VV with (2 := N7); lra). assert (Q2' : B2R (tai_2 (A := b64A lm) (sr_tai (A := b64A lm) r')) < 2400000) by (apply VV with (2 := N7'); lra).
  destruct (dates_F lm c ds r C2 (FF _ _ _ N1) V0 (FF _ _ _ N2) Q1 (FF _ _ _ N7) Q2) as (X1 & X2 & X3 & X4 & X5).
  destruct (dates_F lm c ds' r' C2' (FF _ _ _ N1') V0' (FF _ _ _ N2') Q1' (FF _ _ _ N7') Q2') as (Y1 & Y2 & Y3 & Y4 & Y5).
  rewrite X1, X2, X3, X4, X5, Y1, Y2, Y3, Y4, Y5 in *. clear - L Fd Fd' Bd Bd' Ht Hd N2 N7 N9 N11 N2' N7' N9' N11' FF.
  cbn [tai_1 tai_2 tt_1 tt_2 ut1_1 ut1_2 utc_1 utc_2] in *. cbv zeta.
  pose proof (FF _ _ _ N2) as F2. pose proof (FF _ _ _ N2') as F2'. pose proof (FF _ _ _ N7) as F7. pose proof (FF _ _ _ N7') as F7'.
  pose proof (FF _ _ _ N9) as F9. pose proof (FF _ _ _ N9') as F9'. pose proof (FF _ _ _ N11) as F11. pose proof (FF _ _ _ N11') as F11'.
  destruct N2 as [_ M2], N7 as [_ M7], N9 as [_ M9], N11 as [_ M11], N2' as [_ M2'], N7' as [_ M7'], N9' as [_ M9'], N11' as [_ M11'].
  apply Rabs_le_inv in M2, M7, M9, M11, M2', M7', M9', M11'. clear FF.
  b64A_ops. destruct lit_86400 as [E86 F86].
  assert (JD : B2R (Fadd (sc_jd1_date (A := b64A lm) c) (Fadd (sc_fr (A := b64A lm) c) (Fdiv ds (Flit 86400 0)))) <= B2R (Fadd (sc_jd1_date (A := b64A lm) c) (Fadd (sc_fr (A := b64A lm) c) (Fdiv ds' (Flit 86400 0))))).
  { clear - L Fd Fd' Bd Bd' E86 F86 F2 F2'. apply Fadd_mono; [exact F2|exact F2'|apply Rle_refl|].
    apply Fadd_inv in F2. destruct F2 as (_ & F2 & _). apply Fadd_inv in F2'. destruct F2' as (_ & F2' & _).
    apply Fadd_mono; [exact F2|exact F2'|apply Rle_refl|].
    apply Fadd_inv in F2. destruct F2 as (_ & F2 & _). apply Fadd_inv in F2'. destruct F2' as (_ & F2' & _).
    rewrite !Fdiv_inv by (assumption || (rewrite E86; lra)). apply rnd_mono. rewrite E86. lra. }
  set (j := Fadd _ (Fadd _ (Fdiv ds _))) in *. set (j' := Fadd _ (Fadd _ (Fdiv ds' _))) in *. clearbody j j'.
  assert (TA : B2R (Fadd j (Fdiv (sc_dat (A := b64A lm) c) (Flit 86400 0))) <= B2R (Fadd j' (Fdiv (sc_dat (A := b64A lm) c) (Flit 86400 0)))) by (apply Fadd_mono; [exact F7|exact F7'|exact JD|apply Rle_refl]).
  set (a := Fadd j (Fdiv (sc_dat (A := b64A lm) c) (Flit 86400 0))) in *. set (a' := Fadd j' (Fdiv (sc_dat (A := b64A lm) c) (Flit 86400 0))) in *. clearbody a a'.
  split; [reflexivity|]. split; [reflexivity|]. split; [reflexivity|]. split; [reflexivity|].
  split; [split; [exact JD|intros S; lra]|]. split; [split; [exact TA|intros S; lra]|].
  split; (split; [apply Fadd_mono; first [assumption|apply Rle_refl]|intros S; lra]).
Qed.

(** C89 on an instance: at 1972 January 1 0h, an offset of an eighth of a second gives a
    strictly later TT in binary64. *)
Example C89_example_pf : forall lm, good_libm lm -> forall p, exists c r r',
  sun_new (A := b64A lm) p (parF lm (MkDate 1972 1 1) 0 0 (Flit 0 0) (Flit 0 0) (Flit 0 0) (Flit 0 0)) = Val c /\
  sun_compute (A := b64A lm) c (Flit 0 0) = Val r /\ sun_compute (A := b64A lm) c (Flit 125 (-3)) = Val r' /\
  tt_1 (sr_tt (A := b64A lm) r) = tt_1 (sr_tt (A := b64A lm) r') /\ B2R (tt_2 (sr_tt (A := b64A lm) r)) < B2R (tt_2 (sr_tt (A := b64A lm) r')).
Proof.
  intros lm G p. destruct lit_0 as [E0 F0].
  assert (E1 : B2R (Flit 125 (-3)) = 0.125 /\ fin (Flit 125 (-3)) = true) by flit_prove. destruct E1 as [E1 F1].
  assert (U : forall x, fin x = true -> Rabs (B2R x) <= 31104000 -> usual_inputs (MkDate 1972 1 1) 0 0 (Flit 0 0) (Flit 0 0) (Flit 0 0) (Flit 0 0) x).
  { intros x Fx Bx. unfold usual_inputs. cbn [year]. rewrite !E0. repeat match goal with |- _ /\ _ => split end; try assumption; try lia; try lra; try (apply Rabs_le; lra). reflexivity. }
  destruct (C89_compute_order_pf lm G p (MkDate 1972 1 1) 0 0 (Flit 0 0) (Flit 0 0) (Flit 0 0) (Flit 0 0) (Flit 0 0) (Flit 125 (-3)))
    as (c & r & r' & T1 & T2 & T3 & _ & _ & T4 & _ & _ & _ & [_ T5] & _).
  - apply U; [exact F0|rewrite E0; apply Rabs_le; lra].
  - apply U; [exact F1|rewrite E1; apply Rabs_le; lra].
  - rewrite E0, E1. lra.
  - exists c, r, r'. repeat (split; [assumption|]). apply T5. rewrite E0, E1. lra.
Qed.
