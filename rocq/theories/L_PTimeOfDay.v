(** * Proofs of the time-of-day properties C15-C20 *)

From Coq Require Import ZArith Reals Lra Lia Bool.
From Flocq Require Import Core BinarySingleNaN.
From Verif Require Import Outcome Arith ArithR ArithF Spec_Float M_Calendar Spec_Calendar Spec_Api.
From Verif Require Import L_Calendar L_Civil L_ArithR L_ArithF L_FromJulianR L_FromJulianF L_HMS L_PCalendar.
Open Scope R_scope.

(** C15.  Fields in range for every binary64 fraction in [0,1]; hour 24 exactly
    for 1.0, and then the time is 24:00:00. *)
Lemma C15_hms_fields_pf : forall lm f, fin f = true -> 0 <= B2R f <= 1 ->
  exists h m (s : b64),
    hms_from_fraction (A := b64A lm) f = Ok (MkHMS (A := b64A lm) h m s) /\
    (0 <= h <= 24)%Z /\ (0 <= m < 60)%Z /\ fin s = true /\ 0 <= B2R s < 60 /\
    (h = 24%Z <-> B2R f = 1) /\ (h = 24%Z -> m = 0%Z /\ B2R s = 0).
Proof.
  intros lm f Hf Bf. destruct (hms_from_fraction_F lm f Hf Bf) as (s & sec & Fs & Es & Bs & E & Fsec & Esec).
  destruct (split_seconds _ Bs) as (T & T1 & T2 & T3 & T4).
  set (t := Zfloor (B2R s)) in *.
  assert (K : B2R f = 1 <-> (t / 3600 = 24)%Z).
  { split.
    - intros K. rewrite K, Rmult_1_r, rnd_id in Es by (apply (format_IZR 86400); lia).
      unfold t. rewrite Es. rewrite (Zfloor_IZR 86400). reflexivity.
    - intros K. assert (K' : (86400 <= t)%Z) by (clear - K; lia). apply IZR_le in K'.
      pose proof (Zfloor_lb (B2R s)) as L. fold t in L.
      destruct (Rle_lt_or_eq_dec _ _ (proj2 Bf)) as [L1|L1]; [|exact L1].
      pose proof (s_lt_86400 (B2R f) (format_B2R f) ltac:(lra)). lra. }
  exists (t / 3600)%Z, ((t mod 3600) / 60)%Z, sec.
  split; [exact E|]. split; [exact T1|]. split; [exact T2|]. split; [exact Fsec|].
  rewrite Esec. split; [exact T3|]. split; [tauto|].
  intros H. apply K in H. rewrite H, Rmult_1_r, rnd_id in Es by (apply (format_IZR 86400); lia).
  assert (Et : t = 86400%Z) by (unfold t; rewrite Es; apply (Zfloor_IZR 86400)).
  rewrite Et, Es. split; [reflexivity|]. change (86400 mod 60)%Z with 0%Z. lra.
Qed.

Example C15_example_pf : forall lm,
  match hms_from_fraction (A := b64A lm) (Flit 75 (-2)) with
  | Ok x => (hour x, minute x, B2SF (second x)) = (18%Z, 0%Z, B2SF (FofZ 0)) | Err _ => False end.
Proof. intros lm. vm_compute. reflexivity. Qed.

(** C16.  The split into hours, minutes and seconds loses nothing: the total is
    the binary64 product 86400 * f. *)
Lemma C16_hms_split_exact_pf : forall lm f, fin f = true -> 0 <= B2R f <= 1 ->
  exists h m (s : b64),
    hms_from_fraction (A := b64A lm) f = Ok (MkHMS (A := b64A lm) h m s) /\
    IZR (3600 * h + 60 * m) + B2R s = B2R (Fmul (FofZ 86400) f) /\
    B2R (Fmul (FofZ 86400) f) = rnd (86400 * B2R f).
Proof.
  intros lm f Hf Bf. destruct (hms_from_fraction_F lm f Hf Bf) as (s & sec & Fs & Es & Bs & E & Fsec & Esec).
  destruct (split_seconds _ Bs) as (T & T1 & T2 & T3 & T4).
  destruct (FofZ_ok 86400) as (A1 & A2 & _); [lia|].
  destruct (Fmul_ok (FofZ 86400) f A2 Hf) as [M1 _].
  { rewrite A1. apply small_big. apply Rabs_le. lra. }
  rewrite A1 in M1.
  eexists _, _, sec. split; [exact E|]. rewrite Esec. split; [|exact M1].
  rewrite M1, <- Es. exact T4.
Qed.

(** 0.3 of a day is 7 h 12 min, the product 86400 * 0.3 rounding to 25920 exactly. *)
Example C16_example_pf : forall lm,
  match hms_from_fraction (A := b64A lm) (Flit 3 (-1)) with
  | Ok x => (hour x, minute x, B2SF (second x)) = (7%Z, 12%Z, SpecFloat.S754_zero false) /\ B2SF (Fmul (FofZ 86400) (Flit 3 (-1))) = B2SF (FofZ 25920) | Err _ => False end.
Proof. intros lm. vm_compute. split; reflexivity. Qed.

(** C17, exact arithmetic: the fraction survives the round trip. *)
Lemma C17_fraction_roundtrip_reals_pf : forall f, 0 <= f <= 1 ->
  exists x, hms_from_fraction (A := realA) f = Ok x /\ hms_to_fraction (A := realA) x = f.
Proof.
  intros f H. eexists. split; [apply hms_from_fraction_R; exact H|].
  rewrite hms_to_fraction_R. destruct (split_seconds (86400 * f)) as (_ & _ & _ & _ & E); [lra|].
  rewrite E. realA_ops. field.
Qed.

(** C17, binary64: within 2^-52. *)
Lemma C17_fraction_roundtrip_pf : forall lm f, fin f = true -> 0 <= B2R f <= 1 ->
  exists x : HMS (b64A lm),
    hms_from_fraction (A := b64A lm) f = Ok x /\
    fin (hms_to_fraction (A := b64A lm) x) = true /\
    Rabs (B2R (hms_to_fraction (A := b64A lm) x) - B2R f) <= bpow radix2 (-52).
Proof.
  intros lm f Hf Bf. destruct (hms_from_fraction_F lm f Hf Bf) as (s & sec & Fs & Es & Bs & E & Fsec & Esec).
  destruct (split_seconds _ Bs) as (T & T1 & T2 & T3 & T4).
  set (t := Zfloor (B2R s)) in *.
  exists (MkHMS (A := b64A lm) (t / 3600) ((t mod 3600) / 60) sec).
  split; [exact E|].
  destruct (hms_to_fraction_F lm (t / 3600) ((t mod 3600) / 60) sec) as (tot & A1 & A2 & A3 & A4 & A5);
    [lia|lia|exact Fsec|rewrite Esec; lra|].
  rewrite Esec, T4, rnd_id in A2 by apply format_B2R.
  rewrite A3. split; [exact A4|]. rewrite A5, A2.
  pose proof (rnd_error (86400 * B2R f) 17 ltac:(lia)) as E1.
  change (bpow radix2 17) with 131072 in E1. specialize (E1 ltac:(apply Rabs_le; lra)).
  rewrite <- Es in E1.
  pose proof (rnd_error (B2R s / 86400) 0 ltac:(lia)) as E2.
  change (bpow radix2 0) with 1 in E2. specialize (E2 ltac:(apply Rabs_le; lra)).
  change (bpow radix2 (17 - 53)) with (/ 68719476736) in E1.
  change (bpow radix2 (0 - 53)) with (/ 9007199254740992) in E2.
  change (bpow radix2 (-52)) with (/ 4503599627370496).
  apply Rabs_le_inv in E1, E2. apply Rabs_le. lra.
Qed.

(** A fraction that comes back bit for bit. *)
Example C17_example_pf : forall lm,
  match hms_from_fraction (A := b64A lm) (Flit 123456789 (-9)) with
  | Ok x => (hour x, minute x) = (2%Z, 57%Z) /\ B2SF (hms_to_fraction (A := b64A lm) x) = B2SF (Flit 123456789 (-9)) | Err _ => False end.
Proof. intros lm. vm_compute. split; reflexivity. Qed.

(** C18, exact arithmetic: a valid time of day survives the round trip. *)
Lemma C18_hms_roundtrip_reals_partial_pf : forall h m s,
  (0 <= h < 24)%Z -> (0 <= m < 60)%Z -> 0 <= s < 60 ->
  hms_from_fraction (A := realA) (hms_to_fraction (A := realA) (MkHMS (A := realA) h m s))
  = Ok (MkHMS (A := realA) h m s).
Proof.
  intros h m s Hh Hm Hs. rewrite hms_to_fraction_R.
  assert (B : 0 <= hms_seconds h m s <= 86400).
  { unfold hms_seconds. rewrite plus_IZR, !mult_IZR.
    assert (0 <= IZR h <= 23) by (split; apply IZR_le; lia).
    assert (0 <= IZR m <= 59) by (split; apply IZR_le; lia). lra. }
  rewrite hms_from_fraction_R by lra.
  replace (86400 * (hms_seconds h m s / 86400)) with (hms_seconds h m s) by field.
  destruct (floor_hms h m s Hm Hs) as (A & C & D). rewrite A, C, D. reflexivity.
Qed.

(** C18 is false in binary64: 00:00:11 comes back as 00:00:10.999999999999998. *)
Lemma C18_hms_roundtrip_refuted_pf : forall lm, exists s : b64,
  hms_from_fraction (A := b64A lm) (hms_to_fraction (A := b64A lm) (MkHMS (A := b64A lm) 0 0 (FofZ 11)))
  = Ok (MkHMS (A := b64A lm) 0 0 s) /\ B2R s < 11.
Proof.
  intros lm.
  assert (K : match hms_from_fraction (A := b64A lm)
                (hms_to_fraction (A := b64A lm) (MkHMS (A := b64A lm) 0 0 (FofZ 11))) with
              | Ok (MkHMS h m s) => Some ((h, m), B2SF s) | Err _ => None end
              = Some ((0, 0)%Z, B2SF (Fof 6192449487634431 (-49)))).
  { vm_compute. reflexivity. }
  destruct (hms_from_fraction (A := b64A lm)
              (hms_to_fraction (A := b64A lm) (MkHMS (A := b64A lm) 0 0 (FofZ 11)))) as [[h m s]|]; [|discriminate].
  apply some_pair in K. destruct K as [K1 K2]. apply B2SF_inj in K2. inversion K1. subst h m s.
  eexists. split; [reflexivity|].
  rewrite <- SF2R_B2SF.
  replace (B2SF (Fof 6192449487634431 (-49))) with (SpecFloat.S754_finite false 6192449487634431 (-49)) by (vm_compute; reflexivity).
  unfold SF2R, F2R; cbn [cond_Zopp Fnum Fexp bpow]. change (Z.pow_pos radix2 49) with 562949953421312%Z. lra.
Qed.

(** C18, the true part in binary64: the time comes back within 2^-35 s (30 ps),
    but possibly written with other fields. *)
Lemma C18_hms_roundtrip_b64_partial_pf : forall lm h m s,
  (0 <= h < 24)%Z -> (0 <= m < 60)%Z -> fin s = true -> 0 <= B2R s < 60 ->
  exists h' m' (s' : b64),
    hms_from_fraction (A := b64A lm) (hms_to_fraction (A := b64A lm) (MkHMS (A := b64A lm) h m s))
    = Ok (MkHMS (A := b64A lm) h' m' s') /\
    Rabs ((IZR (3600 * h' + 60 * m') + B2R s') - (IZR (3600 * h + 60 * m) + B2R s)) <= bpow radix2 (-35).
Proof.
  intros lm h m s Hh Hm Fs Bs.
  destruct (hms_to_fraction_F lm h m s) as (tot & A1 & A2 & A3 & A4 & A5); [lia|lia|exact Fs|lra|].
  assert (B : 0 <= hms_seconds h m (B2R s) <= 86400).
  { unfold hms_seconds. rewrite plus_IZR, !mult_IZR.
    assert (0 <= IZR h <= 23) by (split; apply IZR_le; lia).
    assert (0 <= IZR m <= 59) by (split; apply IZR_le; lia). lra. }
  assert (Bt : 0 <= B2R tot <= 86400).
  { rewrite A2. split; [apply rnd_ge; [apply (format_IZR 0); lia|lra]|
      apply rnd_le; [apply (format_IZR 86400); lia|lra]]. }
  set (f := Fdiv tot (Flit 86400 0)) in *.
  assert (Bf : 0 <= B2R f <= 1).
  { rewrite A5. split; [apply rnd_ge; [apply (format_IZR 0); lia|lra]|
      apply rnd_le; [apply (format_IZR 1); lia|lra]]. }
  destruct (C16_hms_split_exact_pf lm f A4 Bf) as (h' & m' & s' & E1 & E2 & E3).
  exists h', m', s'. rewrite A3. split; [exact E1|]. rewrite E2, E3.
  change (IZR (3600 * h + 60 * m) + B2R s) with (hms_seconds h m (B2R s)).
  pose proof (rnd_error (hms_seconds h m (B2R s)) 17 ltac:(lia)) as R1.
  change (bpow radix2 17) with 131072 in R1. specialize (R1 ltac:(apply Rabs_le; lra)).
  pose proof (rnd_error (B2R tot / 86400) 0 ltac:(lia)) as R2.
  change (bpow radix2 0) with 1 in R2. specialize (R2 ltac:(apply Rabs_le; lra)).
  pose proof (rnd_error (86400 * B2R f) 17 ltac:(lia)) as R3.
  change (bpow radix2 17) with 131072 in R3. specialize (R3 ltac:(apply Rabs_le; lra)).
  rewrite <- A2 in R1. rewrite <- A5 in R2.
  change (bpow radix2 (17 - 53)) with (/ 68719476736) in *.
  change (bpow radix2 (0 - 53)) with (/ 9007199254740992) in *.
  change (bpow radix2 (-35)) with (/ 34359738368).
  apply Rabs_le_inv in R1, R2, R3. apply Rabs_le. lra.
Qed.

(** A time that comes back unchanged. *)
Example C18_example_pf : forall lm,
  match hms_from_fraction (A := b64A lm) (hms_to_fraction (A := b64A lm) (MkHMS (A := b64A lm) 18 30 (FofZ 0))) with
  | Ok x => (hour x, minute x, B2SF (second x)) = (18%Z, 30%Z, SpecFloat.S754_zero false) | Err _ => False end.
Proof. intros lm. vm_compute. reflexivity. Qed.

(** C19.  Date and time to Julian date and back, exact arithmetic. *)
Lemma C19_datehms_roundtrip_pf : forall p g h m s, accepted g ->
  ~ civil_lt (1465002, 10, 17)%Z (of_date g) ->
  (0 <= h < 24)%Z -> (0 <= m < 60)%Z -> 0 <= s < 60 ->
  let x := MkDateHMS (A := realA) g (MkHMS (A := realA) h m s) in
  exists a b, datehms_to_julian (A := realA) p x = Val (a, b) /\
    datehms_from_julian (A := realA) p a b = Val (Ok x).
Proof.
  intros p g h m s Hg K Hh Hm Hs x.
  assert (Hy : (year g <= 1465072)%Z) by (unfold civil_lt, of_date in K; lia).
  pose proof (to_mjd_accepted p g Hg Hy) as M.
  destruct (C05_date_roundtrip_pf (MkLibm (fun x => x) (fun x => x) (fun x => x) (fun x => x) (fun x _ => x)) p g Hg K) as (_ & _ & _ & _).
  set (n := mjd (of_date g)) in *.
  exists (2400000 + / 2), (IZR n + hms_seconds h m s / 86400).
  split.
  { unfold datehms_to_julian, to_julian. cbn [date hms x]. rewrite M. cbn [bind].
    rewrite hms_to_fraction_R. unfold MJD_ZERO. realA_ops. rlit_in_goal. do 2 f_equal. lra. }
  apply accepted_spec in Hg.
  assert (N1 : (n <= 534402341)%Z).
  { change 534402341%Z with (mjd (1465002, 10, 17)%Z).
    assert (V : valid_civil (1465002, 10, 17)%Z) by (cbn; lia).
    destruct (Z.le_gt_cases n (mjd (1465002, 10, 17)%Z)) as [L|L]; [exact L|].
    exfalso. apply K. apply (mjd_lt_iff _ _ V (proj1 Hg)). exact L. }
  assert (N2 : (-2431739 <= n)%Z).
  { change (-2431739)%Z with (mjd (-4799, 1, 1)%Z).
    assert (V : valid_civil (-4799, 1, 1)%Z) by (cbn; lia).
    destruct (Z.le_gt_cases (mjd (-4799, 1, 1)%Z) n) as [L|L]; [exact L|].
    exfalso. apply (mjd_lt_iff _ _ (proj1 Hg) V) in L. destruct Hg as [[Hg1 Hg2] Hg3].
    unfold civil_lt, of_date in L. cbn [year month day] in *. lia. }
  assert (RN : -2431739 <= IZR n <= 534402341) by (split; apply IZR_le; assumption).
  assert (B : 0 <= hms_seconds h m s < 86400).
  { unfold hms_seconds. rewrite plus_IZR, !mult_IZR.
    assert (0 <= IZR h <= 23) by (split; apply IZR_le; lia).
    assert (0 <= IZR m <= 59) by (split; apply IZR_le; lia). lra. }
  unfold datehms_from_julian. rewrite from_julian_R_ok by lra. cbn [bind_ok].
  assert (JD : jd_day (2400000 + / 2 + (IZR n + hms_seconds h m s / 86400)) = (2400000 + n)%Z).
  { unfold jd_day. apply Zfloor_unique_frac. rewrite plus_IZR. lra. }
  unfold jd_frac. rewrite JD.
  replace (2400000 + / 2 + (IZR n + hms_seconds h m s / 86400) - / 2 - IZR (2400000 + n))
    with (hms_to_fraction (A := realA) (MkHMS (A := realA) h m s))
    by (rewrite hms_to_fraction_R, plus_IZR; lra).
  rewrite C18_hms_roundtrip_reals_partial_pf by assumption. cbn [bind_ok].
  do 2 f_equal. unfold x. f_equal.
  destruct (civil_fn_spec (2400000 + n + 1) ltac:(lia)) as (V & E & _).
  assert (E' : civil_fn (2400000 + n + 1) = of_date g).
  { apply mjd_inj; [exact V|apply Hg|]. rewrite E. unfold n. lia. }
  rewrite E'. destruct g. reflexivity.
Qed.

(** C19, the other way: the Julian date is recovered, exact arithmetic. *)
Lemma C19_julian_roundtrip_pf : forall p dj1 dj2,
  -31738 - / 2 <= dj1 + dj2 < 536802342 + / 2 ->
  exists x a b, datehms_from_julian (A := realA) p dj1 dj2 = Val (Ok x) /\
    datehms_to_julian (A := realA) p x = Val (a, b) /\ a + b = dj1 + dj2.
Proof.
  intros p dj1 dj2 H.
  assert (H' : -32000 <= dj1 + dj2 < 536802342 + / 2) by lra.
  pose proof (jd_frac_bounds (dj1 + dj2)) as F.
  pose proof (from_julian_R_ok p dj1 dj2 H') as E.
  destruct (C17_fraction_roundtrip_reals_pf (jd_frac (dj1 + dj2)) ltac:(lra)) as (x & X1 & X2).
  set (g := date_of_civil (civil_fn (jd_day (dj1 + dj2) + 1))) in *.
  assert (Hg : accepted g) by (apply (C09_from_julian_accepted_partial_pf p dj1 dj2 g (jd_frac (dj1 + dj2)) H' E); lra).
  pose proof (jd_day_bounds (dj1 + dj2) (-32000) 536802342 H') as B.
  destruct (civil_fn_spec (jd_day (dj1 + dj2) + 1)) as (V & M & _); [lia|].
  assert (Hy : (year g <= 1465072)%Z).
  { destruct (Z.le_gt_cases (year g) 1465072) as [L|L]; [exact L|]. exfalso.
    assert (V1 : valid_civil (1465002, 10, 17)%Z) by (cbn; lia).
    pose proof (mjd_lt_iff (1465002, 10, 17)%Z (civil_fn (jd_day (dj1 + dj2) + 1)) V1 V) as Q.
    rewrite M in Q. assert (QQ : mjd (1465002, 10, 17)%Z = 534402341%Z) by reflexivity.
    rewrite QQ in Q.
    assert (P : (534402341 < jd_day (dj1 + dj2) + 1 - 2400001)%Z); [|lia].
    apply Q. unfold g in L. unfold civil_lt. destruct (civil_fn (jd_day (dj1 + dj2) + 1)) as [[y mm] d].
    cbn [date_of_civil year] in L. lia. }
  pose proof (to_mjd_accepted p g Hg Hy) as T.
  exists (MkDateHMS (A := realA) g x), (2400000 + / 2), (IZR (mjd (of_date g)) + jd_frac (dj1 + dj2)).
  split; [|split].
  - unfold datehms_from_julian. rewrite E. cbn [bind_ok]. rewrite X1. reflexivity.
  - unfold datehms_to_julian, to_julian. cbn [date hms]. rewrite T. cbn [bind]. rewrite X2.
    unfold MJD_ZERO. realA_ops. rlit_in_goal. do 2 f_equal. lra.
  - unfold g. rewrite of_date_of_civil, M. unfold jd_frac. rewrite minus_IZR, plus_IZR. lra.
Qed.

(** C19, errors: a Julian date that [GregorianDate::from_julian] rejects is
    rejected with the same error, in any arithmetic. *)
Lemma C19_error_propagated_pf : forall (A : arith) p dj1 dj2 e,
  from_julian (A := A) p dj1 dj2 = Val (Err e) ->
  datehms_from_julian (A := A) p dj1 dj2 = Val (Err e).
Proof. intros A p dj1 dj2 e H. unfold datehms_from_julian. rewrite H. reflexivity. Qed.

(** C19, binary64: in range it never fails, and the date and time returned are
    within the C07 error plus 2^-53 day (10 ps) of the Julian date given. *)
Lemma C19_datehms_from_julian_b64_pf : forall lm p x y, fin x = true -> fin y = true ->
  Rabs (B2R x) <= 2251799813685248 -> Rabs (B2R y) <= 2251799813685248 ->
  -32000 <= B2R x + B2R y <= 536802342 ->
  exists g h m (s : b64) n,
    datehms_from_julian (A := b64A lm) p x y =
      Val (Ok (MkDateHMS (A := b64A lm) g (MkHMS (A := b64A lm) h m s))) /\
    valid_civil (of_date g) /\ (0 <= h <= 24)%Z /\ (0 <= m < 60)%Z /\ 0 <= B2R s < 60 /\
    day_count mjd_epoch (of_date g) n /\
    Rabs (2400000 + / 2 + IZR n + (IZR (3600 * h + 60 * m) + B2R s) / 86400 - (B2R x + B2R y))
      <= bpow radix2 (-53) * (Rabs (Rmin (B2R x) (B2R y)) + 4).
Proof.
  intros lm p x y Hx Hy Bx By H.
  destruct (C07_from_julian_accuracy_pf lm p x y Hx Hy Bx By H) as (g & f & n & E & V & Ff & Bf & D & R).
  destruct (C15_hms_fields_pf lm f Ff Bf) as (h & m & s & E1 & H1 & H2 & _ & H3 & _).
  destruct (C16_hms_split_exact_pf lm f Ff Bf) as (h' & m' & s' & E2 & S1 & S2).
  rewrite E1 in E2. inversion E2. subst h' m' s'.
  exists g, h, m, s, n.
  split. { unfold datehms_from_julian. rewrite E. cbn [bind_ok]. rewrite E1. reflexivity. }
  split; [exact V|]. split; [exact H1|]. split; [exact H2|]. split; [exact H3|].
  split; [exact D|]. rewrite S1, S2.
  pose proof (rnd_error (86400 * B2R f) 17 ltac:(lia)) as R3.
  change (bpow radix2 17) with 131072 in R3. specialize (R3 ltac:(apply Rabs_le; lra)).
  change (bpow radix2 (17 - 53)) with (/ 68719476736) in *.
  change (bpow radix2 (-53)) with (/ 9007199254740992) in *.
  apply Rabs_le_inv in R, R3. apply Rabs_le. lra.
Qed.

(** C19, binary64: [to_julian] gives exactly 2400000.5 and, in the second part,
    the day number n plus the time of day to within 2^-53 (|n| + 3) day (under a
    microsecond for dates in the years 1600 to 2100); a leap second is allowed. *)
Lemma C19_datehms_to_julian_b64_pf : forall lm p g h m s, accepted g -> (year g <= 1465072)%Z ->
  (0 <= h < 24)%Z -> (0 <= m < 60)%Z -> fin s = true -> 0 <= B2R s < 61 ->
  exists (a b : b64) n,
    datehms_to_julian (A := b64A lm) p (MkDateHMS (A := b64A lm) g (MkHMS (A := b64A lm) h m s)) = Val (a, b) /\
    fin a = true /\ B2R a = 2400000 + / 2 /\ fin b = true /\
    day_count mjd_epoch (of_date g) n /\
    Rabs (B2R b - (IZR n + (IZR (3600 * h + 60 * m) + B2R s) / 86400)) <= bpow radix2 (-53) * (Rabs (IZR n) + 3).
Proof.
  intros lm p g h m s Hg Hy Hh Hm Fs Bs.
  destruct (C02_to_julian_exact_pf lm p g Hg Hy) as (a & b & n & E & Fa & Ea & Fb & Eb & D).
  destruct (hms_to_fraction_F lm h m s) as (tot & A1 & A2 & A3 & A4 & A5); [lia|lia|exact Fs|lra|].
  set (S := hms_seconds h m (B2R s)) in *.
  assert (BS : 0 <= S <= 86401).
  { unfold S, hms_seconds. rewrite plus_IZR, !mult_IZR.
    assert (0 <= IZR h <= 23) by (split; apply IZR_le; lia).
    assert (0 <= IZR m <= 59) by (split; apply IZR_le; lia). lra. }
  pose proof (rnd_error S 17 ltac:(lia)) as R1. change (bpow radix2 17) with 131072 in R1.
  specialize (R1 ltac:(apply Rabs_le; lra)). rewrite <- A2 in R1.
  change (bpow radix2 (17 - 53)) with (/ 68719476736) in R1. apply Rabs_le_inv in R1.
  pose proof (rnd_error (B2R tot / 86400) 1 ltac:(lia)) as R2. change (bpow radix2 1) with 2 in R2.
  specialize (R2 ltac:(apply Rabs_le; lra)). rewrite <- A5 in R2.
  change (bpow radix2 (1 - 53)) with (/ 4503599627370496) in R2. apply Rabs_le_inv in R2.
  set (fr := Fdiv tot (Flit 86400 0)) in *.
  assert (NB : (-1000000000 <= n <= 1000000000)%Z).
  { pose proof (mjd_range g Hg Hy). rewrite (day_count_fun _ n (proj1 (proj1 (accepted_spec g) Hg)) D). lia. }
  assert (NR : -1000000000 <= IZR n <= 1000000000) by (split; apply IZR_le; lia).
  destruct (Fadd_ok b fr Fb A4) as [Q1 Q2].
  { rewrite Eb. apply small_big. apply Rabs_le. lra. }
  rewrite Eb in Q1.
  exists a, (Fadd b fr), n.
  split. { unfold datehms_to_julian. cbn [date hms]. rewrite E. cbn [bind]. rewrite A3. reflexivity. }
  split; [exact Fa|]. split; [exact Ea|]. split; [exact Q2|]. split; [exact D|]. fold (hms_seconds h m (B2R s)). fold S.
  rewrite Q1. pose proof (rnd_rel (IZR n + B2R fr)) as R3.
  change (bpow radix2 (-53)) with (/ 9007199254740992).
  change (bpow radix2 (-52)) with (/ 4503599627370496) in R3.
  assert (T : bpow radix2 (-1074) <= / 1000000000000000000000).
  { apply Rle_trans with (bpow radix2 (-70)); [apply bpow_le; lia|]. change (bpow radix2 (-70)) with (/ 1180591620717411303424). lra. }
  assert (K : Rabs (IZR n + B2R fr) <= Rabs (IZR n) + 1.00002).
  { eapply Rle_trans; [apply Rabs_triang|]. apply Rplus_le_compat_l. apply Rabs_le. lra. }
  apply Rabs_le_inv in R3. apply Rabs_le. lra.
Qed.

(** C19, binary64, the round trip: the date and time that come back are within
    2^-53 (2 |n| + 9) day of those given (possibly written with other fields). *)
Lemma C19_datehms_roundtrip_b64_pf : forall lm p g h m s, accepted g ->
  ~ civil_lt (1465002, 10, 16)%Z (of_date g) ->
  (0 <= h < 24)%Z -> (0 <= m < 60)%Z -> fin s = true -> 0 <= B2R s < 60 ->
  exists (a b : b64) g' h' m' (s' : b64) n n',
    datehms_to_julian (A := b64A lm) p (MkDateHMS (A := b64A lm) g (MkHMS (A := b64A lm) h m s)) = Val (a, b) /\
    datehms_from_julian (A := b64A lm) p a b =
      Val (Ok (MkDateHMS (A := b64A lm) g' (MkHMS (A := b64A lm) h' m' s'))) /\
    day_count mjd_epoch (of_date g) n /\ day_count mjd_epoch (of_date g') n' /\
    Rabs ((IZR n' + (IZR (3600 * h' + 60 * m') + B2R s') / 86400) -
          (IZR n + (IZR (3600 * h + 60 * m) + B2R s) / 86400)) <= bpow radix2 (-53) * (2 * Rabs (IZR n) + 9).
Proof.
  intros lm p g h m s Hg Hl Hh Hm Fs Bs.
  assert (Hy : (year g <= 1465002)%Z) by (unfold civil_lt, of_date in Hl; lia).
  destruct (C19_datehms_to_julian_b64_pf lm p g h m s Hg ltac:(lia) Hh Hm Fs ltac:(lra)) as (a & b & n & E & Fa & Ea & Fb & D & R).
  set (S := IZR (3600 * h + 60 * m) + B2R s) in *.
  assert (BS : 0 <= S < 86400).
  { unfold S. rewrite plus_IZR, !mult_IZR.
    assert (0 <= IZR h <= 23) by (split; apply IZR_le; lia).
    assert (0 <= IZR m <= 59) by (split; apply IZR_le; lia). lra. }
  assert (NB : (-2432000 <= n <= 534402340)%Z).
  { assert (V := proj1 (accepted_spec g) Hg). pose proof (mjd_range g Hg ltac:(lia)) as RR.
    rewrite (day_count_fun _ n (proj1 V) D).
    assert (V1 : valid_civil (1465002, 10, 16)%Z) by (cbn; lia).
    assert (V2 : valid_civil (-4799, 1, 1)%Z) by (cbn; lia). destruct V as [V W].
    split.
    - destruct (Z.le_gt_cases (mjd (-4799, 1, 1)%Z) (mjd (of_date g))) as [L|L];
        [change (mjd (-4799, 1, 1)%Z) with (-2431739)%Z in L; lia|].
      exfalso. apply (mjd_lt_iff _ _ V V2) in L. unfold civil_lt, of_date in L. unfold of_date in V. cbn in V. lia.
    - destruct (Z.le_gt_cases (mjd (of_date g)) (mjd (1465002, 10, 16)%Z)) as [L|L];
        [change (mjd (1465002, 10, 16)%Z) with 534402340%Z in L; lia|].
      exfalso. apply Hl. apply (mjd_lt_iff _ _ V1 V). exact L. }
  assert (NR : -2432000 <= IZR n <= 534402340) by (split; apply IZR_le; lia).
  assert (NA : Rabs (IZR n) <= 534402340) by (apply Rabs_le; lra).
  change (bpow radix2 (-53)) with (/ 9007199254740992) in *.
  pose proof (Rabs_le_inv _ _ R) as R'.
  destruct (C19_datehms_from_julian_b64_pf lm p a b Fa Fb) as (g' & h' & m' & s' & n' & E' & _ & _ & _ & _ & D' & R2).
  { rewrite Ea. apply Rabs_le. lra. } { apply Rabs_le. lra. } { rewrite Ea. lra. }
  exists a, b, g', h', m', s', n, n'. split; [exact E|]. split; [exact E'|]. split; [exact D|]. split; [exact D'|].
  rewrite Ea in R2.
  assert (MB : Rabs (Rmin (2400000 + / 2) (B2R b)) <= Rabs (B2R b)).
  { unfold Rmin. destruct (Rle_dec _ _); [|apply Rle_refl]. rewrite !Rabs_pos_eq by lra. assumption. }
  assert (BB : Rabs (B2R b) <= Rabs (IZR n) + 1.5).
  { replace (B2R b) with (IZR n + (B2R b - IZR n)) by ring. eapply Rle_trans; [apply Rabs_triang|].
    apply Rplus_le_compat_l. apply Rabs_le. lra. }
  change (bpow radix2 (-53)) with (/ 9007199254740992) in *.
  apply Rabs_le_inv in R2. apply Rabs_le. lra.
Qed.

(** C19 on concrete dates: 2003-08-26 satisfies the hypotheses, and in binary64
    its noon is exactly (2400000.5, 52877.5). *)
Example C19_example_pf : accepted (MkDate 2003 8 26) /\
  ~ civil_lt (1465002, 10, 16)%Z (of_date (MkDate 2003 8 26)) /\
  forall lm, match datehms_to_julian (A := b64A lm) Debug
               (MkDateHMS (A := b64A lm) (MkDate 2003 8 26) (MkHMS (A := b64A lm) 12 0 (FofZ 0))) with
             | Val (a, b) => (B2SF a, B2SF b) = (B2SF (Flit 24000005 (-1)), B2SF (Flit 528775 (-1)))
             | Panic => False end.
Proof. split; [reflexivity|]. split; [cbn; lia|]. intros lm. vm_compute. reflexivity. Qed.

(** C20 is false: NaN is not rejected. *)
Lemma C20_fraction_rejected_refuted_pf : forall lm, exists x,
  hms_from_fraction (A := b64A lm) B754_nan = Ok x.
Proof.
  intros lm.
  assert (K : match hms_from_fraction (A := b64A lm) B754_nan with Ok _ => true | Err _ => false end = true).
  { vm_compute. reflexivity. }
  destruct (hms_from_fraction (A := b64A lm) B754_nan) as [x|]; [exists x; reflexivity|discriminate].
Qed.

(** C20, the true part: for every value that is not NaN (infinities included),
    rejected exactly when outside [0,1]. *)
Lemma C20_fraction_rejected_partial_pf : forall lm f, is_nan f = false ->
  (hms_from_fraction (A := b64A lm) f = Err BadFract <-> ~ (fin f = true /\ 0 <= B2R f <= 1)) /\
  (forall e, hms_from_fraction (A := b64A lm) f = Err e -> e = BadFract).
Proof.
  intros lm f N.
  assert (G : hms_from_fraction (A := b64A lm) f = Err BadFract <->
              orb (Bltb f (Flit 0 0)) (Bltb (Flit 1 0) f) = true).
  { unfold hms_from_fraction. b64A_ops. destruct (orb _ _); split; intros K; try reflexivity; discriminate. }
  split.
  - rewrite G. destruct lit_0 as [E0 F0]. destruct lit_1 as [E1 F1].
    destruct (fin f) eqn:Ff.
    + rewrite (Bltb_correct 53 1024 f _ Ff F0), (Bltb_correct 53 1024 _ f F1 Ff), E0, E1. clear G N F0 F1 E0 E1.
      destruct (Rlt_bool_spec (B2R f) 0), (Rlt_bool_spec 1 (B2R f)); cbn [orb];
        split; intros K; try discriminate; try reflexivity; try (intros [_ K']; lra).
      exfalso. apply K. split; [reflexivity|lra].
    + split; [intros _ [K _]; discriminate|]. intros _.
      destruct f as [s|s| |s m e B]; try discriminate. destruct s; vm_compute; reflexivity.
  - intros e. unfold hms_from_fraction. b64A_ops. destruct (orb _ _); intros K; inversion K; reflexivity.
Qed.

Example C20_example_pf : forall lm, is_nan (Flit 15 (-1)) = false /\
  hms_from_fraction (A := b64A lm) (Flit 15 (-1)) = Err BadFract.
Proof.
  intros lm. split; [vm_compute; reflexivity|].
  assert (K : match hms_from_fraction (A := b64A lm) (Flit 15 (-1)) with
              | Err BadFract => true | _ => false end = true) by (vm_compute; reflexivity).
  destruct (hms_from_fraction (A := b64A lm) (Flit 15 (-1))) as [|[]]; try discriminate. reflexivity.
Qed.
