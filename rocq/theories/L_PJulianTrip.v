(** * Proofs of the properties of the round trip through julian_tool *)

From Coq Require Import ZArith Ascii String Reals Lra Lia Bool List Permutation.
From Flocq Require Import Core BinarySingleNaN.
From Verif Require Import Outcome Arith ArithR ArithF Spec_Float M_Common M_Calendar M_Time M_Ellipsoid M_SunAngle M_Display M_Tools M_Args.
From Verif Require Import Spec_Calendar Spec_Api Spec_Display Spec_Tools Spec_Args.
From Verif Require Import L_ArithF L_FromJulianF L_Flit L_PDisplay L_Shows L_Args L_PTools L_PArgs.
From Verif Require Import L_Calendar L_PCalendar L_PTimeOfDay L_HMS L_PJulianMain.
Import ListNotations.
Open Scope string_scope.
Open Scope R_scope.

(** C105: the text printed by `gregorian` as Julian date, given to `julian`, is accepted, and the
    date and time printed are within 0.0434 s of the original ones. *)
Lemma C105_round_trip_pf : forall tie show lm p l y mo d ho mi se h m s,
  gregorian_items l y mo d ho mi se -> (1 <= y <= 9998)%Z -> valid_civil (y, mo, d) -> given ho 12%Z h -> given mi 0%Z m -> given se (Flit 0 0) s ->
  (0 <= h < 24)%Z -> (0 <= m < 60)%Z -> fin s = true -> Bsign s = false -> 0 <= B2R s < 60 ->
  exists a b js c n, julian_main tie show (lm := lm) p ("gregorian" :: words l) = Val ([a; b; "Julian date: " ++ js; c], None) /\ day_count mjd_epoch (y, mo, d) n /\
  exists js' ds f ts g n' h' m' s', julian_main tie show (lm := lm) p ["julian"; "--jd"; js] =
      Val (["Julian date: " ++ js'; "Gregorian date: " ++ ds; "Fraction of day: " ++ show f; "Time: " ++ ts], None) /\
    valid_civil (of_date g) /\ shows_date ds g /\ day_count mjd_epoch (of_date g) n' /\
    shows_clock ts h' m' s' 0 /\ (0 <= h' <= 24)%Z /\ (0 <= m' < 60)%Z /\ 0 <= s' < 60 /\
    Rabs ((86400 * IZR n' + 3600 * IZR h' + 60 * IZR m' + s') - (86400 * IZR n + 3600 * IZR h + 60 * IZR m + B2R s)) <= 0.0434.
Proof.
  intros tie show lm p l y mo d ho mi se h m s IT Hy Hv Gh Gm Gs Hh Hm Fs SG Bs.
  destruct (C79_gregorian_pf tie lm p y mo d ho mi se h m s ltac:(lia) Hv Gh Gm Gs Hh Hm Fs SG Bs) as (ds & ts & js & fs & n & E & _ & _ & DC & SJ & _).
  exists ("Gregorian date: " ++ ds), ("Time: " ++ ts), js, ("Fraction of day: " ++ fs), n. split.
  { rewrite <- E. pose proof (C104_gregorian_partial_pf tie show lm p "gregorian" l [] y mo d ho mi se (or_introl eq_refl) IT ltac:(intros w _ [])) as K. rewrite app_nil_r in K. exact K. }
  split; [exact DC|].
  destruct (julian_line _ _ _ _ _ _ _ _ _ _ _ _ _ E) as [x0 X0]. apply sapp_inj in X0. pose proof (fmt_first tie 6 x0) as NB. rewrite <- X0 in NB. clear X0 x0 E.
  destruct SJ as (b & sg & t & z & -> & AB & SGC & Z0 & DT & V).
  assert (B0 : b = "").
  { destruct b as [|c b]; [reflexivity|]. cbn [append no_blank_first] in NB. destruct AB as [-> _]. congruence. }
  subst b. cbn [append] in *. clear AB NB.
  set (T := 3600 * IZR h + 60 * IZR m + B2R s) in *.
  assert (BT : 0 <= T < 86400).
  { unfold T. assert (0 <= IZR h <= 23) by (split; apply IZR_le; lia). assert (0 <= IZR m <= 59) by (split; apply IZR_le; lia). lra. }
  assert (AC : accepted (MkDate y mo d)).
  { destruct (C01_date_new_characterised_pf y mo d) as (r & R0 & R1 & _). pose proof (proj2 R1 ltac:(split; [lia|exact Hv])) as R. subst r. exact R0. }
  assert (NB : (-678575 <= n <= 2973118)%Z).
  { rewrite (day_count_fun _ _ Hv DC). pose proof (L_ApxDat.mjd_between (MkDate y mo d) 1 9998 AC ltac:(cbn [year]; lia) ltac:(cbn [year]; lia)) as MB.
    change (mjd (1, 1, 1)%Z) with (-678575)%Z in MB. change (mjd (9998, 12, 31)%Z) with 2973118%Z in MB. unfold of_date in MB. cbn [year month day] in MB. lia. }
  assert (NR : -678575 <= IZR n <= 2973118) by (split; apply IZR_le; lia).
  set (v := IZR (sign_factor sg) * IZR z / 10 ^ 6) in *.
  assert (VB : Rabs (v - (2400000.5 + IZR n + T / 86400)) <= 0.0000005006) by (eapply Rle_trans; [exact V|lra]). apply Rabs_le_inv in VB.
  assert (V2 : 1721424 <= v <= 5373120) by lra.
  pose proof (decimal_text sg t z 5 SGC Z0 DT) as WD.
  assert (EV : (if String.eqb sg "-" then -1 else 1) * IZR z * ten_to (- Z.of_nat 6) = v).
  { change (ten_to (- Z.of_nat 6)) with (/ 1000000). unfold v. destruct SGC as [->|[->| ->]]; cbn [String.eqb Ascii.eqb Bool.eqb];
      [change (sign_factor "") with 1%Z|change (sign_factor "+") with 1%Z|change (sign_factor "-") with (-1)%Z]; lra. }
  set (X := if String.eqb sg "-" then Bopp (Flit z (- Z.of_nat 6)) else Flit z (- Z.of_nat 6)).
  assert (NX : nearest_to (String.eqb sg "-") z (- Z.of_nat 6) X) by (unfold X; destruct (String.eqb sg "-"); [apply nearest_opp|]; apply Flit_nearest; exact Z0).
  assert (RX : reads_f64 (sg ++ t) X) by (left; exists (String.eqb sg "-"), z, (- Z.of_nat 6)%Z; split; [exact WD|exact NX]).
  assert (RE : Rabs (rnd v - v) <= / 2 * bpow radix2 (23 - 53)).
  { apply rnd_error; [lia|]. change (bpow radix2 23) with 8388608. apply Rabs_le. lra. }
  change (bpow radix2 (23 - 53)) with (/ 1073741824) in RE. apply Rabs_le_inv in RE.
  assert (FX : fin X = true /\ B2R X = rnd v).
  { destruct NX as [_ NX]. rewrite EV in NX. destruct NX as [(_ & F & B)|(L & _)]; [split; assumption|]. exfalso.
    assert (Rabs (rnd v) < bpow radix2 1024); [|lra]. apply Rle_lt_trans with (bpow radix2 23); [|apply bpow_lt; lia]. change (bpow radix2 23) with 8388608. apply Rabs_le. lra. }
  destruct FX as [FX BX]. clearbody X v. clear V NX EV WD.
  assert (IJ : julian_items [Opt "--jd" (sg ++ t)] X None).
  { split; [constructor; [intros []|constructor]|]. split; [intros i [<-|[]]; left; reflexivity|]. split; [exists (sg ++ t); split; [left; reflexivity|exact RX]|].
    intros [K|[]]. discriminate K. }
  pose proof (C104_julian_pf tie show lm p "julian" _ X None (or_introl eq_refl) IJ) as RUN. cbn [words map concat words_of app] in RUN.
  assert (F0 : B2R (Flit 0 0) = 0 /\ fin (Flit 0 0) = true) by (destruct lit_0; split; assumption). destruct F0 as [B0 F0].
  assert (M0 : Rmin (B2R X) (B2R (Flit 0 0)) = 0) by (rewrite BX, B0; apply Rmin_right; lra).
  destruct (C80_julian_partial_pf tie show lm p X (Flit 0 0) None ltac:(right; split; reflexivity) FX F0) as (js' & ds' & ts' & g & f & n' & h' & m' & s' & E & _ & VG & SD & DC' & Ff & Bf & I1 & SC & H1 & H2 & H3 & I2).
  - rewrite BX. apply Rabs_le. lra.
  - rewrite B0, Rabs_R0. lra.
  - rewrite BX, B0. lra.
  - rewrite M0, Rabs_R0, BX, B0 in I1. change (bpow radix2 (-53)) with (/ 9007199254740992) in I1. apply Rabs_le_inv in I1. apply Rabs_le_inv in I2.
    exists js', ds', f, ts', g, n', h', m', s'. rewrite RUN. split; [exact E|]. split; [exact VG|]. split; [exact SD|]. split; [exact DC'|]. split; [exact SC|]. split; [exact H1|]. split; [exact H2|]. split; [exact H3|].
    set (T' := 3600 * IZR h' + 60 * IZR m' + s') in *.
    replace (86400 * IZR n' + 3600 * IZR h' + 60 * IZR m' + s' - (86400 * IZR n + 3600 * IZR h + 60 * IZR m + B2R s)) with (86400 * ((IZR n' + T' / 86400) - (IZR n + T / 86400))) by (unfold T', T; field).
    clearbody T' T. apply Rabs_le. lra.
Qed.

(** C105 on 2000-01-01 18:00:30.25: the Julian date printed, given back, is 10 ms earlier. *)
Example C105_example_pf : forall tie show lm p,
  julian_main tie show (lm := lm) p ["gregorian"; "--year"; "2000"; "--month"; "1"; "--day"; "1"; "--hour"; "18"; "--second"; "30.25"] =
  Val (["Gregorian date: 2000-01-01"; "Time: 18:00:30.250000"; "Julian date: 2451545.250350"; "Fraction of day: 0.750350"], None) /\
  exists f, julian_main tie show (lm := lm) p ["julian"; "--jd"; "2451545.250350"] =
  Val (["Julian date: 2451545.25034999987110"; "Gregorian date: 2000-01-01"; "Fraction of day: " ++ show f; "Time: 18:00:30.239989"], None).
Proof.
  intros tie show lm p. split; [destruct p; vm_compute; reflexivity|]. exists (Fof 6758551959633920 (-53)).
  assert (PX : parse_f64 "2451545.250350" = Some (Fof 5264653337458691 (-31))).
  { apply sf_inj. vm_compute. reflexivity. }
  assert (M : julian_main tie show (lm := lm) p ["julian"; "--jd"; "2451545.250350"] = tool_julian tie show (lm := lm) p (Some (Fof 5264653337458691 (-31))) None false).
  { assert (J : julian_arguments ["--jd"; "2451545.250350"] = Some ((Fof 5264653337458691 (-31), None), [])).
    { unfold julian_arguments, pbind, value. cbn [opt_value]. change (String.eqb "--jd" "--jd") with true. cbv beta iota. rewrite PX. reflexivity. }
    change (julian_main tie show (lm := lm) p ["julian"; "--jd"; "2451545.250350"]) with
      (match julian_arguments ["--jd"; "2451545.250350"] with None => Val ([], Some BadArguments) | Some ((jd, jd2), r) => tool_julian tie show (lm := lm) p (Some jd) jd2 (left_over r) end).
    rewrite J. reflexivity. }
  rewrite M. clear M PX.
  refine (eq_trans (julian_run tie show lm p (Fof 5264653337458691 (-31)) None (MkDate 2000 1 1) (Fof 6758551959633920 (-53)) 18%Z 0%Z (Fof 8511800161075200 (-48)) _ _) _).
  - destruct p; vm_compute; reflexivity.
  - vm_compute; reflexivity.
  - assert (T : display_hms tie (MkHMS (A := b64A lm) 18 0 (Fof 8511800161075200 (-48))) = "18:00:30.239989") by (vm_compute; reflexivity).
    assert (J : fmt_float tie false 18 14 (Fadd (Fof 5264653337458691 (-31)) (opt None (Flit 0 0))) = "2451545.25034999987110") by (vm_compute; reflexivity).
    rewrite T, J. reflexivity.
Qed.
