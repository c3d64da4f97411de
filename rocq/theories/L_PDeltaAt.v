(** * Proofs of the TAI-UTC properties C21-C24 *)

From Coq Require Import ZArith Reals Lra Lia Bool List.
From Flocq Require Import Core BinarySingleNaN.
From Verif Require Import Outcome Arith ArithR ArithF Spec_Float M_Calendar M_DeltaAt Spec_Calendar Spec_Api Spec_TaiUtc.
From Verif Require Import L_Calendar L_ArithR L_ArithF L_Flit L_FromJulianF L_PCalendar L_DeltaAt.
Import ListNotations.
Open Scope R_scope.

Lemma accepted_month : forall g, accepted g -> (1 <= month g <= 12 /\ 1 <= day g <= 31 /\ -4799 <= year g)%Z.
Proof.
  intros g H. apply accepted_spec in H. destruct (date_ok_range g H) as (A & B & _).
  destruct H as [_ H]. lia.
Qed.

Lemma started_key : forall e y m d, In e DAT_DATA -> (1 <= m <= 12)%Z -> (1 <= d)%Z ->
  (started (step_of e) (y, m, d) <-> (key e <= 12 * y + m)%Z).
Proof.
  intros e y m d I Hm Hd. pose proof (entry_facts e I) as E. unfold entry_ok in E.
  rewrite !andb_true_iff in E. destruct E as [[[[E1 E2] E3] E4] _].
  apply Z.leb_le in E2, E3, E4.
  assert (S : s_year (step_of e) = d_year e /\ s_month (step_of e) = d_month e).
  { unfold step_of. destruct (d_drift e) as [[o r]|]; split; reflexivity. }
  destruct S as [S1 S2]. unfold started, civil_lt. rewrite S1, S2. unfold key. lia.
Qed.

Lemma step_of_In : forall e, In e DAT_DATA -> In (step_of e) steps.
Proof. intros e I. rewrite <- table_is_spec. apply in_map, I. Qed.

Lemma In_steps : forall s, In s steps -> exists e, s = step_of e /\ In e DAT_DATA.
Proof.
  intros s I. rewrite <- table_is_spec in I. apply in_map_iff in I.
  destruct I as (e & E & I). exists e. auto.
Qed.

Lemma step_key : forall e, In e DAT_DATA ->
  (12 * s_year (step_of e) + s_month (step_of e))%Z = key e /\ (1 <= s_month (step_of e) <= 12)%Z.
Proof.
  intros e I. pose proof (entry_facts e I) as E. unfold entry_ok in E.
  rewrite !andb_true_iff in E. destruct E as [[[[E1 E2] E3] E4] _].
  apply Z.leb_le in E2, E3, E4. unfold step_of, key. destruct (d_drift e) as [[o r]|]; cbn; lia.
Qed.

(** In force in a month, in terms of month numbers. *)
Lemma in_force_key : forall e y m d, In e DAT_DATA -> (1 <= m <= 12)%Z -> (1 <= d)%Z ->
  (in_force (step_of e) (y, m, d) <->
   (key e <= 12 * y + m)%Z /\ forall e', In e' DAT_DATA -> (key e' <= 12 * y + m)%Z -> (key e' <= key e)%Z).
Proof.
  intros e y m d I Hm Hd. unfold in_force. rewrite (started_key e y m d I Hm Hd).
  destruct (step_key e I) as [K1 K2].
  split.
  - intros (_ & H1 & H2). split; [exact H1|]. intros e' I' K'.
    specialize (H2 (step_of e') (step_of_In e' I')). rewrite (started_key e' y m d I' Hm Hd) in H2.
    specialize (H2 K'). rewrite (started_key e' _ _ 1%Z I' K2) in H2 by lia. lia.
  - intros (H1 & H2). split; [apply step_of_In, I|]. split; [exact H1|].
    intros s' I' St. destruct (In_steps s' I') as (e' & -> & I'').
    rewrite (started_key e' y m d I'' Hm Hd) in St.
    rewrite (started_key e' _ _ 1%Z I'' K2) by lia. specialize (H2 e' I'' St). lia.
Qed.

Lemma selected_force : forall g e, accepted g -> (1960 <= year g)%Z -> selected g e ->
  (mkey g = 23521%Z -> in_force (step_of e) (of_date g)) /\
  (mkey g <> 23521%Z -> in_force (step_of e) (month_before (of_date g))).
Proof.
  intros g e Hg Hy [I S]. destruct (accepted_month g Hg) as (A & B & _).
  assert (M : (23521 <= mkey g)%Z) by (unfold mkey; lia).
  split; intros K.
  - unfold of_date. apply in_force_key; [exact I|lia|lia|]. fold (mkey g).
    pose proof (first_key e I).
    destruct S as [[S1 S2]|[S1 S2]]; [lia|]. split; [lia|]. intros e' I' L. lia.
  - destruct S as [[S1 S2]|[S1 S2]]; [|lia].
    unfold month_before, of_date. destruct (Z.eqb_spec (month g) 1) as [E|E].
    + apply in_force_key; [exact I|lia|lia|]. unfold mkey in *.
      split; [lia|]. intros e' I' L. apply S2; [exact I'|lia].
    + apply in_force_key; [exact I|lia|lia|]. unfold mkey in *.
      split; [lia|]. intros e' I' L. apply S2; [exact I'|lia].
Qed.

(** The value computed in exact arithmetic. *)
Lemma delta_at_R : forall p g fd, accepted g -> (1960 <= year g < 178956970)%Z -> 0 <= fd <= 1 ->
  exists e, selected g e /\
    delta_at (A := realA) p g fd = Val (Ok (Some (tai_utc (step_of e) (mjd (of_date g)) fd))).
Proof.
  intros p g fd Hg Hy Hf. destruct (accepted_month g Hg) as (Hm & _).
  destruct (delta_at_eval realA p g fd) as (e & S & E); [|exact Hy|exact Hm|].
  { realA_ops. rlit_in_goal. rewrite !Rlt_bool_false by lra. reflexivity. }
  exists e. split; [exact S|]. rewrite E. clear E.
  pose proof (entry_facts e (proj1 S)) as T. unfold entry_ok in T.
  rewrite !andb_true_iff in T. destruct T as [[[[[T1 T1'] _] _] _] T2].
  apply Z.leb_le in T1, T1'.
  unfold step_of, tai_utc. destruct (d_drift e) as [[o r]|] eqn:D.
  - rewrite !andb_true_iff in T2. destruct T2 as [[_ T3] [T4 T5]].
    apply Z.eqb_eq in T3. apply Z.leb_le in T4, T5.
    pose proof (selected_drift g e S ltac:(congruence)) as L.
    rewrite to_mjd_accepted; [|exact Hg|unfold mkey in L; lia]. cbn [bind]. do 3 f_equal.
    cbn [realA lit of_int add sub mul s_offset s_origin s_rate num].
    rewrite (Rlit_dec7 (d_dat e)), (Rlit_dec7 r), (Rlit_dec7 o) by lia.
    assert (O : dec7 o = (dec7 o / 10000000 * 10000000)%Z).
    { unfold dec7. rewrite T3. change (10 ^ (7 + 0))%Z with 10000000%Z. rewrite Z.div_mul by lia. reflexivity. }
    rewrite O at 1. rewrite mult_IZR. field.
  - do 3 f_equal. cbn [realA lit num s_offset s_origin s_rate].
    rewrite (Rlit_dec7 (d_dat e)) by lia. lra.
Qed.

(** C21 is false: on 2017-01-15 TAI-UTC is 37 s, the code returns 36 s. *)
Lemma C21_delta_at_in_force_refuted_pf : forall p, exists s n,
  accepted (MkDate 2017 1 15) /\ in_force s (2017, 1, 15)%Z /\
  day_count mjd_epoch (2017, 1, 15)%Z n /\ tai_utc s n 0 = 37 /\
  delta_at (A := realA) p (MkDate 2017 1 15) 0 = Val (Ok (Some 36)).
Proof.
  intros p. exists (MkStep 2017 1 370000000 0 0), (mjd (2017, 1, 15)%Z).
  split; [reflexivity|]. split.
  { change (MkStep 2017 1 370000000 0 0) with (step_of (MkDat 2017 1 (37, 0)%Z None)).
    assert (I : In (MkDat 2017 1 (37, 0)%Z None) DAT_DATA) by (cbn; tauto).
    apply in_force_key; [exact I|lia|lia|].
    split; [cbn; lia|]. intros e' I' K'. exact K'. }
  split; [apply mjd_epoch_count; cbn; lia|].
  split; [unfold tai_utc; cbn [s_offset s_origin s_rate]; lra|].
  unfold delta_at. realA_ops. rlit_in_goal. rewrite !Rlt_bool_false by lra. cbn [orb].
  change (index DAT_DATA 0) with (Val (MkDat 1960 1 (1417818, (-6)) (Some ((37300, 0), (1296, (-6)))))%Z).
  cbn [bind d_year year month]. change (2017 <? 1960)%Z with false. cbv iota.
  change (i32_mul p 12 2017) with (Val 24204%Z). cbn [bind]. change (i32_add p 24204 1) with (Val 24205%Z). cbn [bind].
  replace (rposition (fun e : DatData => (12 * d_year e + d_month e <? 24205)%Z) DAT_DATA) with (Some 40%nat)
    by (vm_compute; reflexivity).
  replace (index DAT_DATA 40) with (Val (MkDat 2015 7 (36, 0)%Z None)) by reflexivity.
  cbn [bind d_drift d_dat fst snd]. unfold Rlit. do 3 f_equal.
Qed.

(** What the code computes (exact arithmetic): the formula of the step that was
    in force one month earlier, except in January 1960. *)
Lemma C21_delta_at_month_late_partial_pf : forall p g fd, accepted g ->
  (1960 <= year g < 178956970)%Z -> 0 <= fd <= 1 ->
  exists s n, day_count mjd_epoch (of_date g) n /\
    delta_at (A := realA) p g fd = Val (Ok (Some (tai_utc s n fd))) /\
    (if (12 * year g + month g =? 12 * 1960 + 1)%Z then in_force s (of_date g)
     else in_force s (month_before (of_date g))).
Proof.
  intros p g fd Hg Hy Hf. destruct (delta_at_R p g fd Hg Hy Hf) as (e & S & E).
  exists (step_of e), (mjd (of_date g)).
  split; [apply mjd_epoch_count; apply accepted_spec in Hg; apply Hg|].
  split; [exact E|].
  destruct (selected_force g e Hg (proj1 Hy) S) as [F1 F2]. unfold mkey in *.
  destruct (Z.eqb_spec (12 * year g + month g) (12 * 1960 + 1)) as [K|K]; [apply F1|apply F2]; lia.
Qed.

(** C21, the true part (exact arithmetic): in a month in which no step takes
    effect, the value returned is the one in force. *)
Lemma C21_delta_at_in_force_partial_pf : forall p g fd, accepted g ->
  (1960 <= year g < 178956970)%Z -> 0 <= fd <= 1 ->
  (forall s, In s steps -> (s_year s, s_month s) = (year g, month g) -> (s_year s, s_month s) = (1960, 1)%Z) ->
  exists s n, in_force s (of_date g) /\ day_count mjd_epoch (of_date g) n /\
    delta_at (A := realA) p g fd = Val (Ok (Some (tai_utc s n fd))).
Proof.
  intros p g fd Hg Hy Hf N. destruct (delta_at_R p g fd Hg Hy Hf) as (e & S & E).
  exists (step_of e), (mjd (of_date g)).
  destruct (accepted_month g Hg) as (A & B & _).
  split; [|split; [apply mjd_epoch_count; apply accepted_spec in Hg; apply Hg|exact E]].
  destruct (selected_force g e Hg (proj1 Hy) S) as [F1 _].
  destruct (Z.eq_dec (mkey g) 23521) as [K|K]; [apply F1, K|].
  destruct S as [I [[S1 S2]|[S1 S2]]]; [|unfold mkey in *; lia].
  unfold of_date. apply in_force_key; [exact I|lia|lia|]. unfold mkey in *.
  split; [lia|]. intros e' I' L. destruct (Z.eq_dec (key e') (12 * year g + month g)) as [Q|Q].
  - exfalso. destruct (step_key e' I') as [K1 K2].
    specialize (N (step_of e') (step_of_In e' I')).
    assert (P : (s_year (step_of e') = year g /\ s_month (step_of e') = month g)%Z) by lia.
    destruct P as [P1 P2]. rewrite P1, P2 in N. specialize (N eq_refl). inversion N. lia.
  - apply S2; [exact I'|lia].
Qed.

(** The step in force is unique, so C21 determines the value. *)
Lemma C21_in_force_unique_pf : forall s s' c, valid_civil c -> in_force s c -> in_force s' c -> s = s'.
Proof.
  intros s s' [[y m] d] [Hm Hd] H H'.
  destruct (In_steps s (proj1 H)) as (e & -> & I). destruct (In_steps s' (proj1 H')) as (e' & -> & I').
  apply in_force_key in H; [|exact I|lia|lia]. apply in_force_key in H'; [|exact I'|lia|lia].
  destruct H as [H1 H2]. destruct H' as [H1' H2'].
  assert (K : key e = key e') by (specialize (H2 e' I' H1'); specialize (H2' e I H1); lia).
  f_equal. clear - K I I'. revert e e' I I' K.
  assert (G : forall l, sortedb l = true -> forall e e', In e l -> In e' l -> key e = key e' -> e = e').
  { induction l as [|a l IH]; intros S e e' I I' K; [contradiction|].
    cbn [sortedb] in S. apply andb_true_iff in S. destruct S as [S1 S2]. rewrite forallb_forall in S1.
    destruct I as [->|I], I' as [->|I']; try reflexivity.
    - specialize (S1 e' I'). apply Z.ltb_lt in S1. lia.
    - specialize (S1 e I). apply Z.ltb_lt in S1. lia.
    - apply IH; assumption. }
  intros e e'. apply (G DAT_DATA table_sorted).
Qed.

(** 37 s from February 2017, 36 s at the end of 2016, and a value of the drifting years. *)
Example C21_example_pf : forall lm p,
  let show g := match delta_at (A := b64A lm) p g (FofZ 0) with Val (Ok (Some x)) => Some (B2SF x) | _ => None end in
  show (MkDate 2017 2 1) = Some (B2SF (FofZ 37)) /\ show (MkDate 2016 12 31) = Some (B2SF (FofZ 36)) /\ show (MkDate 1968 3 1) = Some (B2SF (Flit 626085 (-5))).
Proof. intros lm p. destruct p; split; [vm_compute; reflexivity|split; vm_compute; reflexivity|vm_compute; reflexivity|split; vm_compute; reflexivity]. Qed.

(** C22 is false: a NaN fraction is not rejected. *)
Lemma C22_delta_at_errors_refuted_pf : forall lm p, exists x : b64,
  delta_at (A := b64A lm) p (MkDate 2020 5 1) B754_nan = Val (Ok (Some x)).
Proof.
  intros lm p. destruct (delta_at_eval (b64A lm) p (MkDate 2020 5 1) B754_nan) as (e & S & E).
  - vm_compute. reflexivity.
  - cbn. lia.
  - cbn. lia.
  - rewrite E. destruct (d_drift e) eqn:D; [|eexists; reflexivity].
    pose proof (selected_drift _ e S ltac:(congruence)) as L. unfold mkey in L. cbn in L. lia.
Qed.

(** C22, the true part: for every binary64 fraction that is not NaN. *)
Lemma C22_delta_at_errors_partial_pf : forall lm p g fd, accepted g -> (year g < 178956970)%Z ->
  is_nan fd = false ->
  exists r, delta_at (A := b64A lm) p g fd = Val r /\
    (r = Err DatBadFract <-> ~ (fin fd = true /\ 0 <= B2R fd <= 1)) /\
    (r = Ok None <-> (fin fd = true /\ 0 <= B2R fd <= 1) /\ (year g < 1960)%Z) /\
    ((exists x, r = Ok (Some x)) <-> (fin fd = true /\ 0 <= B2R fd <= 1) /\ (1960 <= year g)%Z).
Proof.
  intros lm p g fd Hg Hy N. destruct (accepted_month g Hg) as (Hm & _).
  assert (T : (Bltb fd (Flit 0 0)) || (Bltb (Flit 1 0) fd) = true <-> ~ (fin fd = true /\ 0 <= B2R fd <= 1)).
  { destruct lit_0 as [E0 F0]. destruct lit_1 as [E1 F1].
    destruct (fin fd) eqn:Ff.
    + rewrite (Bltb_correct 53 1024 fd _ Ff F0), (Bltb_correct 53 1024 _ fd F1 Ff), E0, E1. clear N F0 F1 E0 E1.
      destruct (Rlt_bool_spec (B2R fd) 0), (Rlt_bool_spec 1 (B2R fd)); cbn [orb];
        split; intros K; try discriminate; try reflexivity; try (intros [_ K']; lra).
      exfalso. apply K. split; [reflexivity|lra].
    + split; [intros _ [K _]; discriminate|]. intros _.
      destruct fd as [s|s| |s m e B]; try discriminate. destruct s; vm_compute; reflexivity. }
  destruct ((Bltb fd (Flit 0 0)) || (Bltb (Flit 1 0) fd)) eqn:B.
  - exists (Err DatBadFract). split.
    { unfold delta_at. cbn [b64A ltb lit num]. rewrite B. reflexivity. }
    assert (NT : ~ (fin fd = true /\ 0 <= B2R fd <= 1)) by (apply T; reflexivity).
    split; [tauto|]. split; [split; [discriminate|tauto]|]. split; [intros [x X]; discriminate|tauto].
  - assert (NT : fin fd = true /\ 0 <= B2R fd <= 1).
    { destruct (fin fd) eqn:Ff.
      - destruct (Rlt_le_dec (B2R fd) 0) as [L|L].
        { assert (K : false = true); [|discriminate]. apply T. intros [_ K]. lra. }
        destruct (Rlt_le_dec 1 (B2R fd)) as [L'|L'].
        { assert (K : false = true); [|discriminate]. apply T. intros [_ K]. lra. }
        split; [reflexivity|lra].
      - assert (K : false = true); [|discriminate]. apply T. intros [K _]. discriminate. }
    destruct (Z.lt_ge_cases (year g) 1960) as [L|L].
    + exists (Ok None). split.
      { unfold delta_at. cbn [b64A ltb lit num]. rewrite B.
        change (index DAT_DATA 0) with (Val (MkDat 1960 1 (1417818, (-6)) (Some ((37300, 0), (1296, (-6)))))%Z).
        cbn [bind d_year]. rewrite (proj2 (Z.ltb_lt _ _) L). reflexivity. }
      split; [split; [discriminate|tauto]|]. split; [tauto|]. split; [intros [x X]; discriminate|lia].
    + destruct (delta_at_eval (b64A lm) p g fd) as (e & S & E); [exact B|lia|exact Hm|].
      assert (X : exists x, delta_at (A := b64A lm) p g fd = Val (Ok (Some x))).
      { rewrite E. destruct (d_drift e) as [[o r]|] eqn:D; [|eexists; reflexivity].
        pose proof (selected_drift g e S ltac:(congruence)) as L'.
        rewrite to_mjd_accepted; [|exact Hg|unfold mkey in L'; lia]. eexists. reflexivity. }
      destruct X as [x X]. exists (Ok (Some x)). split; [exact X|].
      split; [split; [discriminate|tauto]|]. split; [split; [discriminate|lia]|].
      split; [intros _; split; [exact NT|exact L]|]. intros _. exists x. reflexivity.
Qed.

(** A date before the table, fractions outside the day, and the end of the day. *)
Example C22_example_pf : forall lm p,
  delta_at (A := b64A lm) p (MkDate 1959 12 31) (Flit 5 (-1)) = Val (Ok None) /\
  delta_at (A := b64A lm) p (MkDate 2020 5 1) (Flit (-1) (-1)) = Val (Err DatBadFract) /\
  delta_at (A := b64A lm) p (MkDate 2020 5 1) (Flit 11 (-1)) = Val (Err DatBadFract) /\
  match delta_at (A := b64A lm) p (MkDate 2020 5 1) (FofZ 1) with Val (Ok (Some x)) => B2SF x = B2SF (FofZ 37) | _ => False end.
Proof. intros lm p. destruct p; (split; [vm_compute; reflexivity|]; split; [vm_compute; reflexivity|]; split; vm_compute; reflexivity). Qed.

(** C23, from February 1972 (binary64, both profiles, any fraction that is not
    rejected): a whole number of seconds that depends only on the month and
    does not decrease as the month advances. *)
Lemma C23_delta_at_steps_pf : forall lm p g g' fd fd', accepted g -> accepted g' ->
  (12 * 1972 + 2 <= 12 * year g + month g)%Z -> (year g < 178956970)%Z ->
  (12 * year g + month g <= 12 * year g' + month g')%Z -> (year g' < 178956970)%Z ->
  fin fd = true -> 0 <= B2R fd <= 1 -> fin fd' = true -> 0 <= B2R fd' <= 1 ->
  exists (x x' : b64) (k k' : Z),
    delta_at (A := b64A lm) p g fd = Val (Ok (Some x)) /\
    delta_at (A := b64A lm) p g' fd' = Val (Ok (Some x')) /\
    fin x = true /\ B2R x = IZR k /\ fin x' = true /\ B2R x' = IZR k' /\
    (10 <= k <= k')%Z /\
    ((12 * year g + month g = 12 * year g' + month g')%Z -> x = x').
Proof.
  assert (G : forall lm p g (fd : b64), accepted g ->
    (12 * 1972 + 2 <= 12 * year g + month g)%Z -> (year g < 178956970)%Z ->
    fin fd = true -> 0 <= B2R fd <= 1 ->
    exists e, selected g e /\ d_drift e = None /\ snd (d_dat e) = 0%Z /\ (0 < fst (d_dat e) < 1000)%Z /\
      delta_at (A := b64A lm) p g fd = Val (Ok (Some (Flit (fst (d_dat e)) 0)))).
  { intros lm p g fd Hg Hk Hy Ff Bf. destruct (accepted_month g Hg) as (Hm & _).
    destruct (delta_at_eval (b64A lm) p g fd) as (e & S & E); [|lia|exact Hm|].
    { cbn [b64A ltb lit num]. destruct lit_0 as [E0 F0]. destruct lit_1 as [E1 F1].
      rewrite (Bltb_correct 53 1024 fd _ Ff F0), (Bltb_correct 53 1024 _ fd F1 Ff), E0, E1.
      rewrite !Rlt_bool_false by lra. reflexivity. }
    exists e. split; [exact S|].
    assert (D : d_drift e = None).
    { destruct (d_drift e) eqn:D; [|reflexivity].
      pose proof (selected_drift g e S ltac:(congruence)) as L'. unfold mkey in L'. lia. }
    rewrite D in E. pose proof (entry_facts e (proj1 S)) as T. unfold entry_ok in T. rewrite D in T.
    rewrite !andb_true_iff in T. destruct T as [_ [[[_ T1] T2] T3]].
    apply Z.eqb_eq in T1. apply Z.ltb_lt in T2, T3. rewrite T1 in E.
    split; [exact D|]. split; [exact T1|]. split; [lia|exact E]. }
  intros lm p g g' fd fd' Hg Hg' Hk Hy Hk' Hy' Ff Bf Ff' Bf'.
  destruct (G lm p g fd Hg Hk Hy Ff Bf) as (e & S & D & T1 & T2 & E).
  destruct (G lm p g' fd' Hg' ltac:(lia) Hy' Ff' Bf') as (e' & S' & D' & T1' & T2' & E').
  destruct (Flit_int (fst (d_dat e))) as [V1 V2]; [lia|].
  destruct (Flit_int (fst (d_dat e'))) as [V1' V2']; [lia|].
  exists (Flit (fst (d_dat e)) 0), (Flit (fst (d_dat e')) 0), (fst (d_dat e)), (fst (d_dat e')).
  split; [exact E|]. split; [exact E'|]. split; [exact V2|]. split; [exact V1|].
  split; [exact V2'|]. split; [exact V1'|].
  (* the selected months are ordered, and the table is increasing *)
  assert (KK : (key e <= key e')%Z).
  { destruct S as [I [[S1 S2]|[S1 S2]]]; [|unfold mkey in *; lia].
    destruct S' as [I' [[S1' S2']|[S1' S2']]]; [|unfold mkey in *; lia].
    apply S2'; [exact I|unfold mkey in *; lia]. }
  assert (Tab : forallb (fun a => match d_drift a with Some _ => true | None =>
      (10 <=? fst (d_dat a))%Z &&
      forallb (fun b => match d_drift b with Some _ => true | None =>
        implb (key a <=? key b)%Z (fst (d_dat a) <=? fst (d_dat b))%Z end) DAT_DATA end) DAT_DATA = true)
    by (vm_compute; reflexivity).
  rewrite forallb_forall in Tab. specialize (Tab e (proj1 S)). rewrite D in Tab.
  apply andb_true_iff in Tab. destruct Tab as [Tb Ta]. apply Z.leb_le in Tb.
  rewrite forallb_forall in Ta. specialize (Ta e' (proj1 S')). rewrite D' in Ta.
  rewrite (proj2 (Z.leb_le _ _) KK) in Ta. cbn [implb] in Ta. apply Z.leb_le in Ta.
  split; [lia|]. intros Q.
  assert (KK' : key e = key e').
  { destruct S as [I [[S1 S2]|[S1 S2]]]; [|unfold mkey in *; lia].
    destruct S' as [I' [[S1' S2']|[S1' S2']]]; [|unfold mkey in *; lia].
    apply Z.le_antisymm; [exact KK|]. apply S2; [exact I'|unfold mkey in *; lia]. }
  destruct (step_key e (proj1 S)) as [Q1 Q2]. destruct (step_key e' (proj1 S')) as [Q1' Q2'].
  assert (Tab2 : forallb (fun a => forallb (fun b => implb (key a =? key b)%Z
      (fst (d_dat a) =? fst (d_dat b))%Z) DAT_DATA) DAT_DATA = true) by (vm_compute; reflexivity).
  rewrite forallb_forall in Tab2. specialize (Tab2 e (proj1 S)).
  rewrite forallb_forall in Tab2. specialize (Tab2 e' (proj1 S')).
  rewrite (proj2 (Z.eqb_eq _ _) KK') in Tab2. cbn [implb] in Tab2. apply Z.eqb_eq in Tab2.
  rewrite Tab2. reflexivity.
Qed.

(** C23, before February 1972 (exact arithmetic): between two instants for which
    the code uses the same step, the difference is the tabulated rate times the
    difference of MJD + fraction.  (Which step is used: C21.) *)
Lemma C23_delta_at_affine_pf : forall p g g' fd fd', accepted g -> accepted g' ->
  (1960 <= year g < 178956970)%Z -> (1960 <= year g' < 178956970)%Z -> 0 <= fd <= 1 -> 0 <= fd' <= 1 ->
  (forall s, In s steps -> started s (month_before (of_date g)) <-> started s (month_before (of_date g'))) ->
  exists s n n' x x', In s steps /\
    day_count mjd_epoch (of_date g) n /\ day_count mjd_epoch (of_date g') n' /\
    delta_at (A := realA) p g fd = Val (Ok (Some x)) /\
    delta_at (A := realA) p g' fd' = Val (Ok (Some x')) /\
    x' - x = (IZR (s_rate s) / 10000000) * ((IZR n' + fd') - (IZR n + fd)).
Proof.
  intros p g g' fd fd' Hg Hg' Hy Hy' Hf Hf' HS.
  destruct (delta_at_R p g fd Hg Hy Hf) as (e & S & E).
  destruct (delta_at_R p g' fd' Hg' Hy' Hf') as (e' & S' & E').
  destruct (accepted_month g Hg) as (Hm & _). destruct (accepted_month g' Hg') as (Hm' & _).
  assert (MB : forall h a, accepted h -> In a DAT_DATA ->
    (started (step_of a) (month_before (of_date h)) <-> (key a < mkey h)%Z)).
  { intros h a Hh Ia. destruct (accepted_month h Hh) as (Hmh & _). unfold month_before, of_date, mkey.
    destruct (Z.eqb_spec (month h) 1) as [Q|Q];
    (rewrite started_key; [|exact Ia|lia|lia]); lia. }
  assert (EE : step_of e = step_of e').
  { destruct (Z.eq_dec (key e) (key e')) as [K|K].
    - apply (C21_in_force_unique_pf _ _ (s_year (step_of e), s_month (step_of e), 1%Z)).
      + destruct (step_key e (proj1 S)). split; [lia|]. pose proof (month_length_bounds (s_year (step_of e)) (s_month (step_of e))). lia.
      + destruct (step_key e (proj1 S)) as [Q1 Q2]. apply in_force_key; [apply S|lia|lia|]. split; [lia|]. intros; lia.
      + destruct (step_key e (proj1 S)) as [Q1 Q2]. apply in_force_key; [apply S'|lia|lia|]. split; [lia|]. intros; lia.
    - exfalso. apply K.
      pose proof (first_key e (proj1 S)). pose proof (first_key e' (proj1 S')).
      pose proof (MB g e Hg (proj1 S)) as P1. pose proof (MB g' e Hg' (proj1 S)) as P2.
      pose proof (MB g e' Hg (proj1 S')) as P3. pose proof (MB g' e' Hg' (proj1 S')) as P4.
      pose proof (HS _ (step_of_In e (proj1 S))) as H1. pose proof (HS _ (step_of_In e' (proj1 S'))) as H2.
      rewrite P1, P2 in H1. rewrite P3, P4 in H2.
      destruct S as [I [[S1 S2]|[S1 S2]]]; destruct S' as [I' [[S1' S2']|[S1' S2']]].
      + apply Z.le_antisymm; [apply S2'; [exact I|tauto]|apply S2; [exact I'|tauto]].
      + assert (key e < mkey g')%Z by tauto. lia.
      + assert (key e' < mkey g)%Z by tauto. lia.
      + lia. }
  exists (step_of e), (mjd (of_date g)), (mjd (of_date g')), (tai_utc (step_of e) (mjd (of_date g)) fd),
    (tai_utc (step_of e) (mjd (of_date g')) fd').
  split; [apply step_of_In, S|].
  split; [apply mjd_epoch_count; apply accepted_spec in Hg; apply Hg|].
  split; [apply mjd_epoch_count; apply accepted_spec in Hg'; apply Hg'|].
  split; [exact E|]. split; [rewrite EE; exact E'|]. unfold tai_utc. field.
Qed.

(** Two values on the same drift (729 - 31 days apart at 0.002592 s a day) and two steps. *)
Example C23_example_pf : forall lm p,
  let show g := match delta_at (A := b64A lm) p g (FofZ 0) with Val (Ok (Some x)) => Some (B2SF x) | _ => None end in
  show (MkDate 1966 2 1) = Some (B2SF (Fof 4946666010511020 (-50))) /\ show (MkDate 1967 12 31) = Some (B2SF (Flit 6202738 (-6))) /\
  show (MkDate 1972 2 1) = Some (B2SF (FofZ 10)) /\ show (MkDate 1972 8 1) = Some (B2SF (FofZ 11)).
Proof. intros lm p. destruct p; (split; [vm_compute; reflexivity|]; split; [vm_compute; reflexivity|]; split; vm_compute; reflexivity). Qed.

(** C24.  No panic, in any arithmetic and in both profiles, for any fraction. *)
Lemma C24_delta_at_no_panic_pf : forall (A : arith) p g (fd : num A), accepted g ->
  (year g < 178956970)%Z -> delta_at (A := A) p g fd <> Panic.
Proof.
  intros A p g fd Hg Hy. destruct (accepted_month g Hg) as (Hm & _).
  destruct ((ltb A fd (lit A 0 0)) || (ltb A (lit A 1 0) fd)) eqn:B.
  { unfold delta_at. rewrite B. discriminate. }
  destruct (Z.lt_ge_cases (year g) 1960) as [L|L].
  { unfold delta_at. rewrite B.
    change (index DAT_DATA 0) with (Val (MkDat 1960 1 (1417818, (-6)) (Some ((37300, 0), (1296, (-6)))))%Z).
    cbn [bind d_year]. rewrite (proj2 (Z.ltb_lt _ _) L). discriminate. }
  destruct (delta_at_eval A p g fd B) as (e & S & E); [lia|exact Hm|].
  rewrite E. destruct (d_drift e) as [[o r]|] eqn:D; [|discriminate].
  pose proof (selected_drift g e S ltac:(congruence)) as L'.
  rewrite to_mjd_accepted; [|exact Hg|unfold mkey in L'; lia]. discriminate.
Qed.

(** The limit is sharp: August of year 178956970 panics in debug builds. *)
Lemma C24_limit_sharp_pf : forall (A : arith) (fd : num A),
  (ltb A fd (lit A 0 0)) || (ltb A (lit A 1 0) fd) = false ->
  accepted (MkDate 178956970 8 1) /\
  delta_at (A := A) Debug (MkDate 178956970 8 1) fd = Panic.
Proof.
  intros A fd H. split; [reflexivity|]. unfold delta_at. rewrite H. reflexivity.
Qed.

(** The last year covered. *)
Example C24_example_pf : forall lm p,
  match delta_at (A := b64A lm) p (MkDate 178956969 12 31) (FofZ 0) with Val (Ok (Some x)) => B2SF x = B2SF (FofZ 37) | _ => False end.
Proof. intros lm p. destruct p; vm_compute; reflexivity. Qed.
