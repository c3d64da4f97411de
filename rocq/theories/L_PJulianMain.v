(** * Proofs of the properties of the command line of julian_tool *)

From Coq Require Import ZArith Ascii String Reals Lra Lia Bool List Permutation.
From Flocq Require Import Core BinarySingleNaN.
From Verif Require Import Outcome Arith ArithR ArithF Spec_Float M_Common M_Calendar M_Time M_Ellipsoid M_SunAngle M_Display M_Tools M_Args.
From Verif Require Import Spec_Calendar Spec_Api Spec_Display Spec_Tools Spec_Args.
From Verif Require Import L_ArithF L_FromJulianF L_Flit L_PDisplay L_Shows L_Args L_PTools L_PArgs.
From Verif Require Import L_Calendar L_PCalendar L_PTimeOfDay L_HMS.
Import ListNotations.
Open Scope string_scope.
Open Scope Z_scope.

Lemma value_step : forall X (parse : string -> option X) (reads : string -> X -> Prop), (forall t x, reads t x -> parse t = Some x) ->
  forall q ex, ~ In ("--" ++ q) ex -> forall l x, inv l -> option_says reads l ("--" ++ q) (Some x) ->
  value parse ("--" ++ q) (words l ++ ex)%list = Some (x, (words (drop ("--" ++ q) l) ++ ex)%list).
Proof. intros X parse reads P q ex E l x I S. unfold value. rewrite (opt_value_step X parse reads P q ex E l (Some x) I S). reflexivity. Qed.

Ltac one_opt P EX := erewrite pbind_some; [|eapply (opt_value_step _ _ _ P); [apply EX; cbn; tauto|repeat apply drop_inv; assumption|repeat (apply says_drop; [discriminate|]); eassumption]].
Ltac one_val P EX := erewrite pbind_some; [|eapply (value_step _ _ _ P); [apply EX; cbn; tauto|repeat apply drop_inv; assumption|repeat (apply says_drop; [discriminate|]); eassumption]].

Lemma gregorian_arguments_ok : forall l ex y mo d h mi s, gregorian_items l y mo d h mi s ->
  (forall w, In w ["--year"; "--month"; "--day"; "--hour"; "--minute"; "--second"] -> ~ In w ex) ->
  exists r, gregorian_arguments (words l ++ ex)%list = Some ((y, mo, d, h, mi, s), r).
Proof.
  intros l ex y mo d h mi s (N & O & H1 & H2 & H3 & H4 & H5 & H6) EX.
  assert (IV : inv l).
  { split; [exact N|]. intros k t I. pose proof (O _ I) as K. cbn [In] in K.
    repeat destruct K as [<-|K]; try contradiction;
    first [eapply (says_dashless _ _ reads_i32_dashless); [exact N| |exact I]; eassumption
      |eapply (says_dashless _ _ reads_u8_dashless); [exact N| |exact I]; eassumption
      |eapply (says_dashless _ _ reads_f64_dashless); [exact N| |exact I]; eassumption]. }
  unfold gregorian_arguments. one_val parse_i32_ok EX. one_val parse_i32_ok EX. one_val parse_i32_ok EX. one_opt parse_u8_ok EX. one_opt parse_u8_ok EX. one_opt parse_f64_ok EX.
  eexists. reflexivity.
Qed.

(** C104: `gregorian` reads its options, in any order, whatever else is on the line. *)
Lemma C104_gregorian_partial_pf : forall tie show lm p c l ex y mo d h mi s, c = "gregorian" \/ c = "g" -> gregorian_items l y mo d h mi s ->
  (forall w, In w ["--year"; "--month"; "--day"; "--hour"; "--minute"; "--second"] -> ~ In w ex) ->
  julian_main tie show (lm := lm) p (c :: words l ++ ex) = tool_gregorian tie (lm := lm) p (Some y) (Some mo) (Some d) h mi s.
Proof.
  intros tie show lm p c l ex y mo d h mi s C I EX. destruct (gregorian_arguments_ok l ex y mo d h mi s I EX) as [r E].
  unfold julian_main. destruct C as [-> | ->].
  - change (subcommand ("gregorian" :: words l ++ ex)) with (Some "gregorian", (words l ++ ex)%list). cbv beta iota zeta. cbn [String.eqb Ascii.eqb Bool.eqb orb]. rewrite E. reflexivity.
  - change (subcommand ("g" :: words l ++ ex)) with (Some "g", (words l ++ ex)%list). cbv beta iota zeta. cbn [String.eqb Ascii.eqb Bool.eqb orb]. rewrite E. reflexivity.
Qed.

(** C104: `julian` reads its options, in any order. *)
Lemma julian_arguments_ok : forall l jd jd2, julian_items l jd jd2 -> julian_arguments (words l) = Some ((jd, jd2), []).
Proof.
  intros l jd jd2 (N & O & H1 & H2).
  assert (IV : inv l).
  { split; [exact N|]. intros k t I. pose proof (O _ I) as K. cbn [In] in K.
    repeat destruct K as [<-|K]; try contradiction; eapply (says_dashless _ _ reads_f64_dashless); [exact N| |exact I| exact N | |exact I]; eassumption. }
  unfold julian_arguments. rewrite <- (app_nil_r (words l)). assert (EX : forall w : string, True -> ~ In w []) by (intros w _ []).
  one_val parse_f64_ok EX. one_opt parse_f64_ok EX. rewrite app_nil_r.
  assert (E : drop ("--" ++ "jd2") (drop ("--" ++ "jd") l) = []); [|rewrite E; reflexivity].
  apply no_items. intros i I. rewrite !drop_in in I. destruct I as [[I K1] K2]. pose proof (O i I) as Q. destruct i as [k t|k]; [|exact Q]. cbn [key_of] in *. cbn [In] in Q.
  destruct Q as [Q|[Q|[]]]; subst k; [exact (K1 eq_refl)|exact (K2 eq_refl)].
Qed.
(** C104: `julian` reads its options, in any order. *)
Lemma C104_julian_pf : forall tie show lm p c l jd jd2, c = "julian" \/ c = "j" -> julian_items l jd jd2 ->
  julian_main tie show (lm := lm) p (c :: words l) = tool_julian tie show (lm := lm) p (Some jd) jd2 false.
Proof.
  intros tie show lm p c l jd jd2 C I. pose proof (julian_arguments_ok l jd jd2 I) as E. unfold julian_main. destruct C as [-> | ->].
  - change (subcommand ("julian" :: words l)) with (Some "julian", words l). cbv beta iota zeta. cbn [String.eqb Ascii.eqb Bool.eqb orb]. rewrite E. reflexivity.
  - change (subcommand ("j" :: words l)) with (Some "j", words l). cbv beta iota zeta. cbn [String.eqb Ascii.eqb Bool.eqb orb]. rewrite E. reflexivity.
Qed.

(** C104: `julian` accepts nothing else, up to the order of the words. *)
Lemma C104_julian_nothing_else_pf : forall tie show lm p c args, c = "julian" \/ c = "j" ->
  julian_main tie show (lm := lm) p (c :: args) = Val ([], Some BadArguments) \/
  exists l jd jd2, Permutation args (words l) /\ julian_items l jd jd2 /\
    julian_main tie show (lm := lm) p (c :: args) = tool_julian tie show (lm := lm) p (Some jd) jd2 false.
Proof.
  intros tie show lm p c args C.
  assert (M : julian_main tie show (lm := lm) p (c :: args) = match julian_arguments args with None => Val ([], Some BadArguments)
    | Some ((jd, jd2), r) => tool_julian tie show (lm := lm) p (Some jd) jd2 (left_over r) end) by (destruct C as [-> | ->]; reflexivity).
  rewrite M. destruct (julian_arguments args) as [[[jd jd2] r]|] eqn:E; [|left; reflexivity]. destruct r as [|w r]; [right|left; reflexivity].
  unfold julian_arguments in E. apply (value_inv _ _ _ _ parse_f64_inv) in E. destruct E as (x & L1 & l1 & S1 & P1 & E).
  apply (step_inv _ _ _ _ parse_f64_inv) in E. destruct E as (o & L2 & l2 & S2 & P2 & E). injection E as -> -> ->.
  set (keys := ["--jd"; "--jd2"]). assert (F : Forall2 chunk keys [L1; L2]) by (repeat (constructor; [eapply chunk_of_says; eassumption|]); constructor).
  assert (ND : NoDup keys) by (repeat (constructor; [cbn; intros K; repeat destruct K as [K|K]; try discriminate K; contradiction|]); constructor).
  exists (concat [L1; L2]), jd, jd2. split; [|split; [|reflexivity]].
  - rewrite words_concat. cbn [map concat]. rewrite app_nil_r. eapply perm_trans; [exact P1|]. apply Permutation_app_head. rewrite app_nil_r in P2. exact P2.
  - split; [exact (chunks_nodup _ _ F ND)|]. split.
    + intros i I. destruct (chunks_keys _ _ F i I) as [A (k & t & ->)]. exact A.
    + split; [exact (chunks_says _ _ _ _ F ND 0%nat _ _ _ eq_refl eq_refl S1)|exact (chunks_says _ _ _ _ F ND 1%nat _ _ _ eq_refl eq_refl S2)].
Qed.

Lemma value_absent : forall X (parse : string -> option X) key l, ~ In key l -> value parse key l = None.
Proof.
  intros X parse key l H. unfold value. assert (E : opt_value parse key l = Some (None, l)); [|rewrite E; reflexivity].
  induction l as [|w l IH]; [reflexivity|]. apply opt_value_cons; [intros ->; apply H; left; reflexivity|apply IH; intros K; apply H; right; exact K].
Qed.
Lemma opt_value_in : forall X (parse : string -> option X) key l o r w, opt_value parse key l = Some (o, r) -> In w r -> In w l.
Proof.
  intros X parse key l o r w E I. pose proof (opt_value_inv _ _ _ _ _ _ E) as K. destruct o as [x|]; [destruct K as (t & _ & K); apply (Permutation_in _ (Permutation_sym K)); right; right; exact I|destruct K as [<- _]; exact I].
Qed.

(** C104: without a subcommand, with another one, and without a required option. *)
Lemma C104_errors_pf : forall tie show lm p args,
  (forall c l, args = c :: l -> ~ In c ["gregorian"; "g"; "julian"; "j"]) \/
  (exists c l k, args = c :: l /\ (c = "gregorian" \/ c = "g") /\ In k ["--year"; "--month"; "--day"] /\ ~ In k l) \/
  (exists c l, args = c :: l /\ (c = "julian" \/ c = "j") /\ ~ In "--jd" l) ->
  julian_main tie show (lm := lm) p args = Val ([], Some BadArguments).
Proof.
  intros tie show lm p args [H|[(c & l & k & -> & C & K & N)|(c & l & -> & C & N)]].
  - unfold julian_main. destruct args as [|w l]; [reflexivity|]. pose proof (H w l eq_refl) as NI. cbn [subcommand].
    assert (Q : forall w', In w' ["gregorian"; "g"; "julian"; "j"] -> String.eqb w w' = false) by (intros w' I; apply String.eqb_neq; intros ->; exact (NI I)).
    assert (G : (let '(c, l0) := (Some w, l) in match c with Some w0 => if String.eqb w0 "gregorian" || String.eqb w0 "g" then
        match gregorian_arguments l0 with None => Val ([], Some BadArguments) | Some ((y, mo, d, h, mi, s), _) => tool_gregorian tie (lm := lm) p (Some y) (Some mo) (Some d) h mi s end
      else if String.eqb w0 "julian" || String.eqb w0 "j" then match julian_arguments l0 with None => Val ([], Some BadArguments) | Some ((jd, jd2), r) => tool_julian tie show (lm := lm) p (Some jd) jd2 (left_over r) end
      else Val ([], Some BadArguments) | None => Val ([], Some BadArguments) end) = Val ([], Some BadArguments)).
    { cbv beta iota zeta. rewrite !Q by (cbn; tauto). reflexivity. }
    destruct w as [|a w]; [exact G|]. destruct (Ascii.eqb a minus); [reflexivity|exact G].
  - assert (M : julian_main tie show (lm := lm) p (c :: l) = match gregorian_arguments l with None => Val ([], Some BadArguments)
      | Some ((y, mo, d, h, mi, s), _) => tool_gregorian tie (lm := lm) p (Some y) (Some mo) (Some d) h mi s end) by (destruct C as [-> | ->]; reflexivity).
    rewrite M. assert (E : gregorian_arguments l = None); [|rewrite E; reflexivity]. unfold gregorian_arguments. 
    destruct K as [<-|[<-|[<-|[]]]]; unfold pbind at 1; [rewrite (value_absent _ _ _ _ N); reflexivity| |].
    + destruct (value parse_i32 "--year" l) as [[y r]|] eqn:V; [|reflexivity]. assert (R : ~ In "--month" r).
      { intros I. apply N. unfold value in V. destruct (opt_value parse_i32 "--year" l) as [[[x|] r']|] eqn:O; try discriminate V. injection V as -> ->. exact (opt_value_in _ _ _ _ _ _ _ O I). }
      unfold pbind at 1. rewrite (value_absent _ _ _ _ R). reflexivity.
    + destruct (value parse_i32 "--year" l) as [[y r]|] eqn:V; [|reflexivity]. assert (R : ~ In "--day" r).
      { intros I. apply N. unfold value in V. destruct (opt_value parse_i32 "--year" l) as [[[x|] r']|] eqn:O; try discriminate V. injection V as -> ->. exact (opt_value_in _ _ _ _ _ _ _ O I). }
      unfold pbind at 1. destruct (value parse_i32 "--month" r) as [[m r1]|] eqn:V1; [|reflexivity]. assert (R1 : ~ In "--day" r1).
      { intros I. apply R. unfold value in V1. destruct (opt_value parse_i32 "--month" r) as [[[x|] r']|] eqn:O; try discriminate V1. injection V1 as -> ->. exact (opt_value_in _ _ _ _ _ _ _ O I). }
      unfold pbind at 1. rewrite (value_absent _ _ _ _ R1). reflexivity.
  - assert (M : julian_main tie show (lm := lm) p (c :: l) = match julian_arguments l with None => Val ([], Some BadArguments)
      | Some ((jd, jd2), r) => tool_julian tie show (lm := lm) p (Some jd) jd2 (left_over r) end) by (destruct C as [-> | ->]; reflexivity).
    rewrite M. unfold julian_arguments, pbind at 1. rewrite (value_absent _ _ _ _ N). reflexivity.
Qed.

(** C104, refuted: `gregorian` ignores a misspelt option and takes the default. *)
Lemma C104_rejects_refuted_pf : forall tie show lm p,
  julian_main tie show (lm := lm) p ["gregorian"; "--year"; "2000"; "--month"; "1"; "--day"; "1"; "--hours"; "5"] =
  Val (["Gregorian date: 2000-01-01"; "Time: 12:00:00.000000"; "Julian date: 2451545.000000"; "Fraction of day: 0.500000"], None).
Proof. intros tie show lm p. destruct p; vm_compute; reflexivity. Qed.

(** C104 on concrete lines: the same date with all words known and in another order, and a misspelt
    option of `julian`. *)
Example C104_example_pf : forall tie show lm p,
  julian_main tie show (lm := lm) p ["g"; "--hour"; "18"; "--day"; "1"; "--year"; "+2000"; "--second"; "30.25"; "--month"; "01"] =
  Val (["Gregorian date: 2000-01-01"; "Time: 18:00:30.250000"; "Julian date: 2451545.250350"; "Fraction of day: 0.750350"], None) /\
  julian_main tie show (lm := lm) p ["julian"; "--jd"; "2451545"; "--jd1"; "1"] = Val ([], Some BadArguments) /\
  julian_main tie show (lm := lm) p ["--jd"; "2451545"] = Val ([], Some BadArguments).
Proof. intros tie show lm p. split; [destruct p; vm_compute; reflexivity|]. split; vm_compute; reflexivity. Qed.

(** ** C105: from a date to a Julian date and back, through the printed text *)

Lemma sapp_inj : forall a b c : string, a ++ b = a ++ c -> b = c.
Proof. induction a as [|x a IH]; intros b c H; [exact H|]. cbn [append] in H. injection H as H. exact (IH _ _ H). Qed.
Lemma julian_line : forall tie lm p y mo d ho mi se a b c e, tool_gregorian tie (lm := lm) p (Some y) (Some mo) (Some d) ho mi se = Val ([a; b; c; e], None) ->
  exists x, c = "Julian date: " ++ fmt_float tie false 0 6 x.
Proof.
  intros tie lm p y mo d ho mi se a b c e. unfold tool_gregorian. destruct (date_new y mo d) as [[g|err]|]; cbn [bind]; try discriminate. cbv zeta.
  destruct (to_julian (A := b64A lm) p g) as [[j1 j2]|]; cbn [bind]; [|discriminate]. intros H.
  apply (f_equal (fun o => match o with Val (_ :: _ :: x :: _, _) => x | _ => "" end)) in H. cbv beta iota in H. symmetry in H. eexists. exact H.
Qed.
Definition no_blank_first (s : string) : Prop := match s with EmptyString => True | String c _ => c <> " "%char end.
Lemma fixed_first : forall n p k, 0 <= n -> no_blank_first (fill "0" k ++ fixed n p).
Proof.
  intros n p k N. pose proof (decimal_fixed p n k N) as D. destruct (fill "0" k ++ fixed n p) as [|c t]; [exact I|]. cbn.
  assert (B : ~ is_digit " ") by (unfold is_digit; cbn; lia). intros ->. destruct p as [|p]; cbn [decimal] in D.
  - destruct D as (_ & [D _] & _). exact (B D).
  - destruct D as (i & f & E & NE & DI & _). destruct i as [|c i]; [congruence|]. cbn [append] in E. injection E as <- _. destruct DI as [DI _]. exact (B DI).
Qed.
Lemma fmt_first : forall tie p (x : b64), no_blank_first (fmt_float tie false 0 p x).
Proof.
  intros tie p x. unfold fmt_float, lpad. cbn [Nat.sub fill append]. destruct x as [s|s| |s m e B].
  - destruct s; cbn [sign_of append no_blank_first]; [discriminate|]. cbn [body_of]. exact (fixed_first 0 p 0 ltac:(lia)).
  - destruct s; cbn; discriminate.
  - cbn. discriminate.
  - destruct (float_body tie (B754_finite s m e B) p eq_refl) as (n & N & E & _). rewrite E. destruct s; cbn [sign_of append no_blank_first]; [discriminate|]. exact (fixed_first n p 0 N).
Qed.

Lemma decimal_text : forall sg t n p, (sg = "" \/ sg = "+" \/ sg = "-") -> 0 <= n -> decimal (S p) n t -> writes_decimal (sg ++ t) (String.eqb sg "-") n (- Z.of_nat (S p)).
Proof.
  intros sg t n p SG N (i & f & -> & NE & DI & (FL & FD & FR) & RI). apply unsigned_decimal; [exact SG|].
  exists i, ".", f, "", 0. split; [rewrite sapp_nil; reflexivity|]. split; [exact DI|]. split; [exact FD|]. split; [right; reflexivity|].
  split; [destruct i; [congruence|discriminate]|]. split; [|split; [left; split; reflexivity|rewrite FL; lia]].
  unfold read_digits. rewrite read_from_app. fold (read_digits i). rewrite RI. 
  assert (RA : forall g acc, read_from acc g = acc * 10 ^ Z.of_nat (String.length g) + read_from 0 g).
  { induction g as [|c g IH]; intros acc; [cbn; lia|]. cbn [read_from String.length]. rewrite IH, (IH (10 * 0 + _)). rewrite Nat2Z.inj_succ, Z.pow_succ_r by lia. ring. }
  rewrite RA, FL. fold (read_digits f). rewrite FR. rewrite Z.mul_comm. apply Z.div_mod. apply Z.pow_nonzero; lia.
Qed.

