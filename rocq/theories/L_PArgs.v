(** * Proofs of the properties of command lines *)

From Coq Require Import ZArith Ascii String Reals Lra Lia Bool List Permutation.
From Flocq Require Import Core BinarySingleNaN.
From Verif Require Import Outcome Arith ArithR ArithF Spec_Float M_Common M_Calendar M_Time M_Ellipsoid M_SunAngle M_Display M_Tools M_Args.
From Verif Require Import Spec_Calendar Spec_Api Spec_Display Spec_Tools Spec_Args.
From Verif Require Import L_ArithF L_FromJulianF L_Flit L_PDisplay L_Shows L_Args L_PTools.
Import ListNotations.
Open Scope string_scope.
Open Scope Z_scope.

(** ** Well-formed command lines are read, in any order *)

Definition dashless (t : string) : Prop := forall r, t <> "--" ++ r.
Lemma reads_f64_dashless : forall t x, reads_f64 t x -> dashless t.
Proof.
  intros t x H r ->. pose proof (parse_f64_ok _ _ H) as P. unfold parse_f64 in P. cbn [append] in P. change (Ascii.eqb "-" plus) with false in P. change (Ascii.eqb "-" minus) with true in P. cbn match in P.
  destruct (parse_unsigned (String "-" r)) as [y|] eqn:U; [|discriminate P].
  destruct (parse_unsigned_inv _ _ U) as [(n & e & W & _)|[([L|L] & _)|(L & _)]].
  - destruct (unsigned_lead _ _ _ W) as (c & q & E & LE). injection E as <- _. destruct (lower_lead _ LE) as (_ & _ & _ & _ & K). discriminate K.
  - destruct L as [L _]. cbn in L. lia.
  - destruct L as [L _]. cbn in L. lia.
  - destruct L as [L _]. cbn in L. lia.
Qed.
Lemma digits1_dash : forall r, digits1 (String "-" r) = None.
Proof. reflexivity. Qed.
Lemma reads_i32_dashless : forall t x, reads_i32 t x -> dashless t.
Proof. intros t x H r ->. pose proof (parse_i32_ok _ _ H) as P. discriminate P. Qed.
Lemma reads_u8_dashless : forall t x, reads_u8 t x -> dashless t.
Proof. intros t x H r ->. pose proof (parse_u8_ok _ _ H) as P. discriminate P. Qed.

Definition inv (l : list item) : Prop := NoDup (map key_of l) /\ forall k t, In (Opt k t) l -> dashless t.
Definition drop (key : string) (l : list item) : list item := filter (fun i => negb (String.eqb (key_of i) key)) l.

Lemma drop_in : forall key l i, In i (drop key l) <-> In i l /\ key_of i <> key.
Proof. intros key l i. unfold drop. rewrite filter_In, negb_true_iff, String.eqb_neq. tauto. Qed.
Lemma drop_none : forall key l, ~ In key (map key_of l) -> drop key l = l.
Proof.
  induction l as [|i l IH]; intros H; [reflexivity|]. cbn [drop filter]. change (filter (fun i0 => negb (String.eqb (key_of i0) key)) l) with (drop key l).
  destruct (String.eqb (key_of i) key) eqn:E; [apply String.eqb_eq in E; exfalso; apply H; left; exact E|]. cbn [negb]. rewrite IH; [reflexivity|]. intros K. apply H. right. exact K.
Qed.
Lemma drop_cons : forall key i l, drop key (i :: l) = if String.eqb (key_of i) key then drop key l else i :: drop key l.
Proof. intros. unfold drop. cbn [filter]. destruct (String.eqb (key_of i) key); reflexivity. Qed.
Lemma drop_inv : forall key l, inv l -> inv (drop key l).
Proof.
  intros key l [N D]. split.
  - clear D. induction l as [|i l IH]; [exact N|]. rewrite drop_cons. inversion_clear N as [|? ? N1 N2]. destruct (String.eqb (key_of i) key); [apply IH, N2|].
    cbn [map]. constructor; [|apply IH, N2]. intros K. apply in_map_iff in K. destruct K as (j & E & J). apply drop_in in J. apply N1. rewrite <- E. apply in_map, J.
  - intros k t H. apply drop_in in H. apply (D k t), H.
Qed.
Lemma says_drop : forall X (reads : string -> X -> Prop) l key key' o, key' <> key -> option_says reads l key' o -> option_says reads (drop key l) key' o.
Proof.
  intros X reads l key key' [x|] N; cbn [option_says].
  - intros (t & I & R). exists t. split; [apply drop_in; split; [exact I|exact N]|exact R].
  - intros H K. apply H. apply in_map_iff in K. destruct K as (i & E & I). apply drop_in in I. rewrite <- E. apply in_map, I.
Qed.

Lemma words_cons : forall i l, words (i :: l) = (words_of i ++ words l)%list.
Proof. reflexivity. Qed.
Lemma words_app : forall a b, words (a ++ b) = (words a ++ words b)%list.
Proof. intros a b. unfold words. rewrite map_app, concat_app. reflexivity. Qed.

Lemma opt_value_cons : forall X (parse : string -> option X) key w l o r, w <> key -> opt_value parse key l = Some (o, r) -> opt_value parse key (w :: l) = Some (o, w :: r).
Proof. intros X parse key w l o r N E. cbn [opt_value]. apply String.eqb_neq in N. rewrite N, E. reflexivity. Qed.

Lemma opt_value_step : forall X (parse : string -> option X) (reads : string -> X -> Prop), (forall t x, reads t x -> parse t = Some x) ->
  forall q ex, ~ In ("--" ++ q) ex -> forall l o, inv l -> option_says reads l ("--" ++ q) o ->
  opt_value parse ("--" ++ q) (words l ++ ex) = Some (o, (words (drop ("--" ++ q) l) ++ ex)%list).
Proof.
  intros X parse reads P q ex EX. set (key := "--" ++ q) in *. induction l as [|i l IH]; intros o [N D] S.
  - cbn [words map concat drop filter app]. destruct o as [x|]; [destruct S as (t & [] & _)|]. clear S N D. induction ex as [|w ex IE]; [reflexivity|].
    apply opt_value_cons; [intros ->; apply EX; left; reflexivity|apply IE; intros K; apply EX; right; exact K].
  - inversion_clear N as [|? ? N1 N2]. assert (IV : inv l) by (split; [exact N2|intros k t H; apply (D k t); right; exact H]).
    rewrite drop_cons. destruct i as [k t|k]; cbn [key_of] in *.
    + rewrite words_cons. cbn [words_of app]. assert (DT : t <> key) by (apply (D k t); left; reflexivity).
      destruct (String.eqb k key) eqn:E.
      * apply String.eqb_eq in E. subst k. cbn [opt_value]. rewrite String.eqb_refl. destruct o as [x|]; [|exfalso; apply S; left; reflexivity].
        destruct S as (t' & I & R). destruct I as [I|I]; [|exfalso; apply N1; exact (in_map key_of _ _ I)]. injection I as ->. rewrite (P _ _ R). rewrite (drop_none key l N1). reflexivity.
      * rewrite words_cons. cbn [words_of app]. apply opt_value_cons; [apply String.eqb_neq, E|]. apply opt_value_cons; [exact DT|]. apply IH; [exact IV|].
        apply String.eqb_neq in E. destruct o as [x|]; [destruct S as (t' & [I|I] & R); [injection I; intros; congruence|exists t'; auto]|intros K; apply S; right; exact K].
    + destruct (String.eqb k key) eqn:E.
      * apply String.eqb_eq in E. subst k. destruct o as [x|]; [|exfalso; apply S; left; reflexivity].
        destruct S as (t' & [I|I] & R); [discriminate I|]. exfalso. apply N1. exact (in_map key_of _ _ I).
      * rewrite !words_cons. cbn [words_of app]. apply opt_value_cons; [apply String.eqb_neq, E|]. apply IH; [exact IV|].
        destruct o as [x|]; [destruct S as (t' & [I|I] & R); [discriminate I|exists t'; auto]|intros K; apply S; right; exact K].
Qed.
Lemma contains_step : forall q l b, inv l -> (forall t, ~ In (Opt ("--" ++ q) t) l) -> (b = true <-> In (Switch ("--" ++ q)) l) ->
  contains ("--" ++ q) (words l) = Some (b, words (drop ("--" ++ q) l)).
Proof.
  intros q. set (key := "--" ++ q) in *. induction l as [|i l IH]; intros b [N D] O S.
  - cbn. destruct b; [exfalso; apply (proj1 S eq_refl)|reflexivity].
  - inversion_clear N as [|? ? N1 N2]. assert (IV : inv l) by (split; [exact N2|intros k t H; apply (D k t); right; exact H]).
    assert (OV : forall t, ~ In (Opt key t) l) by (intros t K; apply (O t); right; exact K).
    assert (CC : forall w m b r, w <> key -> contains key m = Some (b, r) -> contains key (w :: m) = Some (b, w :: r)).
    { intros w m b0 r W E. cbn [contains]. apply String.eqb_neq in W. rewrite W, E. reflexivity. }
    rewrite drop_cons. destruct i as [k t|k]; cbn [key_of] in *.
    + destruct (String.eqb k key) eqn:E; [apply String.eqb_eq in E; subst k; exfalso; apply (O t); left; reflexivity|]. apply String.eqb_neq in E.
      rewrite !words_cons. cbn [words_of app]. apply CC; [exact E|]. apply CC; [apply (D k t); left; reflexivity|]. apply IH; [exact IV|exact OV|].
      rewrite S. split; [intros [K|K]; [discriminate K|exact K]|intros K; right; exact K].
    + destruct (String.eqb k key) eqn:E.
      * apply String.eqb_eq in E. subst k. rewrite words_cons. cbn [words_of app contains]. rewrite String.eqb_refl, (drop_none key l N1).
        rewrite (proj2 S (or_introl eq_refl)). reflexivity.
      * rewrite !words_cons. cbn [words_of app]. apply String.eqb_neq in E. apply CC; [exact E|]. apply IH; [exact IV|exact OV|].
        rewrite S. split; [intros [K|K]; [congruence|exact K]|intros K; right; exact K].
Qed.

Lemma nodup_key : forall l i j, NoDup (map key_of l) -> In i l -> In j l -> key_of i = key_of j -> i = j.
Proof.
  induction l as [|x l IH]; intros i j N I J E; [destruct I|]. inversion_clear N as [|? ? N1 N2].
  destruct I as [<-|I]; destruct J as [<-|J]; [reflexivity| | |apply IH; assumption].
  - exfalso. apply N1. rewrite E. apply in_map, J.
  - exfalso. apply N1. rewrite <- E. apply in_map, I.
Qed.
Lemma says_dashless : forall X (reads : string -> X -> Prop), (forall t x, reads t x -> dashless t) ->
  forall l key o t, NoDup (map key_of l) -> option_says reads l key o -> In (Opt key t) l -> dashless t.
Proof.
  intros X reads D l key [x|] t N S I.
  - destruct S as (t' & I' & R). pose proof (nodup_key l _ _ N I I' eq_refl) as E. injection E as ->. exact (D _ _ R).
  - exfalso. apply S. exact (in_map key_of _ _ I).
Qed.

Lemma pbind_some : forall X Y (f : parser X) (g : X -> parser Y) l x l', f l = Some (x, l') -> pbind f g l = g x l'.
Proof. intros X Y f g l x l' E. unfold pbind. rewrite E. reflexivity. Qed.
Lemma no_items : forall l : list item, (forall i, ~ In i l) -> l = [].
Proof. intros [|i l] H; [reflexivity|]. exfalso. apply (H i). left. reflexivity. Qed.

Ltac one_option P := erewrite pbind_some; [|rewrite <- (app_nil_r (words _)); eapply (opt_value_step _ _ _ P); [intros []|repeat apply drop_inv; assumption|repeat (apply says_drop; [discriminate|]); eassumption]]; rewrite app_nil_r.

Lemma sun_arguments_ok : forall l a, sun_items l a -> sun_arguments (words l) = Some (a, []).
Proof.
  intros l [y mo d h mi s la lo he d0 d1 st sc ex]. unfold sun_items. cbn [f_year f_month f_day f_hour f_min f_sec f_lat f_lon f_height f_delta0 f_delta1 f_step f_scan f_extra].
  intros (N & O & H1 & H2 & H3 & H4 & H5 & H6 & H7 & H8 & H9 & H10 & H11 & H12 & H13 & ->).
  assert (IV : inv l).
  { split; [exact N|]. intros k t I. pose proof (O _ I) as K. cbn [In sun_options] in K.
    repeat destruct K as [<-|K]; try contradiction;
    first [eapply (says_dashless _ _ reads_i32_dashless); [exact N| |exact I]; eassumption
      |eapply (says_dashless _ _ reads_u8_dashless); [exact N| |exact I]; eassumption
      |eapply (says_dashless _ _ reads_f64_dashless); [exact N| |exact I]; eassumption]. }
  unfold sun_arguments.
  one_option parse_i32_ok. one_option parse_i32_ok. one_option parse_i32_ok. one_option parse_u8_ok. one_option parse_u8_ok.
  one_option parse_f64_ok. one_option parse_f64_ok. one_option parse_f64_ok. one_option parse_f64_ok. one_option parse_f64_ok. one_option parse_f64_ok. one_option parse_f64_ok.
  match goal with |- pbind (contains _) _ (words ?m) = _ => set (m0 := m) end.
  assert (M : forall i, In i m0 <-> In i l /\ ~ In (key_of i) sun_options).
  { intros i. unfold m0. rewrite !drop_in. cbn [sun_options In append]. split; [intros H; decompose [and] H; split; [assumption|]; intros K; repeat destruct K as [K|K]; try contradiction; congruence|].
    intros [I K]. repeat split; try exact I; intros E; apply K; rewrite E; cbn; tauto. }
  assert (IM : inv m0) by (unfold m0; repeat apply drop_inv; assumption). clearbody m0.
  erewrite pbind_some; [|apply (contains_step "scan" m0 sc IM)].
  - assert (E : drop ("--" ++ "scan") m0 = []).
    { apply no_items. intros i I. apply drop_in in I. destruct I as [I K]. apply M in I. destruct I as [I J]. pose proof (O i I) as Q. destruct i as [k t|k]; cbn [key_of] in *; [exact (J Q)|]. apply K. exact Q. }
    rewrite E. reflexivity.
  - intros t I. apply M in I. destruct I as [I _]. pose proof (O _ I) as Q. cbn [In sun_options append] in Q. repeat destruct Q as [Q|Q]; try discriminate Q. contradiction.
  - rewrite H13. split; [intros I; apply M; split; [exact I|]|intros I; apply M in I; apply I]. cbn. intros Q. repeat destruct Q as [Q|Q]; try discriminate Q. contradiction.
Qed.

(** ** Nothing else is read, up to the order of the words *)

Lemma opt_value_inv : forall X (parse : string -> option X) key l o r, opt_value parse key l = Some (o, r) ->
  match o with Some x => exists t, parse t = Some x /\ Permutation l (key :: t :: r) | None => r = l /\ ~ In key l end.
Proof.
  induction l as [|w l IH]; intros o r H; cbn [opt_value] in H.
  - injection H as <- <-. split; [reflexivity|intros []].
  - destruct (String.eqb w key) eqn:E.
    + apply String.eqb_eq in E. subst w. destruct l as [|v l]; [discriminate H|]. destruct (parse v) as [x|] eqn:P; [|discriminate H]. injection H as <- <-. exists v. split; [exact P|apply Permutation_refl].
    + apply String.eqb_neq in E. destruct (opt_value parse key l) as [[o' r']|]; [|discriminate H]. injection H as <- <-. pose proof (IH _ _ eq_refl) as K. destruct o' as [x|].
      * destruct K as (t & P & K). exists t. split; [exact P|]. eapply perm_trans; [apply perm_skip, K|]. eapply perm_trans; [apply perm_swap|]. apply perm_skip, perm_swap.
      * destruct K as [-> K]. split; [reflexivity|]. intros [J|J]; [congruence|exact (K J)].
Qed.
Lemma contains_inv : forall key l b r, contains key l = Some (b, r) -> if b then Permutation l (key :: r) else r = l /\ ~ In key l.
Proof.
  induction l as [|w l IH]; intros b r H; cbn [contains] in H.
  - injection H as <- <-. split; [reflexivity|intros []].
  - destruct (String.eqb w key) eqn:E.
    + apply String.eqb_eq in E. subst w. injection H as <- <-. apply Permutation_refl.
    + apply String.eqb_neq in E. destruct (contains key l) as [[b' r']|]; [|discriminate H]. injection H as <- <-. pose proof (IH _ _ eq_refl) as K. destruct b'.
      * eapply perm_trans; [apply perm_skip, K|apply perm_swap].
      * destruct K as [-> K]. split; [reflexivity|]. intros [J|J]; [congruence|exact (K J)].
Qed.

(** The items read by one call: none, or one with this key. *)
Definition chunk (key : string) (L : list item) : Prop := L = [] \/ exists t, L = [Opt key t].
Definition chunk_says {X : Type} (reads : string -> X -> Prop) (key : string) (L : list item) (o : option X) : Prop :=
  match o with Some x => exists t, L = [Opt key t] /\ reads t x | None => L = [] end.
Lemma chunk_of_says : forall X (reads : string -> X -> Prop) key L o, chunk_says reads key L o -> chunk key L.
Proof. intros X reads key L [x|] H; [destruct H as (t & -> & _); right; exists t; reflexivity|left; exact H]. Qed.

Lemma step_inv : forall X Y (parse : string -> option X) (reads : string -> X -> Prop), (forall t x, parse t = Some x -> reads t x) ->
  forall key (g : option X -> parser Y) l y, pbind (opt_value parse key) g l = Some y ->
  exists o L l', chunk_says reads key L o /\ Permutation l (words L ++ l') /\ g o l' = Some y.
Proof.
  intros X Y parse reads P key g l y H. unfold pbind in H. destruct (opt_value parse key l) as [[o r]|] eqn:E; [|discriminate H].
  pose proof (opt_value_inv _ _ _ _ _ _ E) as K. destruct o as [x|].
  - destruct K as (t & Q & K). exists (Some x), [Opt key t], r. split; [exists t; split; [reflexivity|apply P, Q]|]. split; [exact K|exact H].
  - destruct K as [-> _]. exists None, [], l. split; [reflexivity|]. split; [apply Permutation_refl|exact H].
Qed.
Lemma value_inv : forall X Y (parse : string -> option X) (reads : string -> X -> Prop), (forall t x, parse t = Some x -> reads t x) ->
  forall key (g : X -> parser Y) l y, pbind (value parse key) g l = Some y ->
  exists x L l', chunk_says reads key L (Some x) /\ Permutation l (words L ++ l') /\ g x l' = Some y.
Proof.
  intros X Y parse reads P key g l y H. unfold pbind, value in H. destruct (opt_value parse key l) as [[[x|] r]|] eqn:E; try discriminate H.
  destruct (opt_value_inv _ _ _ _ _ _ E) as (t & Q & K). exists x, [Opt key t], r. split; [exists t; split; [reflexivity|apply P, Q]|]. split; [exact K|exact H].
Qed.

Lemma chunks_keys : forall keys Ls, Forall2 chunk keys Ls -> forall i, In i (concat Ls) -> In (key_of i) keys /\ exists k t, i = Opt k t.
Proof.
  intros keys Ls H. induction H as [|k L keys Ls C H IH]; intros i I; [destruct I|]. cbn [concat] in I. apply in_app_or in I. destruct I as [I|I].
  - destruct C as [-> |(t & ->)]; [destruct I|]. destruct I as [<-|[]]. split; [left; reflexivity|exists k, t; reflexivity].
  - destruct (IH i I) as [A B]. split; [right; exact A|exact B].
Qed.
Lemma chunks_nodup : forall keys Ls, Forall2 chunk keys Ls -> NoDup keys -> NoDup (map key_of (concat Ls)).
Proof.
  intros keys Ls H. induction H as [|k L keys Ls C H IH]; intros N; [constructor|]. inversion_clear N as [|? ? N1 N2]. cbn [concat]. rewrite map_app.
  destruct C as [-> |(t & ->)]; [apply IH, N2|]. cbn [map app key_of]. constructor; [|apply IH, N2]. intros I. apply in_map_iff in I. destruct I as (i & <- & I).
  apply N1. apply (chunks_keys _ _ H i I).
Qed.
Lemma chunks_says : forall X (reads : string -> X -> Prop) keys Ls, Forall2 chunk keys Ls -> NoDup keys ->
  forall n key L o, nth_error keys n = Some key -> nth_error Ls n = Some L -> chunk_says reads key L o -> option_says reads (concat Ls) key o.
Proof.
  intros X reads keys Ls H. induction H as [|k L0 keys Ls C H IH]; intros N n key L o A B S; [destruct n; discriminate A|]. inversion_clear N as [|? ? N1 N2].
  destruct n as [|n]; cbn [nth_error] in A, B.
  - injection A as ->. injection B as ->. destruct o as [x|]; cbn [chunk_says option_says] in *.
    + destruct S as (t & -> & R). exists t. split; [left; reflexivity|exact R].
    + subst L. cbn [concat app]. intros I. apply in_map_iff in I. destruct I as (i & <- & I). apply N1. apply (chunks_keys _ _ H i I).
  - pose proof (IH N2 n key L o A B S) as K. destruct o as [x|]; cbn [option_says] in *.
    + destruct K as (t & I & R). exists t. split; [cbn [concat]; apply in_or_app; right; exact I|exact R].
    + cbn [concat]. rewrite map_app. intros I. apply in_app_or in I. destruct I as [I|I]; [|exact (K I)]. destruct C as [-> |(t & ->)]; [destruct I|]. destruct I as [E|[]].
      cbn [key_of] in E. subst k. apply N1. apply (nth_error_In keys n A).
Qed.
(** A switch after the options. *)
Lemma says_switch : forall X (reads : string -> X -> Prop) l k key o, k <> key -> option_says reads l key o -> option_says reads (l ++ [Switch k]) key o.
Proof.
  intros X reads l k key [x|] N; cbn [option_says].
  - intros (t & I & R). exists t. split; [apply in_or_app; left; exact I|exact R].
  - intros H I. rewrite map_app in I. apply in_app_or in I. destruct I as [I|[I|[]]]; [exact (H I)|exact (N I)].
Qed.

Lemma words_concat : forall Ls, words (concat Ls) = concat (map words Ls).
Proof. induction Ls as [|L Ls IH]; [reflexivity|]. cbn [concat map]. rewrite words_app, IH. reflexivity. Qed.

Ltac one_step P H o L := let l' := fresh "l" in let S := fresh "S" in let Q := fresh "Q" in
  apply (step_inv _ _ _ _ P) in H; destruct H as (o & L & l' & S & Q & H).

Lemma sun_options_nodup : NoDup sun_options.
Proof. unfold sun_options. repeat (constructor; [cbn; intros K; repeat destruct K as [K|K]; try discriminate K; contradiction|]). constructor. Qed.

Lemma sun_arguments_inv : forall args a r, sun_arguments args = Some (a, r) ->
  f_extra a = left_over r /\ (r = [] -> exists l, Permutation args (words l) /\ sun_items l a).
Proof.
  intros args a r H. unfold sun_arguments in H.
  one_step parse_i32_inv H y L1. one_step parse_i32_inv H mo L2. one_step parse_i32_inv H d L3. one_step parse_u8_inv H h L4. one_step parse_u8_inv H mi L5.
  one_step parse_f64_inv H s L6. one_step parse_f64_inv H la L7. one_step parse_f64_inv H lo L8. one_step parse_f64_inv H he L9. one_step parse_f64_inv H dela L10. one_step parse_f64_inv H delb L11. one_step parse_f64_inv H st L12.
  unfold pbind in H. match type of H with match contains _ ?m with _ => _ end = _ => set (m0 := m) in * end.
  destruct (contains "--scan" m0) as [[sc r']|] eqn:C; [|discriminate H]. injection H as <- <-. split; [reflexivity|]. intros ->.
  set (Ls := [L1; L2; L3; L4; L5; L6; L7; L8; L9; L10; L11; L12]).
  assert (F : Forall2 chunk sun_options Ls).
  { unfold Ls, sun_options. repeat (constructor; [eapply chunk_of_says; eassumption|]). constructor. }
  assert (PM : Permutation args (words (concat Ls) ++ m0)).
  { rewrite words_concat. unfold Ls. cbn [map concat]. rewrite !app_nil_r. rewrite <- !app_assoc.
    repeat (eapply perm_trans; [eassumption|apply Permutation_app_head]). apply Permutation_refl. }
  pose proof (contains_inv _ _ _ _ C) as K.
  assert (SAYS : forall X (reads : string -> X -> Prop) n key L o, nth_error sun_options n = Some key -> nth_error Ls n = Some L -> chunk_says reads key L o ->
     option_says reads (concat Ls) key o) by (intros X reads n key L o A B SS; exact (chunks_says X reads sun_options Ls F sun_options_nodup n key L o A B SS)).
  assert (ND : NoDup (map key_of (concat Ls))) by (exact (chunks_nodup _ _ F sun_options_nodup)).
  assert (KEYS : forall i, In i (concat Ls) -> In (key_of i) sun_options /\ exists k t, i = Opt k t) by (exact (chunks_keys _ _ F)).
  pose proof (SAYS _ _ 0%nat _ _ _ eq_refl eq_refl S) as T1. pose proof (SAYS _ _ 1%nat _ _ _ eq_refl eq_refl S0) as T2. pose proof (SAYS _ _ 2%nat _ _ _ eq_refl eq_refl S1) as T3.
  pose proof (SAYS _ _ 3%nat _ _ _ eq_refl eq_refl S2) as T4. pose proof (SAYS _ _ 4%nat _ _ _ eq_refl eq_refl S3) as T5. pose proof (SAYS _ _ 5%nat _ _ _ eq_refl eq_refl S4) as T6.
  pose proof (SAYS _ _ 6%nat _ _ _ eq_refl eq_refl S5) as T7. pose proof (SAYS _ _ 7%nat _ _ _ eq_refl eq_refl S6) as T8. pose proof (SAYS _ _ 8%nat _ _ _ eq_refl eq_refl S7) as T9.
  pose proof (SAYS _ _ 9%nat _ _ _ eq_refl eq_refl S8) as T10. pose proof (SAYS _ _ 10%nat _ _ _ eq_refl eq_refl S9) as T11. pose proof (SAYS _ _ 11%nat _ _ _ eq_refl eq_refl S10) as T12.
  clear SAYS. set (L := concat Ls) in *. clearbody L.
  assert (NSW : ~ In "--scan" (map key_of L)).
  { intros I. apply in_map_iff in I. destruct I as (i & E & I). destruct (KEYS i I) as [I2 _]. rewrite E in I2. cbn in I2. repeat destruct I2 as [I2|I2]; try discriminate I2. contradiction. }
  unfold sun_items. cbn [f_year f_month f_day f_hour f_min f_sec f_lat f_lon f_height f_delta0 f_delta1 f_step f_scan f_extra left_over]. destruct sc.
  - exists (L ++ [Switch "--scan"])%list. split; [rewrite words_app; cbn [words map concat words_of app]; eapply perm_trans; [exact PM|apply Permutation_app_head; exact K]|].
    split. { rewrite map_app. cbn [map key_of]. apply (Permutation_NoDup (l := "--scan" :: map key_of L)); [apply Permutation_cons_append|]. constructor; assumption. }
    split. { intros i I. apply in_app_or in I. destruct I as [I|[<-|[]]]; [|reflexivity]. destruct (KEYS i I) as [A (k & t & ->)]. exact A. }
    repeat (split; [apply says_switch; [discriminate|assumption]|]).
    split; [|reflexivity]. split; [intros _; apply in_or_app; right; left; reflexivity|reflexivity].
  - destruct K as [K _]. exists L. split; [rewrite <- K, app_nil_r in PM; exact PM|]. split; [exact ND|].
    split. { intros i I. destruct (KEYS i I) as [A (k & t & ->)]. exact A. }
    repeat (split; [assumption|]). split; [|reflexivity]. split; [discriminate|]. intros I. exfalso. apply NSW. exact (in_map key_of _ _ I).
Qed.

(** ** C103 *)

(** C103: options given once each, in any order, with readable texts, are read as they
    are written. *)
Lemma C103_any_order_pf : forall tie lm fuel p l a, sun_items l a -> sun_main tie (lm := lm) fuel p (words l) = sun_tool tie (lm := lm) fuel p a.
Proof. intros tie lm fuel p l a H. unfold sun_main. rewrite (sun_arguments_ok l a H). reflexivity. Qed.

(** C103: every other command line is an error, unless its words can be put in such an order. *)
Lemma C103_nothing_else_pf : forall tie lm fuel p args,
  sun_main tie (lm := lm) fuel p args = Val (Some ([], Some BadArguments)) \/
  exists l a, Permutation args (words l) /\ sun_items l a /\ sun_main tie (lm := lm) fuel p args = sun_tool tie (lm := lm) fuel p a.
Proof.
  intros tie lm fuel p args. unfold sun_main. destruct (sun_arguments args) as [[a r]|] eqn:E; [|left; reflexivity].
  destruct (sun_arguments_inv _ _ _ E) as [X K]. destruct r as [|w r].
  - right. destruct (K eq_refl) as (l & P & I). exists l, a. split; [exact P|]. split; [exact I|reflexivity].
  - left. unfold sun_tool. cbv zeta. rewrite X. reflexivity.
Qed.

Lemma int_decimal : forall t n, writes_int t n -> exists x, reads_f64 t x.
Proof.
  intros t n (sg & d & -> & SG & N & D & _).
  assert (U : writes_unsigned d (read_digits d) 0).
  { exists d, "", "", "", 0. split; [rewrite sapp_nil; reflexivity|]. rewrite sapp_nil. split; [exact D|]. split; [exact I|]. split; [left; split; reflexivity|].
    split; [exact N|]. split; [reflexivity|]. split; [left; split; reflexivity|reflexivity]. }
  exists (if String.eqb sg "-" then Bopp (Flit (read_digits d) 0) else Flit (read_digits d) 0). apply reads_unsigned; [exact SG|]. apply parse_unsigned_ok, U.
Qed.
Lemma reads_number : forall t, (exists n, reads_i32 t n) \/ (exists n, reads_u8 t n) \/ (exists x, reads_f64 t x) -> exists x, reads_f64 t x.
Proof.
  intros t [(n & H & _)|[(n & H & _)|H]]; [exact (int_decimal t n H)| |exact H].
  destruct H as (sg & d & E & SG & N & D & E2). apply (int_decimal t n). exists sg, d. split; [exact E|]. split; [tauto|]. split; [exact N|]. split; [exact D|].
  rewrite E2. destruct SG as [-> | ->]; [change (sign_factor "") with 1|change (sign_factor "+") with 1]; ring.
Qed.

Lemma says_text : forall X (reads : string -> X -> Prop) l key o t, NoDup (map key_of l) -> option_says reads l key o -> In (Opt key t) l -> exists x, reads t x.
Proof.
  intros X reads l key [x|] t N S I.
  - destruct S as (t' & I' & R). pose proof (nodup_key l _ _ N I I' eq_refl) as E. injection E as ->. exists x. exact R.
  - exfalso. apply S. exact (in_map key_of _ _ I).
Qed.
Lemma sun_texts : forall l a, sun_items l a -> forall k t, In (Opt k t) l -> exists x, reads_f64 t x.
Proof.
  intros l a (N & O & H1 & H2 & H3 & H4 & H5 & H6 & H7 & H8 & H9 & H10 & H11 & H12 & _) k t I. apply reads_number.
  pose proof (O _ I) as K. cbn [In sun_options] in K.
  repeat destruct K as [<-|K]; try contradiction;
  first [left; eapply says_text; [exact N| |exact I]; eassumption
    |right; left; eapply says_text; [exact N| |exact I]; eassumption
    |right; right; eapply says_text; [exact N| |exact I]; eassumption].
Qed.
Lemma in_words : forall w l, In w (words l) -> In w (map key_of l) \/ exists k, In (Opt k w) l.
Proof.
  intros w l. induction l as [|i l IH]; intros H; [destruct H|]. rewrite words_cons in H. apply in_app_or in H. destruct H as [H|H].
  - destruct i as [k t|k]; cbn [words_of In] in H.
    + destruct H as [<-|[<-|[]]]; [left; left; reflexivity|right; exists k; left; reflexivity].
    + destruct H as [<-|[]]. left. left. reflexivity.
  - destruct (IH H) as [K|[k K]]; [left; right; exact K|right; exists k; right; exact K].
Qed.
Lemma count_words : forall k l, (forall k' t, In (Opt k' t) l -> t <> k) -> count_occ string_dec (words l) k = count_occ string_dec (map key_of l) k.
Proof.
  intros k l. induction l as [|i l IH]; intros H; [reflexivity|]. rewrite words_cons, count_occ_app. cbn [map count_occ]. rewrite IH by (intros k' t I; apply (H k' t); right; exact I).
  destruct i as [k' t|k']; cbn [words_of count_occ key_of]; destruct (string_dec k' k); try reflexivity; destruct (string_dec t k) as [E|E]; try reflexivity; exfalso; exact (H k' t (or_introl eq_refl) E).
Qed.

(** C103: a word that is neither an option nor a number, and an option given twice, are errors. *)
Lemma C103_errors_pf : forall tie lm fuel p args w,
  (In w args /\ ~ In w ("--scan" :: sun_options) /\ (forall x, ~ reads_f64 w x)) \/
  (In w ("--scan" :: sun_options) /\ (2 <= count_occ string_dec args w)%nat) ->
  sun_main tie (lm := lm) fuel p args = Val (Some ([], Some BadArguments)).
Proof.
  intros tie lm fuel p args w H. destruct (C103_nothing_else_pf tie lm fuel p args) as [E|(l & a & P & I & _)]; [exact E|]. exfalso.
  assert (KEYS : forall k, In k (map key_of l) -> In k ("--scan" :: sun_options)).
  { intros k K. apply in_map_iff in K. destruct K as (i & <- & K). pose proof (proj1 (proj2 I) i K) as Q. destruct i; [right; exact Q|left; symmetry; exact Q]. }
  destruct H as [(A & B & C)|(A & B)].
  - apply (Permutation_in _ P) in A. destruct (in_words w l A) as [K|[k K]]; [exact (B (KEYS w K))|]. destruct (sun_texts l a I k w K) as [x X]. exact (C x X).
  - rewrite (Permutation_count_occ string_dec) in P. rewrite P in B. rewrite count_words in B.
    + pose proof (proj1 (NoDup_count_occ string_dec (map key_of l)) (proj1 I) w). lia.
    + intros k' t K ->. destruct (sun_texts l a I k' w K) as [x X]. pose proof (reads_f64_dashless w x X) as D.
      assert (Q : exists q, w = "--" ++ q) by (cbn [In sun_options] in A; repeat destruct A as [<-|A]; try (eexists; reflexivity); contradiction). destruct Q as [q Q]. exact (D q Q).
Qed.

(** Flags are compared through the bits of their floats. *)
Definition sf (o : option b64) : option SpecFloat.spec_float := option_map B2SF o.
Definition view (a : sun_flags) :=
  ((f_year a, f_month a, f_day a, f_hour a, f_min a, f_scan a, f_extra a), (sf (f_sec a), sf (f_lat a), sf (f_lon a), sf (f_height a), sf (f_delta0 a), sf (f_delta1 a), sf (f_step a))).
Lemma sf_inj : forall a b, sf a = sf b -> a = b.
Proof. intros [a|] [b|] H; try discriminate H; [|reflexivity]. injection H as H. apply B2SF_inj in H. subst. reflexivity. Qed.
Lemma view_inj : forall a b, view a = view b -> a = b.
Proof.
  intros [a1 a2 a3 a4 a5 a6 a7 a8 a9 a10 a11 a12 a13 a14] [b1 b2 b3 b4 b5 b6 b7 b8 b9 b10 b11 b12 b13 b14] H. unfold view in H. cbn [f_year f_month f_day f_hour f_min f_sec f_lat f_lon f_height f_delta0 f_delta1 f_step f_scan f_extra] in H.
  injection H. intros. repeat match goal with K : sf _ = sf _ |- _ => apply sf_inj in K end. subst. reflexivity.
Qed.
Lemma view_arguments : forall args a r, match sun_arguments args with Some (a', r') => Some (view a', r') | None => None end = Some (view a, r) -> sun_arguments args = Some (a, r).
Proof.
  intros args a r H. destruct (sun_arguments args) as [[a' r']|]; [|discriminate H]. assert (E : view a' = view a) by congruence. assert (F : r' = r) by congruence. apply view_inj in E. subst. reflexivity.
Qed.

(** C103 on concrete command lines: options in any order; a number the reader rejects, an
    option given twice and a misspelt option are errors; the words of a line may even be
    out of their pairs. *)
Example C103_example_pf : forall tie lm fuel p,
  sun_main tie (lm := lm) fuel p ["--lat"; "-12.5"; "--scan"; "--year"; "2020"; "--delta1"; "1e3"; "--hour"; "+7"] =
    sun_tool tie (lm := lm) fuel p (MkFlags (Some 2020) None None (Some 7) None None (Some (Fof (-25) (-1))) None None None (Some (Fof 1000 0)) None true false) /\
  sun_main tie (lm := lm) fuel p ["--hour"; "256"] = Val (Some ([], Some BadArguments)) /\
  sun_main tie (lm := lm) fuel p ["--hour"; "-1"] = Val (Some ([], Some BadArguments)) /\
  sun_main tie (lm := lm) fuel p ["--year"; "2020.0"] = Val (Some ([], Some BadArguments)) /\
  sun_main tie (lm := lm) fuel p ["--lat"; "1"; "--lat"; "2"] = Val (Some ([], Some BadArguments)) /\
  sun_main tie (lm := lm) fuel p ["--latitude"; "1"] = Val (Some ([], Some BadArguments)) /\
  sun_main tie (lm := lm) fuel p ["--lat"] = Val (Some ([], Some BadArguments)) /\
  sun_main tie (lm := lm) fuel p ["--hour"; "--day"; "5"; "7"] =
    sun_tool tie (lm := lm) fuel p (MkFlags None None (Some 5) (Some 7) None None None None None None None None false false).
Proof.
  intros tie lm fuel p. unfold sun_main.
  split. { rewrite (view_arguments _ (MkFlags (Some 2020) None None (Some 7) None None (Some (Fof (-25) (-1))) None None None (Some (Fof 1000 0)) None true false) []) by (vm_compute; reflexivity). reflexivity. }
  split; [reflexivity|]. split; [reflexivity|]. split; [reflexivity|]. 
  split. { assert (E : match sun_arguments ["--lat"; "1"; "--lat"; "2"] with Some (a, _) => f_extra a | None => false end = true) by (vm_compute; reflexivity).
    destruct (sun_arguments ["--lat"; "1"; "--lat"; "2"]) as [[a r]|]; [|discriminate E]. unfold sun_tool. cbv zeta. rewrite E. reflexivity. }
  split; [reflexivity|]. split; reflexivity.
Qed.
