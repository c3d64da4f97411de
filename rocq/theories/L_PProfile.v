(** * Proofs of C102 *)

From Coq Require Import ZArith Bool List String.
From Flocq Require Import Core BinarySingleNaN.
From Verif Require Import Outcome Arith ArithR ArithF M_Common M_Calendar M_DeltaAt M_Ellipsoid M_Time M_SunAngle M_Display M_Tools M_Tests Spec_Api Spec_Calendar Spec_Profile.
From Verif Require Import L_Calendar L_PCalendar.
From Verif Require L_PDeltaAt.
Open Scope Z_scope.

Lemma agree_const : forall X (x : outcome X), agree (fun _ => x).
Proof. intros X x. right. reflexivity. Qed.
Lemma agree_i32 : forall z, agree (fun p => i32 p z).
Proof. intros z. unfold agree, i32. destruct (in_i32 z); [right|left]; reflexivity. Qed.
Lemma agree_bind : forall X Y (f : profile -> outcome X) (k : profile -> X -> outcome Y), agree f -> (forall x, agree (fun p => k p x)) ->
  agree (fun p => bind (f p) (k p)).
Proof.
  intros X Y f k [H|H] K; unfold agree.
  - left. rewrite H. reflexivity.
  - rewrite <- H. destruct (f Debug) as [x|]; [exact (K x)|left; reflexivity].
Qed.
Lemma agree_bind_ok : forall X Y E (f : profile -> outcome (result X E)) (k : profile -> X -> outcome (result Y E)), agree f -> (forall x, agree (fun p => k p x)) ->
  agree (fun p => bind_ok (f p) (k p)).
Proof.
  intros X Y E f k [H|H] K; unfold agree.
  - left. rewrite H. reflexivity.
  - rewrite <- H. destruct (f Debug) as [[x|e]|]; [exact (K x)|right; reflexivity|left; reflexivity].
Qed.

Lemma agree_bind_i32 : forall Y z (k : profile -> Z -> outcome Y), (forall x, agree (fun p => k p x)) -> agree (fun p => bind (i32 p z) (k p)).
Proof. intros Y z k K. apply (agree_bind _ _ (fun p => i32 p z) k (agree_i32 z) K). Qed.
Lemma agree_bind_const : forall X Y (o : outcome X) (k : profile -> X -> outcome Y), (forall x, agree (fun p => k p x)) -> agree (fun p => bind o (k p)).
Proof. intros X Y o k K. apply (agree_bind _ _ (fun _ => o) k (agree_const _ o) K). Qed.

Ltac ag1 := lazymatch goal with
  | |- agree (fun p => bind (i32 p ?z) (@?k p)) => refine (agree_bind_i32 _ z k _); let x := fresh "x" in intros x; cbv beta
  | |- agree (fun p => bind ?o (@?k p)) => refine (agree_bind_const _ _ o k _); let x := fresh "x" in intros x; cbv beta
  | |- agree (fun p => i32 p ?z) => exact (agree_i32 z)
  | |- agree (fun _ => ?o) => exact (agree_const _ o)
  end.

Lemma agree_to_mjd : forall g, agree (fun p => to_mjd p g).
Proof. intros g. unfold to_mjd, i32_add, i32_sub, i32_mul. repeat ag1. Qed.
Lemma agree_civil : forall jd, agree (fun p => civil_of_jd p jd).
Proof. intros jd. unfold civil_of_jd, i32_add, i32_sub, i32_mul. repeat ag1. Qed.

Section Any.
Context {A : arith}.

Lemma agree_to_julian : forall g, agree (fun p => to_julian (A := A) p g).
Proof. intros g. unfold to_julian. apply (agree_bind _ _ (fun p => to_mjd p g)); [apply agree_to_mjd|]. intros x. apply agree_const. Qed.

Lemma agree_from_julian : forall x y, agree (fun p => from_julian (A := A) p x y).
Proof.
  intros x y. unfold from_julian, i32_add. destruct (_ || _); [apply agree_const|]. destruct (split_julian x y) as [d f].
  ag1. apply (agree_bind _ _ (fun p => civil_of_jd p x0)); [apply agree_civil|]. intros g. apply agree_const.
Qed.

Lemma agree_datehms_from : forall x y, agree (fun p => datehms_from_julian (A := A) p x y).
Proof.
  intros x y. unfold datehms_from_julian. apply (agree_bind_ok _ _ _ (fun p => from_julian p x y)); [apply agree_from_julian|].
  intros [g f]. apply agree_const.
Qed.
Lemma agree_datehms_to : forall x, agree (fun p => datehms_to_julian (A := A) p x).
Proof. intros x. unfold datehms_to_julian. apply (agree_bind _ _ (fun p => to_julian p (date x))); [apply agree_to_julian|]. intros [a b]. apply agree_const. Qed.

Lemma agree_delta_at : forall g f, agree (fun p => delta_at (A := A) p g f).
Proof.
  intros g f. unfold delta_at, i32_mul, i32_add. destruct (_ || _); [apply agree_const|]. ag1.
  destruct (year g <? d_year x); [apply agree_const|]. ag1. ag1. ag1. destruct (d_drift _) as [[d0 d1]|]; [|apply agree_const].
  apply (agree_bind _ _ (fun p => to_julian p g)); [apply agree_to_julian|]. intros [a b]. apply agree_const.
Qed.

Lemma agree_360 : forall g, agree (fun p => geodetic_to_360 (A := A) p g).
Proof. intros g. unfold agree, geodetic_to_360. destruct (_ && _); [right|left]; reflexivity. Qed.

Lemma agree_sun_new : forall par, agree (fun p => sun_new (A := A) p par).
Proof.
  intros par. unfold sun_new. apply (agree_bind _ _ (fun p => to_julian p (sp_date par))); [apply agree_to_julian|]. intros [a b].
  apply (agree_bind _ _ (fun p => delta_at p (sp_date par) _)); [apply agree_delta_at|]. intros r. apply agree_const.
Qed.

End Any.

(** C102.  Every function of the library whose model mentions the build profile,
    over any arithmetic and on every input: a debug build panics, or returns what a
    release build returns.  (The other functions do not depend on the profile.) *)
Lemma C102_agree_pf : forall A : arith,
  (forall g, agree (fun p => to_julian (A := A) p g)) /\
  (forall x y, agree (fun p => from_julian (A := A) p x y)) /\
  (forall x y, agree (fun p => datehms_from_julian (A := A) p x y)) /\
  (forall x, agree (fun p => datehms_to_julian (A := A) p x)) /\
  (forall g f, agree (fun p => delta_at (A := A) p g f)) /\
  (forall g, agree (fun p => geodetic_to_360 (A := A) p g)) /\
  (forall par, agree (fun p => sun_new (A := A) p par)).
Proof.
  intros A. repeat match goal with |- _ /\ _ => split end.
  - apply agree_to_julian.
  - apply agree_from_julian.
  - apply agree_datehms_from.
  - apply agree_datehms_to.
  - apply agree_delta_at.
  - apply agree_360.
  - apply agree_sun_new.
Qed.

(** C102, the printed positions and the two command-line tools: the same. *)
Lemma C102_tools_agree_pf : forall tie show lm,
  (forall g, agree (fun p => display_geodetic tie (lm := lm) p g)) /\
  (forall y m d h mi s, agree (fun p => tool_gregorian tie (lm := lm) p y m d h mi s)) /\
  (forall x y e, agree (fun p => tool_julian tie show (lm := lm) p x y e)) /\
  (forall fuel a, agree (fun p => sun_tool tie (lm := lm) fuel p a)).
Proof.
  intros tie show lm. repeat match goal with |- _ /\ _ => split end.
  - intros g. unfold display_geodetic. apply (agree_bind _ _ (fun p => geodetic_to_360 (A := b64A lm) p g)); [apply agree_360|]. intros d. apply agree_const.
  - intros y m d h mi s. unfold tool_gregorian. destruct y as [y|]; [|apply agree_const]. destruct m as [m|]; [|apply agree_const]. destruct d as [d|]; [|apply agree_const].
    ag1. destruct x as [gd|e]; [|apply agree_const]. apply (agree_bind _ _ (fun p => to_julian (A := b64A lm) p gd)); [apply agree_to_julian|]. intros [a b]. apply agree_const.
  - intros x y e. unfold tool_julian. destruct x as [x|]; [|apply agree_const]. destruct e; [apply agree_const|].
    apply (agree_bind _ _ (fun p => from_julian (A := b64A lm) p x _)); [apply agree_from_julian|]. intros r. apply agree_const.
  - intros fuel a. unfold sun_tool. destruct (f_extra a); [apply agree_const|]. ag1. destruct x as [gd|e]; [|apply agree_const].
    apply (agree_bind _ _ (fun p => sun_new (A := b64A lm) p _)); [apply agree_sun_new|]. intros c. apply agree_const.
Qed.

Lemma bind_ext : forall X Y (o : outcome X) (f g : X -> outcome Y), (forall x, f x = g x) -> bind o f = bind o g.
Proof. intros X Y [x|] f g H; [exact (H x)|reflexivity]. Qed.

(** C102, consequence for the Sun angle: for accepted dates before 1465073-03-01 the
    two builds return the same calculator or panic alike. *)
Lemma C102_sun_same_pf : forall (A : arith) par, accepted (sp_date (A := A) par) -> civil_lt (of_date (sp_date (A := A) par)) (1465073, 3, 1) ->
  sun_new (A := A) Debug par = sun_new (A := A) Release par.
Proof.
  intros A par H L. pose proof (proj1 (accepted_spec _) H) as OK. destruct (date_ok_range _ OK) as (B & C & D).
  assert (Y : year (sp_date (A := A) par) + my (month (sp_date (A := A) par)) <= 1465072).
  { unfold civil_lt, of_date in L. unfold my. destruct (Z.leb_spec (month (sp_date (A := A) par)) 2); Lia.lia. }
  assert (J : to_julian (A := A) Debug (sp_date (A := A) par) = to_julian (A := A) Release (sp_date (A := A) par)).
  { unfold to_julian. rewrite !to_mjd_ok by Lia.lia. reflexivity. }
  assert (M : forall f, delta_at (A := A) Debug (sp_date (A := A) par) f = delta_at (A := A) Release (sp_date (A := A) par) f).
  { intros f. assert (NP : delta_at (A := A) Debug (sp_date (A := A) par) f <> Panic) by (apply L_PDeltaAt.C24_delta_at_no_panic_pf; [exact H|]; unfold my in Y; destruct (month _ <=? 2); Lia.lia).
    destruct (agree_delta_at (sp_date (A := A) par) f) as [E|E]; [contradiction|exact E]. }
  unfold sun_new. rewrite J. apply bind_ext. intros [a b]. rewrite M. reflexivity.
Qed.

(** C102 where the builds do differ: the debug build panics at 1465073-03-01, and at
    the Julian date 1e9, while the release build returns values. *)
Example C102_example_pf : forall lm,
  to_julian (A := b64A lm) Debug (MkDate 1465073 3 1) = Panic /\
  to_julian (A := b64A lm) Release (MkDate 1465073 3 1) = Val (MJD_ZERO, of_int (b64A lm) (-539313779)) /\
  from_julian (A := b64A lm) Debug (FofZ 1000000000) (FofZ 0) = Panic /\
  from_julian (A := b64A lm) Release (FofZ 1000000000) (FofZ 0) <> Panic.
Proof.
  intros lm. destruct (C11_from_julian_no_overflow_refuted_pf lm) as [E (f & F)].
  refine (conj _ (conj _ (conj E _))).
  - assert (T : to_mjd Debug (MkDate 1465073 3 1) = Panic) by (vm_compute; reflexivity). unfold to_julian. rewrite T. reflexivity.
  - assert (T : to_mjd Release (MkDate 1465073 3 1) = Val (-539313779)) by (vm_compute; reflexivity). unfold to_julian. rewrite T. exact eq_refl.
  - intros Q. exact (eq_ind (Val (Ok (MkDate (-206610) (-3) 1073741815, f))) (fun o => match o with Val _ => True | Panic => False end) I Panic (eq_trans (eq_sym F) Q)).
Qed.
