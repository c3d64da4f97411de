(** * Error bounds: TAI - UTC *)

From Coq Require Import ZArith Reals Lra Lia Bool List.
From Flocq Require Import Core BinarySingleNaN.
From Verif Require Import Outcome Arith ArithR ArithF Spec_Float Spec_Accuracy M_Common M_Calendar M_DeltaAt Spec_Calendar Spec_Api.
From Verif Require Import L_ArithF L_ArithR L_Flit L_Calendar L_PCalendar L_DeltaAt L_PDeltaAt L_PSunAngle L_Apx L_ApxMod L_ApxAngle L_Libm.
Import ListNotations.
Open Scope R_scope.

Lemma mjd_between : forall g a b, accepted g -> (-4799 <= a <= year g)%Z -> (year g <= b)%Z ->
  (mjd (a, 1, 1) <= mjd (of_date g) <= mjd (b, 12, 31))%Z.
Proof.
  intros g a b H Ha Hb. destruct (accepted_month g H) as (M & D & _). unfold of_date. unfold mjd, my.
  change (1 <=? 2)%Z with true. change (12 <=? 2)%Z with false. cbv iota.
  destruct (Z.leb_spec (month g) 2); lia.
Qed.

Definition datE {A : arith} (e : DatData) (n fd : num A) : num A :=
  match d_drift e with
  | None => lit A (fst (d_dat e)) (snd (d_dat e))
  | Some (o, r) => add A (lit A (fst (d_dat e)) (snd (d_dat e)))
      (mul A (sub A (add A n fd) (lit A (fst o) (snd o))) (lit A (fst r) (snd r)))
  end.
Lemma datE_eval : forall (A : arith) e (n fd : num A), eval A [n; fd] (datE (A := exprA) e (EVar 0) (EVar 1)) = datE e n fd.
Proof. intros A e n fd. unfold datE. destruct (d_drift e) as [[o r]|]; reflexivity. Qed.

Definition nodrift (e : DatData) : bool := match d_drift e with None => true | _ => false end.
Definition dat_chk (bn bf b : bnd) : bool :=
  forallb (fun e => match bound [if nodrift e then B 0 0 0 else bn; bf] (datE (A := exprA) e (EVar 0) (EVar 1)) with
    | Some c => bleb c b | None => false end) DAT_DATA.

Definition same_dat (b : bnd) (x : option b64) (y : option R) : Prop :=
  match x, y with
  | None, None => True
  | Some x, Some y => apx x y b
  | _, _ => False
  end.

Definition b_drift_mjd : bnd := Eval compute in B (36934 * one) (41682 * one) 0.
Lemma drift_year : forall g e, (1 <= month g)%Z -> selected g e -> nodrift e = false -> (year g <= 1972)%Z.
Proof.
  intros g e M (I & S) N.
  assert (T : forallb (fun e => nodrift e || (key e <=? 23618)%Z) DAT_DATA = true) by (vm_compute; reflexivity).
  rewrite forallb_forall in T. specialize (T e I). rewrite N in T. cbn [orb] in T. apply Z.leb_le in T.
  destruct (Z_le_gt_dec (year g) 1972) as [L|L]; [exact L|exfalso].
  destruct S as [[S1 S2]|[S _]].
  - assert (J : In (MkDat 1972 1 (10, 0)%Z None) DAT_DATA) by (vm_compute; tauto).
    specialize (S2 _ J). unfold mkey, key in *. cbn [d_year d_month] in S2. destruct (Z_lt_le_dec (12 * 1972 + 1) (12 * year g + month g)) as [K|K]; [specialize (S2 K); lia|].
    lia.
  - unfold mkey in S. lia.
Qed.

Lemma datE_lm : forall lm e (n fd : b64), datE (A := b64A lm) e n fd = datE (A := b64A nice_libm) e n fd.
Proof. intros lm e n fd. unfold datE. destruct (d_drift e) as [[o r]|]; reflexivity. Qed.
Lemma dat_ok : forall lm p g fd fd' bf b, accepted g -> (year g < 178956970)%Z ->
  apx fd fd' bf -> dat_chk b_drift_mjd bf b = true ->
  (Bltb fd (Flit 0 0)) || (Bltb (Flit 1 0) fd) = false -> 0 <= fd' <= 1 ->
  exists x y, delta_at (A := b64A lm) p g fd = Val (Ok x) /\ delta_at (A := realA) p g fd' = Val (Ok y) /\
    (x = None <-> (year g < 1960)%Z) /\ same_dat b x y.
Proof.
  intros lm p g fd fd' bf b Hg Hy Hf C RF RR. destruct (accepted_month g Hg) as (M & _ & _).
  pose proof (proj2 (rejected_R fd') RR) as RR'.
  destruct (Z_lt_le_dec (year g) 1960) as [L|L].
  - exists None, None. cbn [same_dat]. split; [|split; [|split; [|exact I]]].
    + unfold delta_at. cbn [b64A ltb lit num]. rewrite RF.
      change (index DAT_DATA 0) with (Val (MkDat 1960 1 (1417818, (-6)) (Some ((37300, 0), (1296, (-6)))))%Z).
      cbn [bind d_year]. destruct (Z.ltb_spec (year g) 1960); [reflexivity|lia].
    + unfold delta_at. rewrite RR'.
      change (index DAT_DATA 0) with (Val (MkDat 1960 1 (1417818, (-6)) (Some ((37300, 0), (1296, (-6)))))%Z).
      cbn [bind d_year]. destruct (Z.ltb_spec (year g) 1960); [reflexivity|lia].
    + tauto.
  - destruct (delta_at_eval (b64A lm) p g fd) as (e & Se & EF); [exact RF|lia|lia|].
    destruct (delta_at_eval realA p g fd' RR') as (e' & Se' & ER); [lia|lia|].
    pose proof (selected_unique g e e' Se Se') as <-.
    assert (K : forall n, (nodrift e = true \/ n = mjd (of_date g)) ->
      apx (datE (A := b64A lm) e (FofZ n) fd) (datE (A := realA) e (IZR n) fd') b).
    { intros n Hn. refine (eq_ind_r (fun z : b64 => apx z _ b) _ (datE_lm lm e (FofZ n) fd)). unfold dat_chk in C. rewrite forallb_forall in C. specialize (C e (proj1 Se)).
      destruct (nodrift e) eqn:N.
      - destruct (bound _ _) as [c|] eqn:E in C; [|discriminate C].
        assert (A0 : apx (Flit 0 0) 0 (B 0 0 0)) by (rewrite <- (Rlit_0 0); apply (apx_lit 0 0); reflexivity).
        pose proof (bound_ok nice_libm nice_good _ _ _ (apxl_cons A0 (apxl_cons Hf apxl_nil)) _ _ E) as K.
        rewrite (datE_eval (b64A nice_libm)), (datE_eval realA) in K. apply (fun k => apx_weaken _ _ _ _ k C) in K.
        unfold datE in K |- *. unfold nodrift in N. destruct (d_drift e) as [[o r]|]; [discriminate N|exact K].
      - destruct Hn as [Hn| ->]; [discriminate Hn|].
        destruct (bound _ _) as [c|] eqn:E in C; [|discriminate C].
        pose proof (drift_year g e (proj1 M) Se N) as YB.
        pose proof (mjd_between g 1960 1972 Hg ltac:(lia) YB) as MB.
        change (mjd (1960, 1, 1)%Z) with 36934%Z in MB. change (mjd (1972, 12, 31)%Z) with 41682%Z in MB.
        destruct (FofZ_ok (mjd (of_date g)) ltac:(lia)) as (VZ & FZ & _).
        pose proof (apx_var (FofZ (mjd (of_date g))) 36934 41682 FZ) as AN. rewrite VZ in AN.
        specialize (AN (conj (IZR_le _ _ (proj1 MB)) (IZR_le _ _ (proj2 MB)))).
        pose proof (bound_ok nice_libm nice_good _ _ _ (apxl_cons AN (apxl_cons Hf apxl_nil)) _ _ E) as K.
        rewrite (datE_eval (b64A nice_libm)), (datE_eval realA) in K. exact (apx_weaken _ _ _ _ K C). }
    destruct (nodrift e) eqn:N.
    + unfold nodrift in N. destruct (d_drift e) as [[o r]|] eqn:D; [discriminate N|].
      exists (Some (datE (A := b64A lm) e (FofZ 0) fd)), (Some (datE (A := realA) e (IZR 0) fd')).
      split; [rewrite EF; unfold datE; rewrite D; reflexivity|]. split; [rewrite ER; unfold datE; rewrite D; reflexivity|].
      split; [split; [discriminate|lia]|]. cbn [same_dat]. apply K. left. reflexivity.
    + pose proof (drift_year g e (proj1 M) Se N) as YB. unfold nodrift in N. destruct (d_drift e) as [[o r]|] eqn:D; [|discriminate N].
      rewrite to_mjd_accepted in EF; [|exact Hg|lia]. rewrite to_mjd_accepted in ER; [|exact Hg|lia].
      exists (Some (datE (A := b64A lm) e (FofZ (mjd (of_date g))) fd)), (Some (datE (A := realA) e (IZR (mjd (of_date g))) fd')).
      split; [rewrite EF; unfold datE; rewrite D; reflexivity|]. split; [rewrite ER; unfold datE; rewrite D; reflexivity|].
      split; [split; [discriminate|lia]|]. cbn [same_dat]. apply K. right. reflexivity.
Qed.
