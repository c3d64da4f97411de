(** * Sums of terms t^k (s sin a + c cos a) with integer coefficients

    The angles [a] are integer combinations of the entries of a list of real
    numbers.  Products are expanded into sums, equal arguments are collected, and
    the absolute value is bounded by the sum of the absolute coefficients. *)

From Coq Require Import ZArith Reals Lra Lia Bool List.
From Verif Require Import Spec_Series L_Epv L_Orbit.
Import ListNotations.
Open Scope R_scope.

Definition term : Type := (nat * list Z * Z * Z)%type.

Section Eval.
Variables (th : list R) (t : R).
Definition ev1 (x : term) : R :=
  let '(k, n, s, c) := x in t ^ k * (IZR s * sin (combo n th) + IZR c * cos (combo n th)).
Fixpoint ev (l : list term) : R :=
  match l with [] => 0 | x :: r => ev1 x + ev r end.
Lemma ev_app : forall a b, ev (a ++ b) = ev a + ev b.
Proof. induction a as [|x a IH]; intros b; cbn [app ev]; [ring|rewrite IH; ring]. Qed.
Lemma ev_flat : forall (f : nat -> list term) l, ev (flat_map f l) = fold_right (fun i s => ev (f i) + s) 0 l.
Proof. intros f l. induction l as [|i l IH]; [reflexivity|]. cbn [flat_map fold_right]. rewrite ev_app, IH. reflexivity. Qed.

(** ** Multiples *)
Definition smul1 (z : Z) (x : term) : term := let '(k, n, s, c) := x in (k, n, (z * s)%Z, (z * c)%Z).
Definition smul (z : Z) (l : list term) : list term := map (smul1 z) l.
Lemma ev_smul : forall z l, ev (smul z l) = IZR z * ev l.
Proof.
  intros z l. induction l as [|[[[k n] s] c] l IH]; [cbn; ring|]. cbn [smul map ev] in *. unfold smul in IH. rewrite IH.
  cbn [smul1 ev1]. rewrite !mult_IZR. ring.
Qed.
Definition tmul (l : list term) : list term := map (fun x : term => let '(k, n, s, c) := x in (S k, n, s, c)) l.
Lemma ev_tmul : forall l, ev (tmul l) = t * ev l.
Proof.
  intros l. induction l as [|[[[k n] s] c] l IH]; [cbn; ring|]. cbn [tmul map ev] in *. unfold tmul in IH. rewrite IH.
  cbn [ev1 pow]. ring.
Qed.

(** ** Products *)
Fixpoint zadd (a b : list Z) : list Z :=
  match a, b with
  | [], _ => b
  | _, [] => a
  | x :: a', y :: b' => (x + y)%Z :: zadd a' b'
  end.
Definition zneg (a : list Z) : list Z := map Z.opp a.
Lemma combo_nil : forall fa, combo [] fa = 0.
Proof. intros [|x fa]; reflexivity. Qed.
Lemma combo_r : forall a, combo a [] = 0.
Proof. intros [|x a]; reflexivity. Qed.
Lemma combo_zadd : forall a b fa, combo (zadd a b) fa = combo a fa + combo b fa.
Proof.
  induction a as [|x a IH]; intros b fa; [cbn [zadd]; rewrite combo_nil; ring|].
  destruct b as [|y b]; [cbn [zadd]; rewrite combo_nil; ring|]. destruct fa as [|f fa]; [rewrite !combo_r; ring|].
  cbn [zadd combo]. rewrite IH, plus_IZR. ring.
Qed.
Lemma combo_zneg : forall a fa, combo (zneg a) fa = - combo a fa.
Proof.
  induction a as [|x a IH]; intros fa; [cbn [zneg map]; rewrite combo_nil; ring|]. destruct fa as [|f fa]; [rewrite !combo_r; ring|].
  cbn [zneg map combo] in *. unfold zneg in IH. rewrite IH, opp_IZR. ring.
Qed.

(** Twice the product of two terms. *)
Definition mul1 (x y : term) : list term :=
  let '(k, n, s, c) := x in let '(l, m, u, v) := y in
  [((k + l)%nat, zadd n m, (s * v + c * u)%Z, (c * v - s * u)%Z);
   ((k + l)%nat, zadd n (zneg m), (s * v - c * u)%Z, (c * v + s * u)%Z)].
Lemma ev_mul1 : forall x y, ev (mul1 x y) = 2 * (ev1 x * ev1 y).
Proof.
  intros [[[k n] s] c] [[[l m] u] v]. cbn [mul1 ev ev1]. rewrite !combo_zadd, combo_zneg.
  set (a := combo n th). set (b := combo m th). rewrite !sin_plus, !cos_plus, sin_neg, cos_neg.
  rewrite !plus_IZR, !minus_IZR, !mult_IZR, pow_add. ring.
Qed.
Definition mul (a b : list term) : list term := flat_map (fun x => flat_map (mul1 x) b) a.
Lemma ev_mul_row : forall x b, ev (flat_map (mul1 x) b) = 2 * (ev1 x * ev b).
Proof.
  intros x b. induction b as [|y b IH]; [cbn [flat_map ev]; ring|]. cbn [flat_map]. rewrite ev_app, IH, ev_mul1. cbn [ev]. ring.
Qed.
Lemma ev_mul : forall a b, ev (mul a b) = 2 * (ev a * ev b).
Proof.
  intros a b. unfold mul. induction a as [|x a IH]; [cbn [flat_map ev]; ring|]. cbn [flat_map]. rewrite ev_app, IH, ev_mul_row.
  cbn [ev]. ring.
Qed.

(** ** Collecting equal arguments *)
Fixpoint lead (n : list Z) : comparison :=
  match n with
  | [] => Eq
  | x :: r => match x with 0%Z => lead r | Zpos _ => Gt | Zneg _ => Lt end
  end.
Definition canon (x : term) : term :=
  let '(k, n, s, c) := x in match lead n with Gt => x | Lt => (k, zneg n, (- s)%Z, c) | Eq => (k, n, 0%Z, c) end.
Lemma combo_zero : forall n fa, lead n = Eq -> combo n fa = 0.
Proof.
  induction n as [|x n IH]; intros fa H; [apply combo_nil|]. destruct fa as [|f fa]; [reflexivity|]. cbn [lead combo] in *.
  destruct x; try discriminate. rewrite IH by exact H. ring.
Qed.
Lemma ev_canon : forall x, ev1 (canon x) = ev1 x.
Proof.
  intros [[[k n] s] c]. cbn [canon]. destruct (lead n) eqn:E; cbn [ev1].
  - rewrite (combo_zero n th E), sin_0. ring.
  - rewrite combo_zneg, sin_neg, cos_neg, opp_IZR. ring.
  - reflexivity.
Qed.
Fixpoint zeq (a b : list Z) : bool :=
  match a, b with
  | [], [] => true
  | x :: a', y :: b' => Z.eqb x y && zeq a' b'
  | _, _ => false
  end.
Lemma zeq_ok : forall a b, zeq a b = true -> a = b.
Proof.
  induction a as [|x a IH]; intros [|y b] H; try discriminate; [reflexivity|]. cbn [zeq] in H. apply andb_prop in H. destruct H as [H1 H2].
  apply Z.eqb_eq in H1. rewrite H1, (IH b H2). reflexivity.
Qed.
Fixpoint put (x : term) (l : list term) : list term :=
  match l with
  | [] => [x]
  | y :: r => let '(k, n, s, c) := x in let '(l', m, u, v) := y in
      if Nat.eqb k l' && zeq n m then (k, n, (s + u)%Z, (c + v)%Z) :: r else y :: put x r
  end.
Lemma ev_put : forall x l, ev (put x l) = ev1 x + ev l.
Proof.
  intros x l. induction l as [|y r IH]; [reflexivity|]. destruct x as [[[k n] s] c]. destruct y as [[[l' m] u] v]. cbn [put].
  destruct (Nat.eqb k l' && zeq n m) eqn:E.
  - apply andb_prop in E. destruct E as [E1 E2]. apply Nat.eqb_eq in E1. apply zeq_ok in E2. subst l' m. cbn [ev ev1]. rewrite !plus_IZR. ring.
  - cbn [ev] in *. rewrite IH. ring.
Qed.
Definition collect (l : list term) : list term := fold_right (fun x r => put (canon x) r) [] l.
Lemma ev_collect : forall l, ev (collect l) = ev l.
Proof.
  induction l as [|x l IH]; [reflexivity|]. cbn [collect fold_right] in *. unfold collect in IH. rewrite ev_put, ev_canon, IH. reflexivity.
Qed.

(** ** Bounds *)
Definition size1 (x : term) : Z := let '(_, _, s, c) := x in (Z.abs s + Z.abs c)%Z.
Fixpoint size (l : list term) : Z := match l with [] => 0 | x :: r => size1 x + size r end%Z.
Lemma size_nonneg : forall l, (0 <= size l)%Z.
Proof. induction l as [|[[[k n] s] c] l IH]; cbn [size size1]; lia. Qed.
Lemma tpow : Rabs t <= 1 -> forall k, Rabs (t ^ k) <= 1.
Proof.
  intros H k. induction k as [|k IH]; [cbn; rewrite Rabs_R1; lra|]. cbn [pow]. rewrite Rabs_mult.
  pose proof (Rabs_pos t). pose proof (Rabs_pos (t ^ k)). nra.
Qed.
Lemma ev1_size : Rabs t <= 1 -> forall x, Rabs (ev1 x) <= IZR (size1 x).
Proof.
  intros H [[[k n] s] c]. cbn [ev1 size1]. rewrite plus_IZR, !abs_IZR, Rabs_mult.
  assert (B : Rabs (IZR s * sin (combo n th) + IZR c * cos (combo n th)) <= Rabs (IZR s) + Rabs (IZR c)).
  { eapply Rle_trans; [apply Rabs_triang|]. rewrite !Rabs_mult.
    assert (Rabs (sin (combo n th)) <= 1) by (apply Rabs_le, SIN_bound). assert (Rabs (cos (combo n th)) <= 1) by (apply Rabs_le, COS_bound).
    pose proof (Rabs_pos (IZR s)). pose proof (Rabs_pos (IZR c)). apply Rplus_le_compat; nra. }
  pose proof (tpow H k). pose proof (Rabs_pos (t ^ k)). set (u := Rabs (t ^ k)) in *. set (w := Rabs (_ + _)) in *. assert (0 <= w) by apply Rabs_pos.
  clearbody u w. nra.
Qed.
Lemma ev_size : Rabs t <= 1 -> forall l, Rabs (ev l) <= IZR (size l).
Proof.
  intros H l. induction l as [|x l IH]; [cbn [ev size]; rewrite Rabs_R0; lra|]. cbn [ev size]. rewrite plus_IZR.
  eapply Rle_trans; [apply Rabs_triang|]. apply Rplus_le_compat; [apply ev1_size; exact H|exact IH].
Qed.

(** ** Leaving out small terms *)
Definition big (b : Z) (l : list term) : list term := filter (fun x => (b <? size1 x)%Z) l.
Definition small (b : Z) (l : list term) : list term := filter (fun x => negb (b <? size1 x)%Z) l.
Lemma ev_split : forall b l, ev l = ev (big b l) + ev (small b l).
Proof.
  intros b l. induction l as [|x l IH]; [cbn; ring|]. cbn [big small filter ev] in *. unfold big, small in IH.
  destruct (b <? size1 x)%Z; cbn [negb ev]; rewrite IH; ring.
Qed.
End Eval.

(** ** Shifting the arguments *)
Lemma ev1_shift : forall A B t d, Rabs t <= 1 -> forall x, (let '(_, n, _, _) := x in Rabs (combo n A - combo n B) <= d) ->
  Rabs (ev1 A t x - ev1 B t x) <= d * IZR (size1 x).
Proof.
  intros A B t d H [[[k n] s] c] E. cbn [ev1 size1]. rewrite plus_IZR, !abs_IZR.
  pose proof (sin_lip (combo n A) (combo n B)) as S. pose proof (cos_lip (combo n A) (combo n B)) as C.
  set (a := combo n A) in *. set (b := combo n B) in *. 
  replace (t ^ k * (IZR s * sin a + IZR c * cos a) - t ^ k * (IZR s * sin b + IZR c * cos b))
    with (t ^ k * (IZR s * (sin a - sin b) + IZR c * (cos a - cos b))) by ring.
  assert (Q : Rabs (IZR s * (sin a - sin b) + IZR c * (cos a - cos b)) <= d * (Rabs (IZR s) + Rabs (IZR c))).
  { eapply Rle_trans; [apply Rabs_triang|]. rewrite !Rabs_mult. pose proof (Rabs_pos (IZR s)). pose proof (Rabs_pos (IZR c)).
    assert (Rabs (sin a - sin b) <= d) by lra. assert (Rabs (cos a - cos b) <= d) by lra.
    rewrite Rmult_plus_distr_l. apply Rplus_le_compat; rewrite Rmult_comm; apply Rmult_le_compat_r; assumption. }
  rewrite Rabs_mult. pose proof (tpow t H k). pose proof (Rabs_pos (t ^ k)). set (u := Rabs (t ^ k)) in *. set (w := Rabs (_ + _)) in *.
  assert (0 <= w) by apply Rabs_pos. clearbody u w. nra.
Qed.
Lemma ev_shift : forall A B t d, Rabs t <= 1 -> forall l, (forall k n s c, In (k, n, s, c) l -> Rabs (combo n A - combo n B) <= d) ->
  Rabs (ev A t l - ev B t l) <= d * IZR (size l).
Proof.
  intros A B t d H l. induction l as [|x l IH]; intros E; [cbn [ev size]; rewrite Rminus_0_r, Rabs_R0; lra|].
  cbn [ev size]. rewrite plus_IZR. replace (ev1 A t x + ev A t l - (ev1 B t x + ev B t l)) with ((ev1 A t x - ev1 B t x) + (ev A t l - ev B t l)) by ring.
  eapply Rle_trans; [apply Rabs_triang|]. rewrite Rmult_plus_distr_l. apply Rplus_le_compat.
  - apply ev1_shift; [exact H|]. destruct x as [[[k n] s] c]. apply (E k n s c). left. reflexivity.
  - apply IH. intros k n s c Hin. apply (E k n s c). right. exact Hin.
Qed.
