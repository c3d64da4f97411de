(** * The Julian day number to civil date algorithm of from_julian *)

From Coq Require Import ZArith Bool List Lia.
From Verif Require Import Outcome Arith M_Common M_Calendar Spec_Calendar L_Calendar.
Import ListNotations.
Open Scope Z_scope.

(** The three stages, with floor division. *)
Definition cent (l : Z) : Z := 4 * l / 146097.
Definition rest1 (l : Z) : Z := l - (146097 * cent l + 3) / 4.
Definition yr (l1 : Z) : Z := 4000 * (l1 + 1) / 1461001.
Definition rest2 (l1 : Z) : Z := l1 - 1461 * yr l1 / 4 + 31.
Definition kk (l2 : Z) : Z := 80 * l2 / 2447.
Definition dd (l2 : Z) : Z := l2 - 2447 * kk l2 / 80.

Definition civil_fn (jd : Z) : civil :=
  let l := jd + 68569 in
  let n := cent l in
  let l1 := rest1 l in
  let i := yr l1 in
  let l2 := rest2 l1 in
  let k := kk l2 in
  (100 * (n - 49) + i + k / 11, k + 2 - 12 * (k / 11), dd l2).

Lemma cent_bounds : forall l, 0 <= l -> 0 <= cent l /\ 0 <= rest1 l <= 36524 /\
  (rest1 l = 36524 -> cent l mod 4 = 0) /\
  l = rest1 l + (146097 * cent l + 3) / 4.
Proof. intros l Hl. unfold rest1, cent. lia. Qed.

Lemma yr_bounds : forall l1, 0 <= l1 <= 36524 ->
  0 <= yr l1 <= 99 /\ 31 <= rest2 l1 <= 396 /\
  (rest2 l1 = 396 -> yr l1 mod 4 = 3 /\ (yr l1 = 99 -> l1 = 36524)).
Proof. intros l1 H. unfold rest2, yr. lia. Qed.

Lemma civil_of_jd_ok : forall p jd, -68569 <= jd <= 536802342 ->
  civil_of_jd p jd =
  (let '(y, m, d) := civil_fn jd in Val (MkDate y m d)).
Proof.
  intros p jd H. unfold civil_fn, civil_of_jd, i32_add, i32_sub, i32_mul.
  set (l := jd + 68569).
  assert (Hl : 0 <= l <= 536870911) by lia.
  destruct (cent_bounds l) as (C1 & C2 & C3 & C4); [lia|].
  assert (C5 : cent l <= 14699) by (unfold cent; lia).
  destruct (yr_bounds (rest1 l) C2) as (Y1 & Y2 & Y3).
  set (l1 := rest1 l) in *. set (i := yr l1) in *. set (l2 := rest2 l1) in *.
  assert (K : 1 <= kk l2 <= 12) by (unfold kk; lia).
  set (k := kk l2) in *.
  ok32. change (jd + 68569) with l. ok32. rewrite i32_div_ok by lia. cbn [bind].
  change (4 * l / 146097) with (cent l). ok32. ok32. rewrite i32_div_ok by lia. cbn [bind].
  ok32. change (l - (146097 * cent l + 3) / 4) with l1.
  ok32. ok32. rewrite i32_div_ok by lia. cbn [bind]. change (4000 * (l1 + 1) / 1461001) with i.
  ok32. rewrite i32_div_ok by lia. cbn [bind]. ok32. ok32.
  change (l1 - 1461 * i / 4 + 31) with l2.
  ok32. rewrite i32_div_ok by lia. cbn [bind]. change (80 * l2 / 2447) with k.
  ok32. rewrite i32_div_ok by lia. cbn [bind]. ok32.
  change (l2 - 2447 * k / 80) with (dd l2).
  rewrite i32_div_ok by lia. cbn [bind].
  ok32. ok32. ok32. ok32. ok32. ok32. ok32. reflexivity.
Qed.

Lemma civil_fn_spec : forall jd, -68569 <= jd ->
  valid_civil (civil_fn jd) /\ mjd (civil_fn jd) = jd - 2400001 /\
  -4900 <= fst (fst (civil_fn jd)).
Proof.
  intros jd H. unfold civil_fn.
  set (l := jd + 68569).
  destruct (cent_bounds l) as (C1 & C2 & C3 & C4); [lia|].
  destruct (yr_bounds (rest1 l) C2) as (Y1 & Y2 & Y3).
  assert (Y4 : rest1 l = rest2 (rest1 l) - 31 + 1461 * yr (rest1 l) / 4)
    by (unfold rest2; lia).
  set (n := cent l) in *. set (l1 := rest1 l) in *. set (i := yr l1) in *.
  set (l2 := rest2 l1) in *. clearbody n l1 i l2.
  assert (Hjd : jd = l - 68569) by lia.
  assert (K : kk l2 = 1 \/ kk l2 = 2 \/ kk l2 = 3 \/ kk l2 = 4 \/ kk l2 = 5 \/ kk l2 = 6 \/
    kk l2 = 7 \/ kk l2 = 8 \/ kk l2 = 9 \/ kk l2 = 10 \/ kk l2 = 11 \/ kk l2 = 12)
    by (unfold kk; lia).
  assert (D : dd l2 = l2 - 2447 * kk l2 / 80) by reflexivity.
  assert (B : 2447 * kk l2 <= 80 * l2 < 2447 * (kk l2 + 1)) by (unfold kk; lia).
  set (k := kk l2) in *. clearbody k.
  destruct K as [->|[->|[->|[->|[->|[->|[->|[->|[->|[->|[->| ->]]]]]]]]]]];
    match goal with |- context [?a / 11] =>
      let v := eval vm_compute in (a / 11) in change (a / 11) with v end;
    match goal with |- context [(_, ?m, dd l2)] =>
      let v := eval vm_compute in m in change m with v end;
    unfold mjd; my_eval; cbn [fst valid_civil month_length]; try lia.
  (* February *)
  unfold leap.
  destruct (Z.eqb_spec ((100 * (n - 49) + i + 1) mod 4) 0),
    (Z.eqb_spec ((100 * (n - 49) + i + 1) mod 100) 0),
    (Z.eqb_spec ((100 * (n - 49) + i + 1) mod 400) 0); cbn [andb orb negb]; lia.
Qed.
