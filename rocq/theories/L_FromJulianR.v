(** * from_julian in exact arithmetic *)

From Coq Require Import ZArith Reals Lra Lia Bool.
From Flocq Require Import Core.
From Verif Require Import Outcome Arith ArithR L_ArithR M_Common M_Calendar
  Spec_Calendar L_Calendar L_Civil.
Open Scope R_scope.

Lemma split_julian_R : forall dj1 dj2 : R,
  split_julian (A := realA) dj1 dj2 =
  (IZR (Zfloor (dj1 + dj2 - /2)), dj1 + dj2 - /2 - IZR (Zfloor (dj1 + dj2 - /2))).
Proof.
  intros dj1 dj2. unfold split_julian. cbn [leb realA num sub lit rem add ltb nround].
  rlit_in_goal.
  replace (5 / 10) with (/2) by lra.
  assert (G : forall a b : R, a + b = dj1 + dj2 ->
    (let d2 := b - /2 in
     let f1 := Rrem a 1 in
     let f2 := Rrem d2 1 in
     let f := Rrem (f1 + f2) 1 in
     let f0 := if Rlt_bool f 0 then f + 1 else f in
     let d := Rround (a - f1) + Rround (d2 - f2) + Rround (f1 + f2 - f0) in (d, f0)) =
    (IZR (Zfloor (dj1 + dj2 - /2)), dj1 + dj2 - /2 - IZR (Zfloor (dj1 + dj2 - /2)))).
  { intros a b E. cbv zeta. rewrite !Rrem_1.
    destruct (Ztrunc_plus_frac a) as (ra & Ea & Ba & _).
    destruct (Ztrunc_plus_frac (b - /2)) as (rb & Eb & Bb & _).
    set (na := Ztrunc a) in *. set (nb := Ztrunc (b - /2)) in *.
    replace (a - IZR na) with ra by lra. replace (b - /2 - IZR nb) with rb by lra.
    replace (a - ra) with (IZR na) by lra. replace (b - /2 - rb) with (IZR nb) by lra.
    rewrite !Rround_IZR.
    destruct (Ztrunc_plus_frac (ra + rb)) as (rc & Ec & Bc & _).
    set (nc := Ztrunc (ra + rb)) in *.
    replace (ra + rb - IZR nc) with rc by lra.
    destruct (Rlt_bool_spec rc 0) as [Hc|Hc].
    - assert (F : Zfloor (dj1 + dj2 - /2) = (na + nb + nc - 1)%Z).
      { apply Zfloor_unique_frac. rewrite minus_IZR, !plus_IZR. lra. }
      rewrite F. replace (ra + rb - (rc + 1)) with (IZR (nc - 1)) by (rewrite minus_IZR; lra).
      rewrite Rround_IZR. rewrite !minus_IZR, !plus_IZR. f_equal; lra.
    - assert (F : Zfloor (dj1 + dj2 - /2) = (na + nb + nc)%Z).
      { apply Zfloor_unique_frac. rewrite !plus_IZR. lra. }
      rewrite F. replace (ra + rb - rc) with (IZR nc) by lra.
      rewrite Rround_IZR. rewrite !plus_IZR. f_equal; lra. }
  destruct (Rle_bool dj2 dj1); apply G; lra.
Qed.

(** The date and fraction of the Julian date [dj]. *)
Definition jd_day (dj : R) : Z := Zfloor (dj - /2).
Definition jd_frac (dj : R) : R := dj - /2 - IZR (jd_day dj).
Definition date_of_civil (c : civil) : GregorianDate :=
  let '(y, m, d) := c in MkDate y m d.

Lemma jd_frac_bounds : forall dj, 0 <= jd_frac dj < 1.
Proof.
  intros dj. unfold jd_frac, jd_day.
  pose proof (Zfloor_lb (dj - /2)). pose proof (Zfloor_ub (dj - /2)). lra.
Qed.

Lemma from_julian_R_err : forall p dj1 dj2,
  dj1 + dj2 < -32000 \/ 1000000000 < dj1 + dj2 ->
  from_julian (A := realA) p dj1 dj2 = Val (Err BadJulian).
Proof.
  intros p dj1 dj2 H. unfold from_julian, DJ_MIN, DJ_MAX.
  cbn [ltb realA num add lit]. rlit_in_goal.
  destruct (Rlt_bool_spec (dj1 + dj2) (-32000)); [reflexivity|].
  destruct (Rlt_bool_spec 1000000000 (dj1 + dj2)); [reflexivity|]. lra.
Qed.

Lemma jd_day_bounds : forall dj n m, IZR n <= dj < IZR m + /2 -> (n - 1 <= jd_day dj <= m - 1)%Z.
Proof.
  intros dj n m [H1 H2]. unfold jd_day.
  pose proof (Zfloor_lb (dj - /2)). pose proof (Zfloor_ub (dj - /2)).
  split.
  - apply Z.le_trans with (Zfloor (IZR (n - 1))); [rewrite Zfloor_IZR; lia|].
    apply Zfloor_le. rewrite minus_IZR. lra.
  - apply Zlt_succ_le. apply lt_IZR. replace (Z.succ (m-1)) with m by lia. lra.
Qed.

Lemma from_julian_R_ok : forall p dj1 dj2,
  -32000 <= dj1 + dj2 < 536802342 + /2 ->
  from_julian (A := realA) p dj1 dj2 =
  Val (Ok (date_of_civil (civil_fn (jd_day (dj1 + dj2) + 1)), jd_frac (dj1 + dj2))).
Proof.
  intros p dj1 dj2 H. unfold from_julian, DJ_MIN, DJ_MAX.
  rewrite split_julian_R. fold (jd_day (dj1 + dj2)). fold (jd_frac (dj1 + dj2)).
  pose proof (jd_day_bounds (dj1 + dj2) (-32000) 536802342 H) as B.
  cbn [ltb realA num add lit to_i32]. rlit_in_goal.
  destruct (Rlt_bool_spec (dj1 + dj2) (-32000)); [lra|].
  destruct (Rlt_bool_spec 1000000000 (dj1 + dj2)); [lra|]. cbn [orb].
  rewrite Ztrunc_IZR. unfold clampZ, i32_min, i32_max, i32_add.
  rewrite Z.min_r, Z.max_r by lia.
  rewrite i32_ok by (unfold i32_min, i32_max; lia). cbn [bind].
  rewrite civil_of_jd_ok by lia.
  destruct (civil_fn (jd_day (dj1 + dj2) + 1)) as [[y m] d]. reflexivity.
Qed.

Lemma of_date_of_civil : forall c, of_date (date_of_civil c) = c.
Proof. intros [[y m] d]. reflexivity. Qed.
