(** * Lemmas for C70: geodetic to geocentric in binary64 *)

From Coq Require Import ZArith Reals Lra Lia Bool List.
From Flocq Require Import Core BinarySingleNaN.
From Verif Require Import Outcome Arith ArithR ArithF Spec_Float Spec_Accuracy M_Common M_Ellipsoid Spec_Matrix Spec_Sun Spec_Geo.
From Verif Require Import L_ArithF L_ArithR L_Flit L_Apx L_ApxMod L_ApxAngle L_ApxFrames L_ApxGeo L_PSunAngle.
Import ListNotations.
Open Scope R_scope.

(** C70, exact arithmetic: the WGS84 converter computes the textbook position. *)
Lemma C70_exact_pf : forall c lo la h, conv_new (A := realA) (WGS84 (A := realA)) = Ok c ->
  geodetic_to_geocentric (A := realA) c (MkGeod (A := realA) lo la h) = Ok (wgs84_at lo la h).
Proof.
  intros c lo la h H. apply conv_el in H. rewrite (geo_val realA c lo la h H). cbv zeta.
  change (nsin realA) with sin. change (ncos realA) with cos.
  replace (ltb realA (Arith.lit realA 0 0) (geoD (A := realA) (sin la) (cos la))) with true.
  - unfold wgs84_at. cbv zeta. rewrite <- geoD_R, <- geoW_R. unfold geoX, geoZ. realA_ops.
    assert (L6 : Rlit 6378137 0 = 6378137) by (apply (Rlit_0 6378137)). rewrite L6. reflexivity.
  - symmetry. realA_ops. apply Rlt_bool_true. rewrite (Rlit_0 0). pose proof (geoD_range la). lra.
Qed.

Definition b_h : bnd := b_sym 10000000.
Lemma apx_h : forall h, fin h = true -> Rabs (B2R h) <= 10000000 -> apx h (B2R h) b_h.
Proof. intros h F H. apply Rabs_le_inv in H. apply apx_var; [exact F|exact H]. Qed.
Lemma apx_any : forall x, fin x = true -> exists b, apx x (B2R x) b /\ er b = 0%Z.
Proof.
  intros x F. exists (B (Zfloor (B2R x) * one) (Zceil (B2R x) * one) 0). split; [|reflexivity].
  apply apx_var; [exact F|]. split; [apply Zfloor_lb|apply Zceil_ub].
Qed.

(** C70, binary64: every longitude and latitude in radians, every height up to
    10000 km either way: each coordinate is within 3e-8 m. *)
Lemma C70_accuracy_pf : forall lm, good_libm lm -> forall c lo la h,
  conv_new (A := b64A lm) (WGS84 (A := b64A lm)) = Ok c ->
  fin lo = true -> fin la = true -> fin h = true -> Rabs (B2R h) <= 10000000 ->
  exists v, geodetic_to_geocentric (A := b64A lm) c (MkGeod (A := b64A lm) lo la h) = Ok v /\
  let w := wgs84_at (B2R lo) (B2R la) (B2R h) in
  near (v0 (A := b64A lm) v) (coord w I0) (3 / 10 ^ 8) /\
  near (v1 (A := b64A lm) v) (coord w I1) (3 / 10 ^ 8) /\
  near (v2 (A := b64A lm) v) (coord w I2) (3 / 10 ^ 8).
Proof.
  intros lm G c lo la h Hc Fo Fa Fh Bh. apply conv_el in Hc.
  destruct (apx_any lo Fo) as (bo & Ao & Eo). destruct (apx_any la Fa) as (ba & Aa & Ea).
  pose proof (apx_h h Fh Bh) as Ah.
  destruct (geo_ok lm G lo la h _ _ _ bo ba b_h (2 ^ 76) 3 (10 ^ 8) Ao Aa Ah) with (c := c) as (v & Hv & K0 & K1 & K2); 
    [rewrite Eo; reflexivity|rewrite Ea; reflexivity|vm_compute; reflexivity|exact Hc|].
  exists v. split; [exact Hv|]. replace (3 / 10 ^ 8) with (IZR 3 / IZR (10 ^ 8)) by (change (10 ^ 8)%Z with 100000000%Z; lra).
  cbv zeta. unfold wgs84_at, coord. cbn [vget v0 v1 v2]. split; [exact K0|split; [exact K1|exact K2]].
Qed.

Definition deg_expr {A : arith} (x : num A) : num A := mul A x (DEGREE (A := A)).
Lemma deg_eval : forall (A : arith) (x : num A), eval A [x] (deg_expr (A := exprA) (EVar 0)) = deg_expr x.
Proof. reflexivity. Qed.
Definition b_deg : bnd := Eval vm_compute in match bound [b_sym 360] (deg_expr (A := exprA) (EVar 0)) with Some b => b | None => B 0 0 0 end.
Lemma apx_deg : forall lm, good_libm lm -> forall x, fin x = true -> Rabs (B2R x) <= 360 ->
  apx (mul (b64A lm) x (DEGREE (A := b64A lm))) (degrees (B2R x)) b_deg.
Proof.
  intros lm G x F H. apply Rabs_le_inv in H.
  assert (E : bound [b_sym 360] (deg_expr (A := exprA) (EVar 0)) = Some b_deg) by (vm_compute; reflexivity).
  pose proof (bound_ok lm G _ _ _ (apxl_cons (apx_var x (- 360) 360 F H) apxl_nil) _ _ E) as K.
  rewrite (deg_eval (b64A lm)), (deg_eval realA) in K.
  replace (degrees (B2R x)) with (deg_expr (A := realA) (B2R x)); [exact K|].
  unfold deg_expr, degrees, DEGREE. realA_ops. rewrite (Rlit_0 180). reflexivity.
Qed.

Definition zen_e {A : arith} (i : idx) (o a : num A) : num A := vget (zenith (MkGeod o a a)) i.
Lemma zen_eval : forall (A : arith) i (o a : num A), eval A [o; a] (zen_e (A := exprA) i (EVar 0) (EVar 1)) = zen_e i o a.
Proof. intros A i o a. destruct i; reflexivity. Qed.
Definition zen_chk (m d : Z) : bool :=
  forallb (fun i => match bound [b_deg; b_deg] (zen_e (A := exprA) i (EVar 0) (EVar 1)) with
    | Some b => (er b * d <=? m * one)%Z | None => false end) [I0; I1; I2].
Lemma apx_zenith : forall lm, good_libm lm -> forall lo la (h : b64), fin lo = true -> fin la = true ->
  Rabs (B2R lo) <= 360 -> Rabs (B2R la) <= 360 ->
  forall m d, (0 <? d)%Z = true -> zen_chk m d = true ->
  forall i, near (vget (A := b64A lm) (zenith (A := b64A lm) (geodetic_of_360 (A := b64A lm) (MkG360 (A := b64A lm) lo la h))) i)
    (coord (zenith_of (MkG360 (A := realA) (B2R lo) (B2R la) (B2R h))) i) (IZR m / IZR d).
Proof.
  intros lm G lo la h Fo Fa Bo Ba m d D C i.
  pose proof (apx_deg lm G lo Fo Bo) as Ao. pose proof (apx_deg lm G la Fa Ba) as Aa.
  unfold zen_chk in C. rewrite forallb_forall in C. specialize (C i ltac:(destruct i; cbn; auto)).
  destruct (bound _ _) as [b|] eqn:E in C; [|discriminate C].
  pose proof (bound_ok lm G _ _ _ (apxl_cons Ao (apxl_cons Aa apxl_nil)) _ _ E) as K.
  rewrite (zen_eval (b64A lm)), (zen_eval realA) in K.
  unfold geodetic_of_360. cbn [lon lat height360].
  assert (EF : vget (A := b64A lm) (zenith (A := b64A lm) (MkGeod (A := b64A lm) (mul (b64A lm) lo DEGREE) (mul (b64A lm) la DEGREE) h)) i =
    zen_e (A := b64A lm) i (mul (b64A lm) lo DEGREE) (mul (b64A lm) la DEGREE)) by (unfold zen_e, zenith; destruct i; reflexivity).
  assert (ER : coord (zenith_of (MkG360 (A := realA) (B2R lo) (B2R la) (B2R h))) i = zen_e (A := realA) i (degrees (B2R lo)) (degrees (B2R la)))
    by (unfold coord, zenith_of, zen_e, zenith; destruct i; reflexivity).
  rewrite ER. split.
  - rewrite EF. apply K.
  - rewrite EF. apply (apx_err _ _ _ _ _ K D C).
Qed.

(** C70, binary64, from degrees: every longitude and latitude up to 360 degrees
    either way, every height up to 10000 km either way: each coordinate of the
    position is within 2e-7 m and each coordinate of the zenith within 5e-15. *)
Lemma C70_degrees_pf : forall lm, good_libm lm -> forall c lo la h,
  conv_new (A := b64A lm) (WGS84 (A := b64A lm)) = Ok c ->
  fin lo = true -> fin la = true -> fin h = true ->
  Rabs (B2R lo) <= 360 -> Rabs (B2R la) <= 360 -> Rabs (B2R h) <= 10000000 ->
  let g := geodetic_of_360 (A := b64A lm) (MkG360 (A := b64A lm) lo la h) in
  let pos := MkG360 (A := realA) (B2R lo) (B2R la) (B2R h) in
  exists v, geodetic_to_geocentric (A := b64A lm) c g = Ok v /\
  forall i, near (vget (A := b64A lm) v i) (coord (wgs84_point pos) i) (2 / 10 ^ 7) /\
            near (vget (A := b64A lm) (zenith (A := b64A lm) g) i) (coord (zenith_of pos) i) (5 / 10 ^ 15).
Proof.
  intros lm G c lo la h Hc Fo Fa Fh Bo Ba Bh g pos. apply conv_el in Hc.
  pose proof (apx_deg lm G lo Fo Bo) as Ao. pose proof (apx_deg lm G la Fa Ba) as Aa. pose proof (apx_h h Fh Bh) as Ah.
  destruct (geo_ok lm G _ _ h _ _ _ _ _ b_h (er b_deg + 2 ^ 76) 2 (10 ^ 7) Ao Aa Ah) with (c := c) as (v & Hv & K0 & K1 & K2); 
    [apply Z.leb_refl|apply Z.leb_refl|vm_compute; reflexivity|exact Hc|].
  exists v. split; [exact Hv|]. intros i. split.
  - replace (2 / 10 ^ 7) with (IZR 2 / IZR (10 ^ 7)) by (change (10 ^ 7)%Z with 10000000%Z; lra).
    unfold wgs84_point, coord, pos. cbv zeta. cbn [lon lat height360]. destruct i; cbn [vget v0 v1 v2]; [exact K0|exact K1|exact K2].
  - replace (5 / 10 ^ 15) with (IZR 5 / IZR (10 ^ 15)) by (change (10 ^ 15)%Z with 1000000000000000%Z; lra).
    apply (apx_zenith lm G lo la h Fo Fa Bo Ba); [reflexivity|vm_compute; reflexivity].
Qed.

(** C70 at 90 degrees east on the equator, 1 km up: in binary64 y is within 2e-7 m
    of 6379137 m; the north pole is within 2e-7 m of the polar axis. *)
Example C70_example_pf : forall lm, good_libm lm -> exists c v n,
  conv_new (A := b64A lm) (WGS84 (A := b64A lm)) = Ok c /\
  geodetic_to_geocentric (A := b64A lm) c (geodetic_of_360 (A := b64A lm) (MkG360 (A := b64A lm) (Flit 90 0) (Flit 0 0) (Flit 1000 0))) = Ok v /\
  near (v0 (A := b64A lm) v) 0 (2 / 10 ^ 7) /\ near (v1 (A := b64A lm) v) 6379137 (2 / 10 ^ 7) /\ near (v2 (A := b64A lm) v) 0 (2 / 10 ^ 7) /\
  geodetic_to_geocentric (A := b64A lm) c (geodetic_of_360 (A := b64A lm) (MkG360 (A := b64A lm) (Flit 0 0) (Flit 90 0) (Flit 0 0))) = Ok n /\
  near (v0 (A := b64A lm) n) 0 (2 / 10 ^ 7) /\ near (v1 (A := b64A lm) n) 0 (2 / 10 ^ 7) /\
  near (v2 (A := b64A lm) n) (6378137 * (1 - 1 / 298.257223563)) (2 / 10 ^ 7).
Proof.
  intros lm G. destruct (wgs84_F lm) as (c & Hc & _).
  assert (I : forall z, (0 <= z <= 1000)%Z -> fin (Flit z 0) = true /\ B2R (Flit z 0) = IZR z).
  { intros z Hz. destruct (Flit_int z ltac:(lia)) as [E F]. split; assumption. }
  destruct (I 90%Z ltac:(lia)) as [F90 E90]. destruct (I 0%Z ltac:(lia)) as [F0 E0]. destruct (I 1000%Z ltac:(lia)) as [F1 E1].
  assert (R0 : degrees (IZR 0) = 0) by (unfold degrees; lra).
  assert (R90 : degrees (IZR 90) = PI / 2) by (unfold degrees; lra).
  destruct (C70_degrees_pf lm G c (Flit 90 0) (Flit 0 0) (Flit 1000 0) Hc F90 F0 F1) as (v & Hv & Kv);
    [rewrite E90; apply Rabs_le; lra|rewrite E0; apply Rabs_le; lra|rewrite E1; apply Rabs_le; lra|].
  destruct (C70_degrees_pf lm G c (Flit 0 0) (Flit 90 0) (Flit 0 0) Hc F0 F90 F0) as (n & Hn & Kn);
    [rewrite E0; apply Rabs_le; lra|rewrite E90; apply Rabs_le; lra|rewrite E0; apply Rabs_le; lra|].
  exists c, v, n. split; [exact Hc|]. split; [exact Hv|].
  rewrite E0, E90, E1 in Kv. rewrite E0, E90 in Kn.
  unfold coord, wgs84_point in Kv, Kn. cbv zeta in Kv, Kn. cbn [lon lat height360] in Kv, Kn.
  rewrite R0, R90, cos_0, sin_0, cos_PI2, sin_PI2 in Kv. rewrite R0, R90, cos_0, sin_0, cos_PI2, sin_PI2 in Kn.
  replace (1 ^ 2 + (1 - 1 / 298.257223563) ^ 2 * 0 ^ 2) with 1 in Kv by ring. rewrite sqrt_1 in Kv.
  replace (0 ^ 2 + (1 - 1 / 298.257223563) ^ 2 * 1 ^ 2) with ((1 - 1 / 298.257223563) ^ 2) in Kn by ring.
  rewrite sqrt_pow2 in Kn by lra.
  pose proof (proj1 (Kv I0)) as A0. pose proof (proj1 (Kv I1)) as A1. pose proof (proj1 (Kv I2)) as A2.
  pose proof (proj1 (Kn I0)) as B0. pose proof (proj1 (Kn I1)) as B1. pose proof (proj1 (Kn I2)) as B2. clear Kv Kn.
  cbn [vget v0 v1 v2] in A0, A1, A2, B0, B1, B2.
  assert (T : forall x r r' e, near x r e -> r = r' -> near x r' e) by (intros x r r' e H <-; exact H).
  split; [apply (T _ _ _ _ A0); lra|]. split; [apply (T _ _ _ _ A1); lra|]. split; [apply (T _ _ _ _ A2); lra|].
  split; [exact Hn|].
  split; [apply (T _ _ _ _ B0); lra|]. split; [apply (T _ _ _ _ B1); lra|]. apply (T _ _ _ _ B2). field. lra.
Qed.
