(** * Binary64 forms of the properties of the Earth, the pole and the ellipsoid *)

From Coq Require Import ZArith Reals Lra Lia Bool List.
From Flocq Require Import Core BinarySingleNaN.
From Verif Require Import Outcome Arith ArithR ArithF Spec_Float Spec_Accuracy M_Common M_Time M_Earth M_Frames M_Ellipsoid Spec_Matrix Spec_Frames Spec_Series Spec_Orbit Spec_Pole.
From Verif Require Import L_ArithF L_ArithR L_Matrix L_Frames L_PFrames.
From Verif Require Spec_C2t L_Flit L_PEllipsoid L_Near L_ApxC2i L_PSeries L_POrbit L_PPole L_PAccEarth L_PAccFrames L_PAccuracy L_PFund.
Import ListNotations.
Open Scope R_scope.

Lemma kepler_unique : forall u v t, kepler u t -> kepler v t -> u = v.
Proof.
  intros u v t Hu Hv. unfold kepler, orbit_e in *. pose proof (L_Apx.sin_lip u v) as L.
  destruct (Req_dec u v) as [E|E]; [exact E|exfalso]. assert (0 < Rabs (u - v)) by (apply Rabs_pos_lt; lra).
  assert (K : u - v = 0.0167086 * (sin u - sin v)) by lra. rewrite K, Rabs_mult, (Rabs_pos_eq 0.0167086) in L by lra.
  rewrite K, Rabs_mult, (Rabs_pos_eq 0.0167086) in H by lra. lra.
Qed.

Section Earth.
Variable lm : libm.
Hypothesis G : good_libm lm.

Notation P64 r := (pv_p (A := b64A lm) (heliocentric (A := b64A lm) r)).
Notation V64 r := (pv_v (A := b64A lm) (heliocentric (A := b64A lm) r)).
Notation PB64 r := (pv_p (A := b64A lm) (barycentric (A := b64A lm) r)).
Notation VB64 r := (pv_v (A := b64A lm) (barycentric (A := b64A lm) r)).
Notation PR r := (pv_p (A := realA) (heliocentric (A := realA) r)).
Notation VR r := (pv_v (A := realA) (heliocentric (A := realA) r)).
Notation PBR r := (pv_p (A := realA) (barycentric (A := realA) r)).
Notation VBR r := (pv_v (A := realA) (barycentric (A := realA) r)).

Lemma earth_both : forall a b : b64, fin a = true -> fin b = true -> Rabs (B2R a) <= 4194304 -> Rabs (B2R b) <= 4194304 ->
  Rabs (years (MkTDB (A := realA) (B2R a) (B2R b))) <= 100 ->
  exists r q, earth_pos_vel (A := b64A lm) (MkTDB (A := b64A lm) a b) = Val r /\ earth_pos_vel (A := realA) (MkTDB (A := realA) (B2R a) (B2R b)) = Val q /\
  forall i, near (vget (A := b64A lm) (P64 r) i) (coord (PR q) i) (7.7 / 10 ^ 11) /\ near (vget (A := b64A lm) (PB64 r) i) (coord (PBR q) i) (7.7 / 10 ^ 11) /\
    near (vget (A := b64A lm) (V64 r) i) (coord (VR q) i) (1.4 / 10 ^ 12) /\ near (vget (A := b64A lm) (VB64 r) i) (coord (VBR q) i) (1.4 / 10 ^ 12).
Proof.
  intros a b Fa Fb Ha Hb H. destruct (L_PAccEarth.C67_earth_accuracy_pf lm G a b Fa Fb Ha Hb H) as (r & Er & K).
  destruct L_PSeries.C40_velocity_is_derivative_pf as (f & Ef & D). exists r, (f (B2R a) (B2R b)). split; [exact Er|]. split; [apply Ef|].
  intros i. destruct (K i) as (K1 & K2 & (v & Dv & Nv) & (w & Dw & Nw)). destruct (D (B2R a) (B2R b) i) as (D1 & _ & D3 & _). cbv zeta in *.
  assert (S : forall x, coord (PR (f x (B2R b))) i = icrf (fun k => helio_ecl k (years (MkTDB (A := realA) x (B2R b)))) i /\
    coord (PBR (f x (B2R b))) i = icrf (fun k => bary_ecl k (years (MkTDB (A := realA) x (B2R b)))) i).
  { intros x. destruct (L_PSeries.C59_position_series_pf (MkTDB (A := realA) x (B2R b))) as (q & Eq & Q). rewrite Ef in Eq. injection Eq as <-. apply Q. }
  assert (EV : v = coord (VR (f (B2R a) (B2R b))) i).
  { apply (uniqueness_limite _ _ _ _ Dv). apply (derivable_pt_lim_ext _ _ _ _ (fun x => proj1 (S x)) D1). }
  assert (EW : w = coord (VBR (f (B2R a) (B2R b))) i).
  { apply (uniqueness_limite _ _ _ _ Dw). apply (derivable_pt_lim_ext _ _ _ _ (fun x => proj2 (S x)) D3). }
  rewrite <- EV, <- EW, (proj1 (S _)), (proj2 (S _)). auto.
Qed.

(** The length of a vector of binary64 numbers differs from that of the exact vector by at
    most 1.7321 times the error of the coordinates. *)
Lemma len_close : forall (u : vec3 (b64A lm)) (v : vec3 realA) e, 0 <= e -> (forall i, near (vget (A := b64A lm) u i) (coord v i) e) ->
  let x i := B2R (vget (A := b64A lm) u i) in
  L_Near.nrm v - 1.7321 * e <= R_sqrt.sqrt (x I0 * x I0 + x I1 * x I1 + x I2 * x I2) <= L_Near.nrm v + 1.7321 * e.
Proof.
  intros u v e He N x. set (w := V3 (A := realA) (x I0) (x I1) (x I2)).
  assert (EW : R_sqrt.sqrt (x I0 * x I0 + x I1 * x I1 + x I2 * x I2) = L_Near.nrm w) by reflexivity. rewrite EW.
  destruct v as [v0 v1 v2]. set (d := V3 (A := realA) (x I0 - v0) (x I1 - v1) (x I2 - v2)).
  assert (ND : L_Near.nrm d <= 1.7321 * e) by (apply L_POrbit.nrm_box; [exact He|apply (N I0)|apply (N I1)|apply (N I2)]).
  assert (E : w = L_Near.addv (V3 (A := realA) v0 v1 v2) d).
  { unfold w, d, L_Near.addv, vadd. cbn [M_Common.v0 M_Common.v1 M_Common.v2]. realA_ops. change (num realA) with R in *. f_equal; ring. }
  rewrite E. pose proof (L_Near.nrm_triangle (V3 (A := realA) v0 v1 v2) d). pose proof (L_POrbit.nrm_rev (V3 (A := realA) v0 v1 v2) d). lra.
Qed.

(** C82 in binary64: the same ellipse, within 0.00066 AU in each coordinate, for every
    split of the date with parts up to 2^22 days. *)
Lemma kepler64 : forall a b : b64, fin a = true -> fin b = true -> Rabs (B2R a) <= 4194304 -> Rabs (B2R b) <= 4194304 ->
  let t := years (MkTDB (A := realA) (B2R a) (B2R b)) in Rabs t <= 100 ->
  exists r u, earth_pos_vel (A := b64A lm) (MkTDB (A := b64A lm) a b) = Val r /\ kepler u t /\
  (forall i, near (vget (A := b64A lm) (P64 r) i) (orbit_pos u i) 0.00066) /\
  let x i := B2R (vget (A := b64A lm) (P64 r) i) in
  let dist := R_sqrt.sqrt (x I0 * x I0 + x I1 * x I1 + x I2 * x I2) in
  0.982 <= dist <= 1.018 /\ Rabs (dist - orbit_a * (1 - orbit_e * cos u)) <= 0.00114 /\ Rabs (x I2) <= 0.3991 * dist.
Proof.
  intros a b Fa Fb Ha Hb t H. destruct (earth_both a b Fa Fb Ha Hb H) as (r & q & Er & Eq & N).
  destruct (L_POrbit.C82_kepler_pf _ H) as (q' & u & Eq' & K & P). rewrite Eq in Eq'. injection Eq' as <-.
  destruct (L_POrbit.C82_distance_declination_pf _ H) as (q' & u' & Eq' & K' & P'). rewrite Eq in Eq'. injection Eq' as <-.
  assert (U : u' = u) by (apply (kepler_unique _ _ t K' K)). subst u'.
  exists r, u. split; [exact Er|]. split; [exact K|].
  split.
  { intros i. destruct (N i) as ((F1 & N1) & _). split; [exact F1|]. specialize (P i). apply Rabs_le_inv in P. apply Rabs_le_inv in N1. apply Rabs_le. lra. }
  pose proof (len_close (P64 r) (PR q) (7.7 / 10 ^ 11) ltac:(lra) (fun i => proj1 (N i))) as L. cbv zeta in L, P' |- *. unfold L_Near.nrm in L.
  destruct P' as [D1 D2]. pose proof (COS_bound u) as CB. unfold orbit_a, orbit_e in *. destruct (N I2) as ((_ & N2) & _).
  set (dq := R_sqrt.sqrt (sprod (PR q) (PR q))) in *. set (x2 := B2R (vget (A := b64A lm) (P64 r) I2)) in *. set (y2 := coord (PR q) I2) in *.
  match type of L with _ <= ?s <= _ => set (s64 := s) in * end. clearbody dq x2 y2 s64. change (num realA) with R in *.
  apply Rabs_le_inv in D1. apply Rabs_le_inv in D2. apply Rabs_le_inv in N2.
  split; [lra|]. split; apply Rabs_le; lra.
Qed.

Lemma speed64 : forall a b : b64, fin a = true -> fin b = true -> Rabs (B2R a) <= 4194304 -> Rabs (B2R b) <= 4194304 ->
  Rabs (years (MkTDB (A := realA) (B2R a) (B2R b))) <= 100 ->
  exists r, earth_pos_vel (A := b64A lm) (MkTDB (A := b64A lm) a b) = Val r /\
  let v i := B2R (vget (A := b64A lm) (V64 r) i) in
  let w i := B2R (vget (A := b64A lm) (VB64 r) i) in
  let s i := B2R (vget (A := b64A lm) (PB64 r) i) - B2R (vget (A := b64A lm) (P64 r) i) in
  (forall i, fin (vget (A := b64A lm) (V64 r) i) = true /\ fin (vget (A := b64A lm) (VB64 r) i) = true /\ fin (vget (A := b64A lm) (PB64 r) i) = true /\ fin (vget (A := b64A lm) (P64 r) i) = true) /\
  0.01679 <= R_sqrt.sqrt (v I0 * v I0 + v I1 * v I1 + v I2 * v I2) <= 0.01761 /\
  0.01679 <= R_sqrt.sqrt (w I0 * w I0 + w I1 * w I1 + w I2 * w I2) <= 0.01761 /\
  R_sqrt.sqrt (s I0 * s I0 + s I1 * s I1 + s I2 * s I2) <= 0.01601 /\
  R_sqrt.sqrt ((w I0 - v I0) * (w I0 - v I0) + (w I1 - v I1) * (w I1 - v I1) + (w I2 - v I2) * (w I2 - v I2)) <= 0.00001501.
Proof.
  intros a b Fa Fb Ha Hb H. destruct (earth_both a b Fa Fb Ha Hb H) as (r & q & Er & Eq & N). exists r. split; [exact Er|].
  destruct (L_POrbit.C83_speed_pf _ H) as (q' & Eq' & S1 & S2). rewrite Eq in Eq'. injection Eq' as <-.
  destruct (L_POrbit.C84_barycentre_pf _ H) as (q' & Eq' & B1 & B2). rewrite Eq in Eq'. injection Eq' as <-.
  cbv zeta. split; [intros i; destruct (N i) as ((N1 & _) & (N2 & _) & (N3 & _) & (N4 & _)); auto|].
  pose proof (len_close (V64 r) (VR q) (1.4 / 10 ^ 12) ltac:(lra) (fun i => proj1 (proj2 (proj2 (N i))))) as L1.
  pose proof (len_close (VB64 r) (VBR q) (1.4 / 10 ^ 12) ltac:(lra) (fun i => proj2 (proj2 (proj2 (N i))))) as L2.
  cbv zeta in L1, L2, S1, S2, B1, B2. unfold L_Near.nrm in L1, L2.
  split; [lra|]. split; [lra|].
  assert (DL : forall (f g x y : idx -> R) e, 0 <= e -> (forall i, Rabs (x i - f i) <= e) -> (forall i, Rabs (y i - g i) <= e) ->
    R_sqrt.sqrt ((x I0 - y I0) * (x I0 - y I0) + (x I1 - y I1) * (x I1 - y I1) + (x I2 - y I2) * (x I2 - y I2)) <=
    R_sqrt.sqrt ((f I0 - g I0) * (f I0 - g I0) + (f I1 - g I1) * (f I1 - g I1) + (f I2 - g I2) * (f I2 - g I2)) + 1.7321 * (2 * e)).
  { clear. intros f g x y e He X Y.
    set (u := V3 (A := realA) (f I0 - g I0) (f I1 - g I1) (f I2 - g I2)).
    set (d := V3 (A := realA) ((x I0 - f I0) - (y I0 - g I0)) ((x I1 - f I1) - (y I1 - g I1)) ((x I2 - f I2) - (y I2 - g I2))).
    assert (ND : L_Near.nrm d <= 1.7321 * (2 * e)).
    { assert (K : forall i, Rabs ((x i - f i) - (y i - g i)) <= 2 * e) by (intros i; specialize (X i); specialize (Y i); apply Rabs_le_inv in X; apply Rabs_le_inv in Y; apply Rabs_le; lra).
      apply L_POrbit.nrm_box; [lra|apply K|apply K|apply K]. }
    pose proof (L_Near.nrm_triangle u d) as T.
    assert (E : L_Near.nrm (L_Near.addv u d) = R_sqrt.sqrt ((x I0 - y I0) * (x I0 - y I0) + (x I1 - y I1) * (x I1 - y I1) + (x I2 - y I2) * (x I2 - y I2))).
    { unfold L_Near.nrm, L_Near.addv, vadd, sprod, coord, u, d. cbn [vget v0 v1 v2]. realA_ops. change (num realA) with R in *. f_equal. ring. }
    rewrite E in T. change (L_Near.nrm u) with (R_sqrt.sqrt ((f I0 - g I0) * (f I0 - g I0) + (f I1 - g I1) * (f I1 - g I1) + (f I2 - g I2) * (f I2 - g I2))) in T. lra. }
  split.
  - eapply Rle_trans; [apply (DL (fun i => coord (PBR q) i) (fun i => coord (PR q) i) (fun i => B2R (vget (A := b64A lm) (PB64 r) i)) (fun i => B2R (vget (A := b64A lm) (P64 r) i)) (7.7 / 10 ^ 11));
      [lra|intros i; apply (proj1 (proj2 (N i)))|intros i; apply (proj1 (N i))]|]. cbv beta. lra.
  - eapply Rle_trans; [apply (DL (fun i => coord (VBR q) i) (fun i => coord (VR q) i) (fun i => B2R (vget (A := b64A lm) (VB64 r) i)) (fun i => B2R (vget (A := b64A lm) (V64 r) i)) (1.4 / 10 ^ 12));
      [lra|intros i; apply (proj2 (proj2 (proj2 (N i))))|intros i; apply (proj1 (proj2 (proj2 (N i))))]|]. cbv beta. lra.
Qed.

End Earth.

(** C82 in binary64: the same ellipse, within 0.00066 AU in each coordinate, for every
    split of the date with parts up to 2^22 days; the distance within 0.00114 AU of that
    on the ellipse, and the declination below 23.53 degrees. *)
Lemma C82_kepler_b64_pf : forall lm, good_libm lm -> forall a b : b64, fin a = true -> fin b = true ->
  Rabs (B2R a) <= 4194304 -> Rabs (B2R b) <= 4194304 ->
  let t := years (MkTDB (A := realA) (B2R a) (B2R b)) in Rabs t <= 100 ->
  exists r u, earth_pos_vel (A := b64A lm) (MkTDB (A := b64A lm) a b) = Val r /\ kepler u t /\
  let p := pv_p (A := b64A lm) (heliocentric (A := b64A lm) r) in
  (forall i, near (vget (A := b64A lm) p i) (orbit_pos u i) 0.00066) /\
  let x i := B2R (vget (A := b64A lm) p i) in
  let dist := R_sqrt.sqrt (x I0 * x I0 + x I1 * x I1 + x I2 * x I2) in
  Rabs (dist - orbit_a * (1 - orbit_e * cos u)) <= 0.00114 /\ Rabs (x I2) <= 0.3991 * dist.
Proof.
  intros lm G a b Fa Fb Ha Hb t H. destruct (kepler64 lm G a b Fa Fb Ha Hb H) as (r & u & E & K & N & _ & D). exists r, u. auto.
Qed.

(** C43 in binary64: the distance from the Sun, 1900-2100, every split. *)
Lemma C43_distance_b64_pf : forall lm, good_libm lm -> forall a b : b64, fin a = true -> fin b = true ->
  Rabs (B2R a) <= 4194304 -> Rabs (B2R b) <= 4194304 -> Rabs (years (MkTDB (A := realA) (B2R a) (B2R b))) <= 100 ->
  exists r, earth_pos_vel (A := b64A lm) (MkTDB (A := b64A lm) a b) = Val r /\
  let p := pv_p (A := b64A lm) (heliocentric (A := b64A lm) r) in
  (forall i, fin (vget (A := b64A lm) p i) = true) /\
  let x i := B2R (vget (A := b64A lm) p i) in
  0.982 <= R_sqrt.sqrt (x I0 * x I0 + x I1 * x I1 + x I2 * x I2) <= 1.018.
Proof.
  intros lm G a b Fa Fb Ha Hb H. destruct (kepler64 lm G a b Fa Fb Ha Hb H) as (r & u & E & K & N & D & _). exists r. split; [exact E|]. split; [intros i; apply (N i)|exact D].
Qed.

(** C83 in binary64: the speed of the Earth relative to the Sun and to the barycentre. *)
Lemma C83_speed_b64_pf : forall lm, good_libm lm -> forall a b : b64, fin a = true -> fin b = true ->
  Rabs (B2R a) <= 4194304 -> Rabs (B2R b) <= 4194304 -> Rabs (years (MkTDB (A := realA) (B2R a) (B2R b))) <= 100 ->
  exists r, earth_pos_vel (A := b64A lm) (MkTDB (A := b64A lm) a b) = Val r /\
  let hv := pv_v (A := b64A lm) (heliocentric (A := b64A lm) r) in
  let bv := pv_v (A := b64A lm) (barycentric (A := b64A lm) r) in
  (forall i, fin (vget (A := b64A lm) hv i) = true /\ fin (vget (A := b64A lm) bv i) = true) /\
  let v i := B2R (vget (A := b64A lm) hv i) in
  let w i := B2R (vget (A := b64A lm) bv i) in
  0.01679 <= R_sqrt.sqrt (v I0 * v I0 + v I1 * v I1 + v I2 * v I2) <= 0.01761 /\
  0.01679 <= R_sqrt.sqrt (w I0 * w I0 + w I1 * w I1 + w I2 * w I2) <= 0.01761.
Proof.
  intros lm G a b Fa Fb Ha Hb H. destruct (speed64 lm G a b Fa Fb Ha Hb H) as (r & E & F & S1 & S2 & _). exists r. split; [exact E|].
  split; [intros i; destruct (F i) as (F1 & F2 & _); auto|]. exact (conj S1 S2).
Qed.

(** C84 in binary64: the Sun stays near the barycentre and moves slowly. *)
Lemma C84_barycentre_b64_pf : forall lm, good_libm lm -> forall a b : b64, fin a = true -> fin b = true ->
  Rabs (B2R a) <= 4194304 -> Rabs (B2R b) <= 4194304 -> Rabs (years (MkTDB (A := realA) (B2R a) (B2R b))) <= 100 ->
  exists r, earth_pos_vel (A := b64A lm) (MkTDB (A := b64A lm) a b) = Val r /\
  let hp i := B2R (vget (A := b64A lm) (pv_p (A := b64A lm) (heliocentric (A := b64A lm) r)) i) in
  let bp i := B2R (vget (A := b64A lm) (pv_p (A := b64A lm) (barycentric (A := b64A lm) r)) i) in
  let hv i := B2R (vget (A := b64A lm) (pv_v (A := b64A lm) (heliocentric (A := b64A lm) r)) i) in
  let bv i := B2R (vget (A := b64A lm) (pv_v (A := b64A lm) (barycentric (A := b64A lm) r)) i) in
  let s i := bp i - hp i in let w i := bv i - hv i in
  R_sqrt.sqrt (s I0 * s I0 + s I1 * s I1 + s I2 * s I2) <= 0.01601 /\
  R_sqrt.sqrt (w I0 * w I0 + w I1 * w I1 + w I2 * w I2) <= 0.00001501.
Proof.
  intros lm G a b Fa Fb Ha Hb H. destruct (speed64 lm G a b Fa Fb Ha Hb H) as (r & E & _ & _ & _ & B1 & B2). exists r. split; [exact E|]. exact (conj B1 B2).
Qed.

Lemma near_weaken : forall (x : b64) r s e d, near x r e -> Rabs (r - s) <= d -> near x s (e + d).
Proof. intros x r s e d [F N] H. split; [exact F|]. apply Rabs_le_inv in N. apply Rabs_le_inv in H. apply Rabs_le. lra. Qed.
Lemma near_le' : forall (x : b64) r e d, near x r e -> e <= d -> near x r d.
Proof. intros x r e d [F N] H. split; [exact F|lra]. Qed.

Lemma arcsec_small : 4.84 / 10 ^ 6 <= arcsec 1 <= 4.85 / 10 ^ 6.
Proof. unfold arcsec. pose proof L_Pi.PI_bounds. lra. Qed.
Lemma arcsec_lin : forall x, arcsec x = x * arcsec 1.
Proof. intros x. unfold arcsec. field. Qed.

(** C58 and C85 in binary64, for every split of the date with parts up to 2^22 days. *)
Lemma C85_nutation_b64_pf : forall lm, good_libm lm -> forall a b : b64, fin a = true -> fin b = true ->
  Rabs (B2R a) <= 4194304 -> Rabs (B2R b) <= 4194304 ->
  let t := centuries (MkTT (A := realA) (B2R a) (B2R b)) in Rabs t <= 1 ->
  exists dpsi deps, nutation (A := b64A lm) (MkTT (A := b64A lm) a b) = Val (dpsi, deps) /\
  near dpsi (arcsec (low_dpsi t)) (arcsec 0.551) /\ near deps (arcsec (low_deps t)) (arcsec 0.151).
Proof.
  intros lm G a b Fa Fb Ha Hb t H. destruct (L_PAccuracy.C65_nutation_accuracy_pf lm G a b Fa Fb Ha Hb) as (dp & de & E & N1 & N2).
  destruct (L_PPole.C85_nutation_pf _ H) as (p & q & E' & Q1 & Q2). rewrite L_PSeries.C60_nutation_series_pf in E'. injection E' as <- <-. fold t in N1, N2, Q1, Q2.
  exists dp, de. split; [exact E|]. pose proof arcsec_small. rewrite (arcsec_lin 0.55) in Q1. rewrite (arcsec_lin 0.15) in Q2.
  split; [refine (near_le' _ _ _ _ (near_weaken _ _ _ _ _ N1 Q1) _)|refine (near_le' _ _ _ _ (near_weaken _ _ _ _ _ N2 Q2) _)].
  - rewrite (arcsec_lin 0.551). lra.
  - rewrite (arcsec_lin 0.151). lra.
Qed.

(** C58 in binary64: nutation below 20 and 11 arcseconds, mean obliquity between 23.4 and
    23.5 degrees, within a century of J2000.0. *)
Lemma C58_magnitudes_b64_pf : forall lm, good_libm lm -> forall a b : b64, fin a = true -> fin b = true ->
  Rabs (B2R a) <= 4194304 -> Rabs (B2R b) <= 4194304 ->
  let t := centuries (MkTT (A := realA) (B2R a) (B2R b)) in Rabs t <= 1 ->
  exists dpsi deps, nutation (A := b64A lm) (MkTT (A := b64A lm) a b) = Val (dpsi, deps) /\ fin dpsi = true /\ fin deps = true /\
  Rabs (B2R dpsi) < arcsec 20 /\ Rabs (B2R deps) < arcsec 11 /\
  fin (mean_obliquity (A := b64A lm) (MkTT (A := b64A lm) a b)) = true /\
  23.4 * (PI / 180) < B2R (mean_obliquity (A := b64A lm) (MkTT (A := b64A lm) a b)) < 23.5 * (PI / 180).
Proof.
  intros lm G a b Fa Fb Ha Hb t H. destruct (L_PAccuracy.C65_nutation_accuracy_pf lm G a b Fa Fb Ha Hb) as (dp & de & E & [F1 N1] & [F2 N2]).
  destruct (nutation_bound (MkTT (A := realA) (B2R a) (B2R b))) as (p & q & E' & Q1 & Q2). rewrite L_PSeries.C60_nutation_series_pf in E'. injection E' as <- <-. fold t in N1, N2, Q1, Q2.
  exists dp, de. split; [exact E|]. split; [exact F1|]. split; [exact F2|]. pose proof arcsec_small as AS.
  rewrite arcsec_lin in Q1, Q2. rewrite (arcsec_lin 20), (arcsec_lin 11).
  assert (T : 0 <= Rabs t <= 1) by (split; [apply Rabs_pos|exact H]).
  assert (Q1' : Rabs (nut_dpsi t) <= 19.475 * arcsec 1) by (eapply Rle_trans; [exact Q1|]; apply Rmult_le_compat_r; lra).
  assert (Q2' : Rabs (nut_deps t) <= 10.0875 * arcsec 1) by (eapply Rle_trans; [exact Q2|]; apply Rmult_le_compat_r; lra).
  apply Rabs_le_inv in Q1'. apply Rabs_le_inv in Q2'. apply Rabs_le_inv in N1. apply Rabs_le_inv in N2.
  split; [apply Rabs_lt; lra|]. split; [apply Rabs_lt; lra|].
  destruct (L_PFund.C81_obliquity_b64_pf lm a b Fa Fb Ha Hb) as ([F3 N3] & _). fold t in N3. split; [exact F3|].
  apply Rabs_le_inv in N3. apply Rabs_le_inv in H. clear - N3 H.
  unfold eps_1980 in N3. rewrite arcsec_lin in N3. pose proof L_Pi.PI_bounds.
  set (e := 84381.448 - 46.8150 * t - 0.00059 * t ^ 2 + 0.001813 * t ^ 3) in *.
  assert (B : 84334 <= e <= 84429) by (unfold e; split; nra).
  assert (AE : arcsec 1 = PI / 648000) by (unfold arcsec; field).
  rewrite AE in N3. clearbody e. set (o := B2R (mean_obliquity (A := b64A lm) (MkTT (A := b64A lm) a b))) in *. clearbody o.
  split; nra.
Qed.

(** C86 in binary64. *)
Lemma C86_pole_b64_pf : forall lm, good_libm lm -> forall a b : b64, fin a = true -> fin b = true ->
  Rabs (B2R a) <= 4194304 -> Rabs (B2R b) <= 4194304 ->
  let t := centuries (MkTT (A := realA) (B2R a) (B2R b)) in Rabs t <= 1 ->
  exists m, precession_nutation (A := b64A lm) (MkTT (A := b64A lm) a b) = Val m /\
  near (mget (A := b64A lm) m I2 I0) (arcsec (low_x t)) (arcsec 1.001) /\ near (mget (A := b64A lm) m I2 I1) (arcsec (low_y t)) (arcsec 1.001).
Proof.
  intros lm G a b Fa Fb Ha Hb t H. destruct (L_PAccFrames.C68_precession_nutation_accuracy_pf lm G a b Fa Fb Ha Hb) as (m & E & N & _).
  destruct (L_PPole.C86_pole_pf _ H) as (q & E' & Q1 & Q2). rewrite L_ApxC2i.pn_exact in E'. injection E' as <-. exists m. split; [exact E|]. pose proof arcsec_small.
  rewrite (arcsec_lin 1.001). fold t in N, Q1, Q2.
  split; [refine (near_le' _ _ _ _ (near_weaken _ _ _ _ _ (N I2 I0) Q1) _)|refine (near_le' _ _ _ _ (near_weaken _ _ _ _ _ (N I2 I1) Q2) _)]; lra.
Qed.

(** C38 in binary64: within 50 Julian centuries of J2000.0 the computed pole is inside the
    unit disc and in the northern hemisphere. *)
Lemma C38_pole_inside_b64_pf : forall lm, good_libm lm -> forall a b : b64, fin a = true -> fin b = true ->
  Rabs (B2R a) <= 4194304 -> Rabs (B2R b) <= 4194304 ->
  Rabs (centuries (MkTT (A := realA) (B2R a) (B2R b))) <= 50 ->
  exists m, precession_nutation (A := b64A lm) (MkTT (A := b64A lm) a b) = Val m /\ (forall i j, fin (mget (A := b64A lm) m i j) = true) /\
  let x := B2R (mget (A := b64A lm) m I2 I0) in let y := B2R (mget (A := b64A lm) m I2 I1) in
  0 < B2R (mget (A := b64A lm) m I2 I2) /\ x * x + y * y < 1.
Proof.
  intros lm G a b Fa Fb Ha Hb H. destruct (L_PAccFrames.C68_precession_nutation_accuracy_pf lm G a b Fa Fb Ha Hb) as (m & E & N & O).
  exists m. split; [exact E|]. split; [intros i j; apply (N i j)|].
  destruct (pole_bound _ 50 1.28 ltac:(lra) H) as (q & E' & Z & Q); [rewrite arcsec_lin; pose proof arcsec_small; lra|lra|].
  rewrite L_ApxC2i.pn_exact in E'. injection E' as <-. destruct (N I2 I2) as [_ N2]. unfold Spec_C2t.NPB in Z. apply Rabs_le_inv in N2. cbv zeta.
  specialize (O I2 I2). change (kron I2 I2) with 1 in O. apply Rabs_le_inv in O.
  set (x := B2R (mget (A := b64A lm) m I2 I0)) in *. set (y := B2R (mget (A := b64A lm) m I2 I1)) in *. set (z := B2R (mget (A := b64A lm) m I2 I2)) in *.
  match type of Z with ?e >= _ => set (z' := e) in * end. clearbody x y z z'. assert (0.18 <= z) by lra. split; nra.
Qed.

Lemma conv_el : forall (A : arith) (el : Ellipsoid A) c, conv_new (A := A) el = Ok c -> cv_el (A := A) c = el.
Proof.
  intros A el c H. unfold conv_new in H. destruct (_ || _); [discriminate|]. destruct (ltb _ _ _); [discriminate|]. destruct (leb _ _ _); [discriminate|].
  injection H as <-. reflexivity.
Qed.

Lemma format_pow : forall e, (-1074 <= e)%Z -> format (bpow radix2 e).
Proof. intros e H. replace (bpow radix2 e) with (IZR 1 * bpow radix2 e) by ring. apply format_dyadic; lia. Qed.

Lemma one_minus : forall f : b64, fin f = true -> 0 <= B2R f < 1 -> bpow radix2 (-53) <= rnd (1 - B2R f) <= 1.
Proof.
  intros f F B. split.
  - apply rnd_ge; [apply (format_pow (-53)); lia|]. 
    pose proof (pred_ge_gt radix2 fx (B2R f) 1 (format_B2R f) (format_IZR 1 ltac:(lia)) (proj2 B)) as P.
    assert (E : pred radix2 fx 1 = 1 - bpow radix2 (-53)).
    { change 1 with (bpow radix2 0). rewrite pred_bpow. reflexivity. }
    lra.
  - apply rnd_le; [apply format_IZR; lia|lra].
Qed.

(** C46 in binary64: with sine and cosine accurate to 2^-52 the conversion of a finite
    latitude never fails on an accepted ellipsoid, whatever the longitude and height. *)
Lemma C46_never_fails_b64_pf : forall lm, good_libm lm -> forall (a f : b64) c (lo la h : b64), is_nan a = false -> is_nan f = false ->
  conv_new (A := b64A lm) (MkEll (A := b64A lm) a f) = Ok c -> fin la = true ->
  exists v, geodetic_to_geocentric (A := b64A lm) c (MkGeod (A := b64A lm) lo la h) = Ok v.
Proof.
  intros lm G a f c lo la h Na Nf Hc Fl. pose proof (conv_el _ _ _ Hc) as EL.
  destruct (proj1 (L_PEllipsoid.C44_accepted_b64_pf lm a f Na Nf) (ex_intro _ c Hc)) as (Ff & Bf & _).
  unfold geodetic_to_geocentric. rewrite EL. cbn [el_a el_f phi elong height]. b64A_ops.
  destruct (good_sin lm G la Fl) as [Fs Ns]. destruct (good_cos lm G la Fl) as [Fc Nc].
  set (sp := lm_sin lm la) in *. set (cp := lm_cos lm la) in *. destruct lit_1 as [Z1 F1]. destruct lit_0 as [Z0 F0].
  pose proof (one_minus f Ff Bf) as W.
  assert (SM : forall x, Rabs x <= 4 -> small x) by (intros x Hx; apply (small_le x 2); [lia|exact Hx]).
  assert (BS : Rabs (B2R sp) <= 1 + bpow radix2 (-52)).
  { pose proof (SIN_bound (B2R la)). apply Rabs_le_inv in Ns. apply Rabs_le. lra. }
  assert (BC : Rabs (B2R cp) <= 1 + bpow radix2 (-52)).
  { pose proof (COS_bound (B2R la)). apply Rabs_le_inv in Nc. apply Rabs_le. lra. }
  change (bpow radix2 (-52)) with (/ 4503599627370496) in *.
  destruct (Fsub_ok (Flit 1 0) f F1 Ff) as [EW FW]; [rewrite Z1; apply SM, Rabs_le; lra|]. rewrite Z1 in EW.
  set (w := Fsub (Flit 1 0) f) in *. rewrite <- EW in W. clearbody w.
  change (bpow radix2 (-53)) with (/ 9007199254740992) in *.
  destruct (Fmul_ok w w FW FW) as [EV FV]; [apply SM, Rabs_le; nra|]. set (v := Fmul w w) in *.
  assert (BV : bpow radix2 (-106) <= B2R v <= 1).
  { rewrite EV. split; [apply rnd_ge; [apply (format_pow (-106)); lia|]|apply rnd_le; [apply format_IZR; lia|nra]].
    replace (bpow radix2 (-106)) with (/ 9007199254740992 * / 9007199254740992) by (cbn -[Rinv Rmult]; lra). nra. }
  clearbody v. assert (P106 : 0 < bpow radix2 (-106)) by apply bpow_gt_0.
  assert (AS : Rabs (B2R sp) <= 2) by lra. assert (AC : Rabs (B2R cp) <= 2) by lra.
  destruct (Fmul_ok cp cp Fc Fc) as [EC FC]; [apply SM; rewrite Rabs_mult; pose proof (Rabs_pos (B2R cp)); nra|].
  destruct (Fmul_ok v sp FV Fs) as [EP FP]; [apply SM; rewrite Rabs_mult, (Rabs_pos_eq (B2R v)) by lra; pose proof (Rabs_pos (B2R sp)); nra|].
  set (c2 := Fmul cp cp) in *. set (vs := Fmul v sp) in *.
  assert (BVS : Rabs (B2R vs) <= 2).
  { rewrite EP. apply rnd_abs_le; [apply format_IZR; lia|]. rewrite Rabs_mult, (Rabs_pos_eq (B2R v)) by lra. pose proof (Rabs_pos (B2R sp)). nra. }
  destruct (Fmul_ok vs sp FP Fs) as [EQ FQ]; [apply SM; rewrite Rabs_mult; pose proof (Rabs_pos (B2R sp)); pose proof (Rabs_pos (B2R vs)); nra|].
  set (q := Fmul vs sp) in *.
  assert (C2 : 0 <= B2R c2 <= 2).
  { rewrite EC. split; [apply rnd_ge; [apply format_IZR; lia|nra]|apply rnd_le; [apply format_IZR; lia|]]. apply Rabs_le_inv in BC. nra. }
  assert (SG : 0 <= B2R vs * B2R sp).
  { destruct (Rle_or_lt 0 (B2R sp)) as [L|L].
    - assert (0 <= B2R vs) by (rewrite EP; apply rnd_ge; [apply format_IZR; lia|nra]). nra.
    - assert (B2R vs <= 0) by (rewrite EP; apply rnd_le; [apply format_IZR; lia|nra]). nra. }
  assert (Q2 : 0 <= B2R q <= 2).
  { rewrite EQ. split; [apply rnd_ge; [apply format_IZR; lia|exact SG]|apply rnd_le; [apply format_IZR; lia|]].
    assert (VV : Rabs (B2R vs) <= 1 + / 4503599627370496).
    { rewrite EP. apply rnd_abs_le; [|rewrite Rabs_mult, (Rabs_pos_eq (B2R v)) by lra; pose proof (Rabs_pos (B2R sp)); nra].
      replace (1 + / 4503599627370496) with (IZR 4503599627370497 * bpow radix2 (-52)) by (change (bpow radix2 (-52)) with (/ 4503599627370496); field). apply (format_dyadic 4503599627370497 (-52)); lia. }
    apply Rabs_le_inv in VV. apply Rabs_le_inv in BS. nra. }
  destruct (Fadd_ok c2 q FC FQ) as [ED FD]; [apply SM, Rabs_le; lra|]. set (d := Fadd c2 q) in *.
  assert (D : 0 < B2R d).
  { rewrite ED. apply Rlt_le_trans with (bpow radix2 (-108)); [apply bpow_gt_0|]. apply rnd_ge; [apply (format_pow (-108)); lia|].
    assert (L108 : bpow radix2 (-108) <= / 4) by (apply (bpow_le radix2 (-108) (-2)); lia).
    assert (E107 : bpow radix2 (-107) = bpow radix2 (-106) * / 2) by (change (bpow radix2 (-107)) with (bpow radix2 (-106 + -1)); rewrite bpow_plus; reflexivity).
    assert (E108 : bpow radix2 (-108) = bpow radix2 (-107) * / 2) by (change (bpow radix2 (-108)) with (bpow radix2 (-107 + -1)); rewrite bpow_plus; reflexivity).
    destruct (Rle_or_lt (/ 2) (Rabs (B2R sp))) as [L|L].
    - assert (K : bpow radix2 (-107) <= Rabs (B2R vs)).
      { rewrite EP. unfold Rabs in L. destruct (Rcase_abs (B2R sp)) as [N|N].
        - rewrite Rabs_left1; [|apply rnd_le; [apply format_IZR; lia|nra]]. 
          assert (X : rnd (B2R v * B2R sp) <= - bpow radix2 (-107)); [|lra]. apply rnd_le; [apply generic_format_opp; apply (format_pow (-107)); lia|]. nra.
        - rewrite Rabs_pos_eq; [|apply rnd_ge; [apply format_IZR; lia|nra]]. apply rnd_ge; [apply (format_pow (-107)); lia|]. nra. }
      assert (bpow radix2 (-108) <= B2R q); [|lra]. rewrite EQ. apply rnd_ge; [apply (format_pow (-108)); lia|].
      rewrite <- (Rabs_pos_eq _ SG), Rabs_mult. assert (0 < bpow radix2 (-107)) by apply bpow_gt_0. nra.
    - assert (/ 4 <= B2R c2); [|lra]. rewrite EC. apply rnd_ge; [apply (format_pow (-2)); lia|].
      pose proof (sin2_cos2 (B2R la)) as SC. unfold Rsqr in SC. apply Rabs_lt_inv in L. apply Rabs_le_inv in Ns. apply Rabs_le_inv in Nc.
      assert (S1 : sin (B2R la) * sin (B2R la) <= 0.26) by nra.
      assert (C1 : 0.74 <= cos (B2R la) * cos (B2R la)) by lra.
      set (k := cos (B2R la)) in *. clearbody k. set (y := B2R cp) in *. clearbody y. clear - C1 Nc. 
      destruct (Rle_or_lt 0 k); [assert (0.86 <= k) by nra; nra|assert (k <= -0.86) by nra; nra]. }
  rewrite Bltb_correct by assumption. rewrite Z0. destruct (Rlt_bool_spec 0 (B2R d)) as [_|K]; [|lra]. eexists. reflexivity.
Qed.

(** C46 with a flattening that is not a number: [new] accepts it, and every conversion
    then fails, with any libm. *)
Lemma C46_nan_flattening_b64_pf : forall lm, exists c,
  conv_new (A := b64A lm) (MkEll (A := b64A lm) (Flit 6378137 0) B754_nan) = Ok c /\
  forall g, geodetic_to_geocentric (A := b64A lm) c g = Err BadCoordinates.
Proof.
  intros lm. eexists. split; [unfold conv_new; cbn [el_a el_f]; b64A_ops; vm_compute (Bltb _ _); vm_compute (Bleb _ _); cbn [orb]; reflexivity|].
  intros g. unfold geodetic_to_geocentric. cbn [cv_el el_a el_f]. b64A_ops.
  set (sp := lm_sin lm (phi g)). set (cp := lm_cos lm (phi g)). set (c2 := Fmul cp cp).
  replace (Fmul (Fsub (Flit 1 0) B754_nan) (Fsub (Flit 1 0) B754_nan)) with (B754_nan : b64) by (vm_compute; reflexivity).
  replace (Fmul (Fmul B754_nan sp) sp) with (B754_nan : b64) by (destruct sp; reflexivity).
  replace (Fadd c2 B754_nan) with (B754_nan : b64) by (destruct c2; reflexivity).
  replace (Bltb (Flit 0 0) (B754_nan : b64)) with false by (vm_compute; reflexivity). reflexivity.
Qed.

(** C46 on the flattest accepted ellipsoid, f = 1 - 2^-53, near a pole and far away. *)
Example C46_b64_example_pf : forall lm, good_libm lm -> exists c v,
  conv_new (A := b64A lm) (MkEll (A := b64A lm) (Flit 1 0) (Fof (2 ^ 53 - 1) (-53))) = Ok c /\
  geodetic_to_geocentric (A := b64A lm) c (MkGeod (A := b64A lm) (Flit 0 0) (Flit 15707963267948966 (-16)) (Flit 1 300)) = Ok v.
Proof.
  intros lm G. destruct (L_PEllipsoid.C44_band_edge_b64_pf lm) as (_ & (c & E)).
  assert (FL : fin (Flit 15707963267948966 (-16)) = true) by (vm_compute; reflexivity).
  destruct (C46_never_fails_b64_pf lm G (Flit 1 0) (Fof (2 ^ 53 - 1) (-53)) c (Flit 0 0) (Flit 15707963267948966 (-16)) (Flit 1 300) ltac:(vm_compute; reflexivity) ltac:(vm_compute; reflexivity) E FL) as (v & V).
  exists c, v. exact (conj E V).
Qed.

Lemma mjd_53411 : B2R (Flit 24000005 (-1)) = 2400000.5 /\ fin (Flit 24000005 (-1)) = true /\ B2R (Flit 53411 0) = 53411 /\ fin (Flit 53411 0) = true.
Proof. destruct lit_mjd0 as [A B]. destruct (L_Flit.Flit_int 53411 ltac:(lia)) as [C D]. repeat match goal with |- _ /\ _ => split end; try assumption. rewrite A. lra. Qed.

(** C82, C83 and C58 on 2005 February 10 (TDB or TT 2400000.5 + 53411). *)
Example C82_b64_example_pf : forall lm, good_libm lm -> exists r dpsi deps,
  earth_pos_vel (A := b64A lm) (MkTDB (A := b64A lm) (Flit 24000005 (-1)) (Flit 53411 0)) = Val r /\
  (let x i := B2R (vget (A := b64A lm) (pv_p (A := b64A lm) (heliocentric (A := b64A lm) r)) i) in
   0.982 <= R_sqrt.sqrt (x I0 * x I0 + x I1 * x I1 + x I2 * x I2) <= 1.018) /\
  nutation (A := b64A lm) (MkTT (A := b64A lm) (Flit 24000005 (-1)) (Flit 53411 0)) = Val (dpsi, deps) /\
  near dpsi (arcsec (low_dpsi (1866.5 / 36525))) (arcsec 0.551).
Proof.
  intros lm G. destruct mjd_53411 as (Va & Fa & Vb & Fb).
  assert (Ha : Rabs (B2R (Flit 24000005 (-1))) <= 4194304) by (rewrite Va; apply Rabs_le; lra).
  assert (Hb : Rabs (B2R (Flit 53411 0)) <= 4194304) by (rewrite Vb; apply Rabs_le; lra).
  destruct (C43_distance_b64_pf lm G _ _ Fa Fb Ha Hb) as (r & E & _ & D).
  { unfold years. cbn [tdb_1 tdb_2]. rewrite Va, Vb. apply Rabs_le. change (num realA) with R. lra. }
  assert (T : centuries (MkTT (A := realA) (B2R (Flit 24000005 (-1))) (B2R (Flit 53411 0))) = 1866.5 / 36525).
  { unfold centuries. cbn [tt_1 tt_2]. rewrite Va, Vb. change (num realA) with R. lra. }
  destruct (C85_nutation_b64_pf lm G _ _ Fa Fb Ha Hb) as (dp & de & E2 & N & _); [rewrite T; apply Rabs_le; lra|]. rewrite T in N.
  exists r, dp, de. exact (conj E (conj D (conj E2 N))).
Qed.
