(** * One step of the Earth: lemmas for the properties *)

From Coq Require Import ZArith Reals Lra Lia Bool List.
From Flocq Require Import Core BinarySingleNaN.
From Verif Require Import Outcome Arith ArithR ArithF Spec_Float Spec_Accuracy M_Common M_Time M_Earth Spec_Matrix Spec_Frames Spec_Series Spec_Orbit Spec_Gravity.
From Verif Require Import L_ArithR L_Series L_SeriesR L_Matrix L_Pi L_Epv L_Kepler L_Orbit L_OrbitV L_Near L_PSeries L_POrbit L_Almanac L_Gravity L_GravityK L_PGravity L_PAccEarth L_PAccuracy.
From Verif Require Import Spec_Accuracy.
Import ListNotations.
Open Scope R_scope.

Definition velv (t : R) : vec3 realA := V3 (A := realA) (snd (helio_st realA 0 t)) (snd (helio_st realA 1 t)) (snd (helio_st realA 2 t)).
Definition Pc (i : idx) (t : R) : R := coord (eclv (posv t)) i.
Definition Vc (i : idx) (t : R) : R := coord (eclv (velv t)) i.
Definition Ac (i : idx) (t : R) : R := coord (eclv (accv t)) i.

Lemma D_Pc : forall i t, derivable_pt_lim (Pc i) t (Vc i t).
Proof. intros i t. exact (icrf_der (helio_st realA 0) (helio_st realA 1) (helio_st realA 2) i (D_helio 0) (D_helio 1) (D_helio 2) t). Qed.
Lemma D_Vc : forall i t, derivable_pt_lim (Vc i) t (Ac i t).
Proof.
  intros i t. eapply der_ext; [|exact (icrf_der (helio_va 0) (helio_va 1) (helio_va 2) i (D_helio_va 0) (D_helio_va 1) (D_helio_va 2) t)].
  intros y. unfold Vc, eclv, velv. rewrite !helio_va_fst. reflexivity.
Qed.

Lemma coord_le : forall f i, Rabs (f i) <= length3 f.
Proof.
  intros f i. unfold length3. rewrite <- (sqrt_Rsqr_abs (f i)). apply sqrt_le_1_alt. unfold Rsqr. destruct i; nra.
Qed.

(** The acceleration, per year squared. *)
Lemma Ac_newton : forall i t, Rabs t <= 100 ->
  Rabs (Ac i t + kyear * Pc i t / nrm (eclv (posv t)) ^ 3 - 365.25 * 365.25 * moon_pull (t / 100) i) <= 0.1879.
Proof.
  intros i t Ht. eapply Rle_trans; [|exact (icrf_error t Ht)].
  exact (coord_le (fun i => Ac i t + kyear * Pc i t / nrm (eclv (posv t)) ^ 3 - 365.25 * 365.25 * moon_pull (t / 100) i) i).
Qed.

Lemma Ac_le : forall i t, Rabs t <= 100 -> Rabs (Ac i t) <= 41.4.
Proof.
  intros i t Ht. pose proof (Ac_newton i t Ht) as N. destruct (posv_radius t Ht) as [L _].
  pose proof (coord_le (moon_pull (t / 100)) i) as M. rewrite moon_pull_length in M.
  pose proof (coord_le (fun i => Pc i t) i) as C. change (length3 (fun i => Pc i t)) with (nrm (eclv (posv t))) in C. cbv beta in C.
  set (n := nrm (eclv (posv t))) in *. pose proof kyear_val as K. pose proof myear_val as Y. unfold myear in Y.
  set (p := Pc i t) in *. set (m := moon_pull (t / 100) i) in *. set (a := Ac i t) in *. clearbody p m a n.
  assert (B : Rabs (kyear * p / n ^ 3) <= 40.95).
  { unfold Rdiv. rewrite !Rabs_mult, (Rabs_pos_eq kyear) by lra. rewrite (Rabs_pos_eq (/ n ^ 3)) by (left; apply Rinv_0_lt_compat; apply pow_lt; lra).
    assert (B1 : kyear * Rabs p * / n ^ 3 <= kyear * n * / n ^ 3).
    { apply Rmult_le_compat_r; [left; apply Rinv_0_lt_compat; apply pow_lt; lra|]. apply Rmult_le_compat_l; lra. }
    replace (kyear * n * / n ^ 3) with (kyear * / (n * n)) in B1 by (field; lra).
    assert (I : / (n * n) <= / 0.964324) by (apply Rinv_le; nra). assert (0 < / (n * n)) by (apply Rinv_0_lt_compat; nra).
    set (w := / (n * n)) in *. clearbody w. nra. }
  apply Rabs_le_inv in N. apply Rabs_le_inv in M. apply Rabs_le_inv in B. apply Rabs_le. 
  assert (MM : -0.221 <= 365.25 * 365.25 * m <= 0.221) by lra. lra.
Qed.

(** A function whose second derivative is bounded. *)
Lemma slope_bound : forall (f f' : R -> R) x y K, 0 <= K -> (forall c, Rmin x y <= c <= Rmax x y -> derivable_pt_lim f c (f' c)) ->
  (forall c, Rmin x y <= c <= Rmax x y -> Rabs (f' c) <= K) -> Rabs (f y - f x) <= K * Rabs (y - x).
Proof.
  intros f f' x y K HK D B. destruct (MVT_abs f f' x y D) as (c & E & C). rewrite E.
  apply Rmult_le_compat_r; [apply Rabs_pos|]. apply B. exact C.
Qed.

Lemma taylor : forall (f f' f'' : R -> R) x y K, 0 <= K -> (forall c, derivable_pt_lim f c (f' c)) -> (forall c, derivable_pt_lim f' c (f'' c)) ->
  (forall c, Rmin x y <= c <= Rmax x y -> Rabs (f'' c) <= K) -> f y - f x - (y - x) * f' x <= K / 2 * ((y - x) * (y - x)).
Proof.
  intros f f' f'' x y K HK D D' B.
  set (g := fun c => f c - (c * f' x + K / 2 * ((c - x) * (c - x)))). set (g' := fun c => f' c - (f' x + K * (c - x))).
  assert (Dg : forall c, derivable_pt_lim g c (g' c)).
  { intros c. unfold g, g'. apply derivable_pt_lim_minus; [apply D|].
    replace (f' x + K * (c - x)) with ((1 * f' x + c * 0) + (0 * ((c - x) * (c - x)) + K / 2 * ((1 - 0) * (c - x) + (c - x) * (1 - 0)))) by field.
    apply derivable_pt_lim_plus.
    - apply (derivable_pt_lim_mult (fun c => c) (fun _ => f' x)); [apply derivable_pt_lim_id|apply derivable_pt_lim_const].
    - apply (derivable_pt_lim_mult (fun _ => K / 2) (fun c => (c - x) * (c - x))); [apply derivable_pt_lim_const|].
      apply (derivable_pt_lim_mult (fun c => c - x) (fun c => c - x)); (apply derivable_pt_lim_minus; [apply derivable_pt_lim_id|apply derivable_pt_lim_const]). }
  assert (S : forall c, Rmin x y <= c <= Rmax x y -> Rabs (f' c - f' x) <= K * Rabs (c - x)).
  { intros c Hc. apply (slope_bound f' f''); [exact HK|intros; apply D'|]. intros u Hu. apply B.
    unfold Rmin, Rmax in *. repeat destruct Rle_dec; lra. }
  assert (G : g y <= g x).
  { destruct (Rtotal_order x y) as [H|[H|H]].
    - destruct (MVT_cor2 g g' x y H) as (c & E & C); [intros; apply Dg|]. 
      assert (Hs := S c ltac:(unfold Rmin, Rmax; repeat destruct Rle_dec; lra)). rewrite (Rabs_pos_eq (c - x)) in Hs by lra. apply Rabs_le_inv in Hs.
      assert (N : g' c <= 0) by (unfold g'; lra). set (w := g' c) in *. clearbody w. nra.
    - subst y. lra.
    - destruct (MVT_cor2 g g' y x H) as (c & E & C); [intros; apply Dg|].
      assert (Hs := S c ltac:(unfold Rmin, Rmax; repeat destruct Rle_dec; lra)). rewrite (Rabs_left (c - x)) in Hs by lra. apply Rabs_le_inv in Hs.
      assert (N : 0 <= g' c) by (unfold g'; lra). set (w := g' c) in *. clearbody w. nra. }
  unfold g in G. lra.
Qed.

Lemma taylor_abs : forall (f f' f'' : R -> R) x y K, 0 <= K -> (forall c, derivable_pt_lim f c (f' c)) -> (forall c, derivable_pt_lim f' c (f'' c)) ->
  (forall c, Rmin x y <= c <= Rmax x y -> Rabs (f'' c) <= K) -> Rabs (f y - f x - (y - x) * f' x) <= K / 2 * ((y - x) * (y - x)).
Proof.
  intros f f' f'' x y K HK D D' B. apply Rabs_le. pose proof (taylor f f' f'' x y K HK D D' B) as U.
  pose proof (taylor (fun c => - f c) (fun c => - f' c) (fun c => - f'' c) x y K HK (fun c => derivable_pt_lim_opp f c _ (D c)) (fun c => derivable_pt_lim_opp f' c _ (D' c))) as L.
  specialize (L ltac:(intros c Hc; cbv beta; rewrite Rabs_Ropp; apply B; exact Hc)). lra.
Qed.

Lemma between_100 : forall x y c, Rabs x <= 100 -> Rabs y <= 100 -> Rmin x y <= c <= Rmax x y -> Rabs c <= 100.
Proof. intros x y c Hx Hy Hc. apply Rabs_le_inv in Hx. apply Rabs_le_inv in Hy. apply Rabs_le. unfold Rmin, Rmax in Hc. repeat destruct Rle_dec; lra. Qed.

Lemma Pc_step : forall i t t', Rabs t <= 100 -> Rabs t' <= 100 ->
  Rabs (Pc i t' - Pc i t - (t' - t) * Vc i t) <= 20.7 * ((t' - t) * (t' - t)).
Proof.
  intros i t t' Ht Ht'. replace 20.7 with (41.4 / 2) by lra. apply (taylor_abs _ _ (Ac i)); [lra|apply D_Pc|apply D_Vc|].
  intros c Hc. apply Ac_le. apply (between_100 t t'); assumption.
Qed.

Lemma icrf_Pc : forall i t, icrf (fun k => helio_ecl k t) i = Pc i t.
Proof.
  intros i t. destruct (C59_position_series_pf (MkTDB (A := realA) (2451545 + 365.25 * t) 0)) as (r & E & H). destruct (H i) as [H0 _].
  rewrite earth_pos_vel_val in E. injection E as E. subst r. rewrite helio_vec in H0.
  assert (Y : years (MkTDB (A := realA) (2451545 + 365.25 * t) 0) = t) by (unfold years; cbn [tdb_1 tdb_2]; change (num realA) with R; lra).
  rewrite Y in H0. rewrite <- H0. reflexivity.
Qed.

Lemma vel_Vc : forall i b a v, derivable_pt_lim (fun x => icrf (fun k => helio_ecl k (years (MkTDB (A := realA) x b))) i) a v ->
  v = Vc i (years (MkTDB (A := realA) a b)) / 365.25.
Proof.
  intros i b a v H. apply (uniqueness_limite (fun x => Pc i (years (MkTDB (A := realA) x b))) a).
  - eapply der_ext; [|exact H]. intros y. cbv beta. apply icrf_Pc.
  - apply (D_years_1 (Pc i) (Vc i)). apply D_Pc.
Qed.

Lemma step_core : forall i x y, Rabs x <= 100 -> Rabs y <= 100 -> let h := 365.25 * (y - x) in
  Rabs (Pc i y - Pc i x - h * (Vc i x / 365.25)) <= 0.000156 * (h * h) /\ Rabs (Vc i y / 365.25 - Vc i x / 365.25) <= 0.000311 * Rabs h.
Proof.
  intros i x y Hd Hd' h. pose proof (Pc_step i _ _ Hd Hd') as S.
  assert (W : Rabs (Vc i y - Vc i x) <= 41.4 * Rabs (y - x)).
  { apply (slope_bound _ (Ac i)); [lra|intros; apply D_Vc|]. intros c Hc. apply Ac_le. apply (between_100 x y); assumption. }
  split.
  - replace (h * (Vc i x / 365.25)) with ((y - x) * Vc i x) by (unfold h; field; lra). eapply Rle_trans; [exact S|].
    unfold h. set (q := y - x). assert (0 <= q * q) by nra. replace (365.25 * q * (365.25 * q)) with (133407.5625 * (q * q)) by lra. lra.
  - replace (Vc i y / 365.25 - Vc i x / 365.25) with ((Vc i y - Vc i x) * / 365.25) by lra. rewrite Rabs_mult, (Rabs_pos_eq (/ 365.25)) by lra.
    unfold h. rewrite Rabs_mult, (Rabs_pos_eq 365.25) by lra. pose proof (Rabs_pos (y - x)). lra.
Qed.

Lemma step_near : forall i x y p p' v v' ep ev, Rabs x <= 100 -> Rabs y <= 100 ->
  near p (Pc i x) ep -> near p' (Pc i y) ep -> near v (Vc i x / 365.25) ev -> near v' (Vc i y / 365.25) ev ->
  let h := 365.25 * (y - x) in
  near p' (B2R p + h * B2R v) (0.000156 * (h * h) + 2 * ep + ev * Rabs h) /\ near v' (B2R v) (0.000311 * Rabs h + 2 * ev).
Proof.
  intros i x y p p' v v' ep ev Hx Hy [Fp Hp] [Fp' Hp'] [Fv Hv] [Fv' Hv'] h. destruct (step_core i x y Hx Hy) as [S T]. fold h in S, T.
  split; (split; [assumption|]).
  - replace (B2R p' - (B2R p + h * B2R v)) with ((Pc i y - Pc i x - h * (Vc i x / 365.25)) + ((B2R p' - Pc i y) - (B2R p - Pc i x) - (B2R v - Vc i x / 365.25) * h)) by ring.
    assert (M : Rabs ((B2R v - Vc i x / 365.25) * h) <= ev * Rabs h) by (rewrite Rabs_mult; apply Rmult_le_compat_r; [apply Rabs_pos|exact Hv]).
    apply Rabs_le_inv in S. apply Rabs_le_inv in M. apply Rabs_le_inv in Hp. apply Rabs_le_inv in Hp'. apply Rabs_le. lra.
  - apply Rabs_le_inv in T. apply Rabs_le_inv in Hv. apply Rabs_le_inv in Hv'. apply Rabs_le. lra.
Qed.

Lemma epv_v : forall i d, coord (pv_v (A := realA) (heliocentric (A := realA) (epv_val realA d))) i = Vc i (years d) / 365.25.
Proof. intros i e. unfold epv_val. cbn [heliocentric pv_v]. cbv zeta. rewrite djy_R. change (div realA) with Rdiv. rewrite years_R, ecl_div. reflexivity. Qed.
Lemma epv_p : forall i d, coord (pv_p (A := realA) (heliocentric (A := realA) (epv_val realA d))) i = Pc i (years d).
Proof. intros i e. rewrite helio_vec. reflexivity. Qed.
Lemma years_step : forall a b a' b' : R, 365.25 * (years (MkTDB (A := realA) a' b') - years (MkTDB (A := realA) a b)) = (a' + b') - (a + b).
Proof. intros. unfold years. cbn [tdb_1 tdb_2]. change (num realA) with R. lra. Qed.

(** C40 over a finite time: after [h] days the Earth is at its position plus [h] times
    its velocity, within 0.000156 [h]^2 astronomical units in each coordinate, and
    each component of its velocity has changed by at most 0.000311 [h], for any two dates within a century of J2000. *)
Lemma C40_step_pf : forall d d', Rabs (years d) <= 100 -> Rabs (years d') <= 100 ->
  let h := 365.25 * (years d' - years d) in
  exists r r', earth_pos_vel (A := realA) d = Val r /\ earth_pos_vel (A := realA) d' = Val r' /\
  forall i, let p r := coord (pv_p (A := realA) (heliocentric (A := realA) r)) i in
            let v r := coord (pv_v (A := realA) (heliocentric (A := realA) r)) i in
  Rabs (p r' - p r - h * v r) <= 0.000156 * (h * h) /\ Rabs (v r' - v r) <= 0.000311 * Rabs h.
Proof.
  intros d d' Hd Hd' h. exists (epv_val realA d), (epv_val realA d'). split; [apply earth_pos_vel_val|]. split; [apply earth_pos_vel_val|].
  intros i p v. unfold p, v. rewrite !epv_p, !epv_v. exact (step_core i _ _ Hd Hd').
Qed.

(** C40 in binary64: the velocity returned for one date carries the position returned
    for it to the position returned for another, for every pair of dates within a century of J2000 split in
    any way into parts up to 2^22 days. *)
Lemma C40_step_b64_pf : forall lm, good_libm lm -> forall a b a' b' : b64,
  fin a = true -> fin b = true -> fin a' = true -> fin b' = true ->
  Rabs (B2R a) <= 4194304 -> Rabs (B2R b) <= 4194304 -> Rabs (B2R a') <= 4194304 -> Rabs (B2R b') <= 4194304 ->
  Rabs (years (MkTDB (A := realA) (B2R a) (B2R b))) <= 100 -> Rabs (years (MkTDB (A := realA) (B2R a') (B2R b'))) <= 100 ->
  let h := (B2R a' + B2R b') - (B2R a + B2R b) in
  exists r r', earth_pos_vel (A := b64A lm) (MkTDB (A := b64A lm) a b) = Val r /\ earth_pos_vel (A := b64A lm) (MkTDB (A := b64A lm) a' b') = Val r' /\
  forall i, let p r := vget (A := b64A lm) (pv_p (A := b64A lm) (heliocentric (A := b64A lm) r)) i in
            let v r := vget (A := b64A lm) (pv_v (A := b64A lm) (heliocentric (A := b64A lm) r)) i in
  near (p r') (B2R (p r) + h * B2R (v r)) (0.000156 * (h * h) + 1.54 / 10 ^ 10 + 1.4 / 10 ^ 12 * Rabs h) /\
  near (v r') (B2R (v r)) (0.000311 * Rabs h + 2.8 / 10 ^ 12).
Proof.
  intros lm G a b a' b' Fa Fb Fa' Fb' Ha Hb Ha' Hb' Ht Ht' h.
  destruct (C67_earth_accuracy_pf lm G a b Fa Fb Ha Hb Ht) as (r & E & N). destruct (C67_earth_accuracy_pf lm G a' b' Fa' Fb' Ha' Hb' Ht') as (r' & E' & N').
  exists r, r'. split; [exact E|]. split; [exact E'|]. intros i p v.
  destruct (N i) as (Hp & _ & (w & Dw & Hv) & _). destruct (N' i) as (Hp' & _ & (w' & Dw' & Hv') & _).
  apply vel_Vc in Dw. apply vel_Vc in Dw'. rewrite icrf_Pc in Hp, Hp'. rewrite Dw in Hv. rewrite Dw' in Hv'.
  replace (1.54 / 10 ^ 10) with (2 * (7.7 / 10 ^ 11)) by lra. replace (2.8 / 10 ^ 12) with (2 * (1.4 / 10 ^ 12)) by lra.
  pose proof (step_near i _ _ _ _ _ _ _ _ Ht Ht' Hp Hp' Hv Hv') as S. cbv zeta in S. rewrite years_step in S. exact S.
Qed.

(** With both dates given as modified Julian dates the rounding errors are below 2.6e-12
    astronomical units (40 cm) plus 2.3e-14 per day. *)
Lemma C40_step_b64_mjd_pf : forall lm, good_libm lm -> forall a b b' : b64,
  fin a = true -> fin b = true -> fin b' = true -> B2R a = 2400000.5 ->
  Rabs (years (MkTDB (A := realA) (B2R a) (B2R b))) <= 100 -> Rabs (years (MkTDB (A := realA) (B2R a) (B2R b'))) <= 100 ->
  let h := B2R b' - B2R b in
  exists r r', earth_pos_vel (A := b64A lm) (MkTDB (A := b64A lm) a b) = Val r /\ earth_pos_vel (A := b64A lm) (MkTDB (A := b64A lm) a b') = Val r' /\
  forall i, let p r := vget (A := b64A lm) (pv_p (A := b64A lm) (heliocentric (A := b64A lm) r)) i in
            let v r := vget (A := b64A lm) (pv_v (A := b64A lm) (heliocentric (A := b64A lm) r)) i in
  near (p r') (B2R (p r) + h * B2R (v r)) (0.000156 * (h * h) + 2.6 / 10 ^ 12 + 2.3 / 10 ^ 14 * Rabs h) /\
  near (v r') (B2R (v r)) (0.000311 * Rabs h + 4.6 / 10 ^ 14).
Proof.
  intros lm G a b b' Fa Fb Fb' Ha Ht Ht' h.
  destruct (C67_earth_accuracy_mjd_pf lm G a b Fa Fb Ha Ht) as (r & E & N). destruct (C67_earth_accuracy_mjd_pf lm G a b' Fa Fb' Ha Ht') as (r' & E' & N').
  exists r, r'. split; [exact E|]. split; [exact E'|]. intros i p v.
  destruct (N i) as (Hp & _ & (w & Dw & Hv) & _). destruct (N' i) as (Hp' & _ & (w' & Dw' & Hv') & _).
  apply vel_Vc in Dw. apply vel_Vc in Dw'. rewrite icrf_Pc in Hp, Hp'. rewrite Dw in Hv. rewrite Dw' in Hv'.
  replace (2.6 / 10 ^ 12) with (2 * (1.3 / 10 ^ 12)) by lra. replace (4.6 / 10 ^ 14) with (2 * (2.3 / 10 ^ 14)) by lra.
  pose proof (step_near i _ _ _ _ _ _ _ _ Ht Ht' Hp Hp' Hv Hv') as S. cbv zeta in S. rewrite years_step in S.
  replace (B2R a + B2R b' - (B2R a + B2R b)) with h in S by (unfold h; ring). exact S.
Qed.

(** C108 in binary64, over a finite time: between two dates within a century of J2000 each
    component of the velocity returned changes by the time in days times the pull of the Sun and
    the Moon at some moment in between, within 0.00000154 per day and the rounding error. *)
Lemma C108_newton_b64_pf : forall lm, good_libm lm -> forall a b a' b' : b64,
  fin a = true -> fin b = true -> fin a' = true -> fin b' = true ->
  Rabs (B2R a) <= 4194304 -> Rabs (B2R b) <= 4194304 -> Rabs (B2R a') <= 4194304 -> Rabs (B2R b') <= 4194304 ->
  Rabs (years (MkTDB (A := realA) (B2R a) (B2R b))) <= 100 -> Rabs (years (MkTDB (A := realA) (B2R a') (B2R b'))) <= 100 ->
  let h := (B2R a' + B2R b') - (B2R a + B2R b) in
  exists r r', earth_pos_vel (A := b64A lm) (MkTDB (A := b64A lm) a b) = Val r /\ earth_pos_vel (A := b64A lm) (MkTDB (A := b64A lm) a' b') = Val r' /\
  forall i, let v r := vget (A := b64A lm) (pv_v (A := b64A lm) (heliocentric (A := b64A lm) r)) i in
  exists m, Rmin (B2R a + B2R b) (B2R a' + B2R b') <= m <= Rmax (B2R a + B2R b) (B2R a' + B2R b') /\
  let t := years (MkTDB (A := realA) m 0) in
  near (v r') (B2R (v r) + h * (sun_pull (icrf (fun k => helio_ecl k t)) i + moon_pull (t / 100) i)) (0.00000154 * Rabs h + 2.8 / 10 ^ 12).
Proof.
  intros lm G a b a' b' Fa Fb Fa' Fb' Ha Hb Ha' Hb' Ht Ht' h.
  destruct (C67_earth_accuracy_pf lm G a b Fa Fb Ha Hb Ht) as (r & E & N). destruct (C67_earth_accuracy_pf lm G a' b' Fa' Fb' Ha' Hb' Ht') as (r' & E' & N').
  exists r, r'. split; [exact E|]. split; [exact E'|]. intros i v.
  destruct (N i) as (_ & _ & (w & Dw & [Fv Hv]) & _). destruct (N' i) as (_ & _ & (w' & Dw' & [Fv' Hv']) & _). clear N N'.
  apply vel_Vc in Dw. apply vel_Vc in Dw'. rewrite Dw in Hv. rewrite Dw' in Hv'. clear Dw Dw'. fold (v r) in Hv. fold (v r') in Hv'.
  pose proof (years_step (B2R a) (B2R b) (B2R a') (B2R b')) as YS. fold h in YS.
  assert (YM : forall q, years (MkTDB (A := realA) (2451545 + 365.25 * q) 0) = q) by (intros q; unfold years; cbn [tdb_1 tdb_2]; change (num realA) with R; lra).
  assert (YI : forall x y, x + y = 2451545 + 365.25 * years (MkTDB (A := realA) x y)) by (intros; unfold years; cbn [tdb_1 tdb_2]; change (num realA) with R; lra).
  rewrite (YI (B2R a)), (YI (B2R a')).
  set (x := years (MkTDB (A := realA) (B2R a) (B2R b))) in *. set (y := years (MkTDB (A := realA) (B2R a') (B2R b'))) in *. clearbody x y.
  assert (M : exists c, Rmin x y <= c <= Rmax x y /\ Vc i y - Vc i x = (y - x) * Ac i c).
  { destruct (Rtotal_order x y) as [H|[H|H]].
    - destruct (MVT_cor2 (Vc i) (Ac i) x y H) as (c & Ec & Hc); [intros; apply D_Vc|]. exists c. split; [unfold Rmin, Rmax; repeat destruct Rle_dec; lra|rewrite Ec; ring].
    - exists x. subst y. split; [unfold Rmin, Rmax; repeat destruct Rle_dec; lra|ring].
    - destruct (MVT_cor2 (Vc i) (Ac i) y x H) as (c & Ec & Hc); [intros; apply D_Vc|]. exists c. split; [unfold Rmin, Rmax; repeat destruct Rle_dec; lra|].
      replace (Vc i y - Vc i x) with (- (Vc i x - Vc i y)) by ring. rewrite Ec. ring. }
  destruct M as (c & Hc & Ec). exists (2451545 + 365.25 * c). split; [unfold Rmin, Rmax in *; repeat destruct Rle_dec; lra|]. cbv zeta. rewrite YM.
  assert (Hc' : Rabs c <= 100) by (apply (between_100 x y); assumption). pose proof (Ac_newton i c Hc') as A. destruct (posv_radius c Hc') as [NP _].
  assert (ES : sun_pull (icrf (fun k => helio_ecl k c)) i = - (kyear * Pc i c / nrm (eclv (posv c)) ^ 3) / 133407.5625).
  { unfold sun_pull. assert (EL : length3 (icrf (fun k => helio_ecl k c)) = nrm (eclv (posv c))) by (unfold length3; rewrite !icrf_Pc; reflexivity).
    rewrite EL, icrf_Pc. unfold kyear. replace 133407.5625 with (365.25 * 365.25) by lra. field. lra. }
  rewrite ES. set (s := kyear * Pc i c / nrm (eclv (posv c)) ^ 3) in *. set (m := moon_pull (c / 100) i) in *. set (ac := Ac i c) in *. clearbody s m ac.
  split; [exact Fv'|].
  replace (B2R (v r') - (B2R (v r) + h * (- s / 133407.5625 + m))) with
    ((B2R (v r') - Vc i y / 365.25) - (B2R (v r) - Vc i x / 365.25) + h * ((ac + s - 365.25 * 365.25 * m) / 133407.5625)).
  2: { assert (EE : Vc i y / 365.25 - Vc i x / 365.25 = h * (ac / 133407.5625)) by (replace (Vc i y / 365.25 - Vc i x / 365.25) with ((Vc i y - Vc i x) / 365.25) by lra; rewrite Ec, <- YS; lra).
       replace (365.25 * 365.25) with 133407.5625 by lra.
       transitivity (B2R (v r') - B2R (v r) - (Vc i y / 365.25 - Vc i x / 365.25) + h * ((ac + s - 133407.5625 * m) / 133407.5625)); [ring|]. rewrite EE. field. lra. }
  assert (B : Rabs (h * ((ac + s - 365.25 * 365.25 * m) / 133407.5625)) <= 0.00000154 * Rabs h).
  { rewrite Rabs_mult, Rmult_comm. apply Rmult_le_compat_r; [apply Rabs_pos|]. apply Rabs_le_inv in A. apply Rabs_le. lra. }
  replace (2.8 / 10 ^ 12) with (2 * (1.4 / 10 ^ 12)) by lra. set (e := 1.4 / 10 ^ 12) in *. clearbody e.
  apply Rabs_le_inv in B. apply Rabs_le_inv in Hv. apply Rabs_le_inv in Hv'. apply Rabs_le. lra.
Qed.

(** C40 over one day, from modified Julian date 53411 to 53412: the velocity carries each
    coordinate to within 0.0001561 astronomical units. *)
Example C40_step_example_pf : forall lm, good_libm lm -> exists r r',
  earth_pos_vel (A := b64A lm) (MkTDB (A := b64A lm) (Flit 24000005 (-1)) (Flit 53411 0)) = Val r /\
  earth_pos_vel (A := b64A lm) (MkTDB (A := b64A lm) (Flit 24000005 (-1)) (Flit 53412 0)) = Val r' /\
  forall i, near (vget (A := b64A lm) (pv_p (A := b64A lm) (heliocentric (A := b64A lm) r')) i)
    (B2R (vget (A := b64A lm) (pv_p (A := b64A lm) (heliocentric (A := b64A lm) r)) i) + B2R (vget (A := b64A lm) (pv_v (A := b64A lm) (heliocentric (A := b64A lm) r)) i)) 0.0001561.
Proof.
  intros lm G. destruct mjd0_ok as [Fa Va]. destruct (int_ok 53411 eq_refl) as [Fb Vb]. destruct (int_ok 53412 eq_refl) as [Fc Vc'].
  destruct (C40_step_b64_mjd_pf lm G _ _ _ Fa Fb Fc Va) as (r & r' & E & E' & H).
  1,2: rewrite Va; first [rewrite Vb|rewrite Vc']; unfold years; cbn [tdb_1 tdb_2]; apply Rabs_le; change (num realA) with R; lra.
  rewrite Vb, Vc' in H. replace (IZR 53412 - IZR 53411) with 1 in H by lra. exists r, r'. split; [exact E|]. split; [exact E'|]. intros i. destruct (H i) as [[F B] _].
  split; [exact F|]. rewrite Rmult_1_l in B. eapply Rle_trans; [exact B|]. rewrite Rabs_R1. lra.
Qed.
