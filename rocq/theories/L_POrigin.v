(** * Proofs of C100: the origin of the intermediate frame does not rotate *)

From Coq Require Import ZArith Reals Lra Lia Bool List.
From Flocq Require Import Core BinarySingleNaN.
From Verif Require Import Outcome Arith ArithR ArithF Spec_Float Spec_Accuracy M_Common M_Time M_Frames Spec_Matrix Spec_Frames Spec_Series Spec_C2t Spec_Origin.
From Verif Require Import L_PPole L_Spin L_SpinR L_SpinP L_ApxC2i L_Almanac L_PAccC2t L_Frames L_Matrix.
From Verif Require L_PSeries L_Lip L_PPole L_Fro.
Import ListNotations.
Open Scope R_scope.

(** ** Turning about the third axis *)
Definition zz (x y : R) : R := R_sqrt.sqrt (1 - (x * x + y * y)).
Definition aa (x y : R) : R := / (1 + zz x y).
Lemma zz_facts : forall x y, x * x + y * y < 1 -> 0 < zz x y /\ zz x y * zz x y = 1 - (x * x + y * y).
Proof. intros x y H. unfold zz. split; [apply sqrt_lt_R0; lra|apply sqrt_sqrt; lra]. Qed.
Lemma aa_der : forall (x y : R -> R) t x' y', derivable_pt_lim x t x' -> derivable_pt_lim y t y' -> x t * x t + y t * y t < 1 ->
  derivable_pt_lim (fun u => aa (x u) (y u)) t ((x t * x' + y t * y') / (zz (x t) (y t) * (1 + zz (x t) (y t)) ^ 2)).
Proof.
  intros x y t x' y' Hx Hy H. destruct (zz_facts _ _ H) as [Z0 Z1].
  assert (D1 : derivable_pt_lim (fun u => 1 - (x u * x u + y u * y u)) t (0 - ((x' * x t + x t * x') + (y' * y t + y t * y')))).
  { apply (derivable_pt_lim_minus (fun _ => 1) (fun u => x u * x u + y u * y u)); [apply derivable_pt_lim_const|].
    apply (derivable_pt_lim_plus (fun u => x u * x u) (fun u => y u * y u)); [apply (derivable_pt_lim_mult x x)|apply (derivable_pt_lim_mult y y)]; assumption. }
  assert (D2 : derivable_pt_lim (fun u => zz (x u) (y u)) t (/ (2 * R_sqrt.sqrt (1 - (x t * x t + y t * y t))) * (0 - ((x' * x t + x t * x') + (y' * y t + y t * y'))))).
  { apply (derivable_pt_lim_comp (fun u => 1 - (x u * x u + y u * y u)) R_sqrt.sqrt); [exact D1|]. apply derivable_pt_lim_sqrt. lra. }
  fold (zz (x t) (y t)) in D2. set (z := zz (x t) (y t)) in *.
  assert (D3 : derivable_pt_lim (fun u => 1 + zz (x u) (y u)) t (0 + / (2 * z) * (0 - ((x' * x t + x t * x') + (y' * y t + y t * y'))))).
  { apply (derivable_pt_lim_plus (fun _ => 1) (fun u => zz (x u) (y u))); [apply derivable_pt_lim_const|exact D2]. }
  assert (D4 : derivable_pt_lim (fun u => 1 / (1 + zz (x u) (y u))) t
    ((0 * (1 + z) - (0 + / (2 * z) * (0 - ((x' * x t + x t * x') + (y' * y t + y t * y')))) * 1) / (1 + z)²)).
  { apply (derivable_pt_lim_div (fun _ => 1) (fun u => 1 + zz (x u) (y u))); [apply derivable_pt_lim_const|exact D3|]. fold z. lra. }
  apply (L_PSeries.der_ext (fun u => 1 / (1 + zz (x u) (y u)))); [intros u; unfold aa, Rdiv; ring|].
  replace ((x t * x' + y t * y') / (z * (1 + z) ^ 2)) with ((0 * (1 + z) - (0 + / (2 * z) * (0 - (x' * x t + x t * x' + (y' * y t + y t * y')))) * 1) / (1 + z)²); [exact D4|].
  unfold Rsqr. field. lra.
Qed.

Ltac unfold_num := match goal with |- ?l = ?r => change (@eq R l r) end.
Lemma Q_rows : forall x y s k,
  entry (Q_matrix x y s) I0 k = cos s * match k with I0 => 1 - aa x y * x * x | I1 => - aa x y * x * y | I2 => - x end
                              - sin s * match k with I0 => - aa x y * x * y | I1 => 1 - aa x y * y * y | I2 => - y end /\
  entry (Q_matrix x y s) I1 k = sin s * match k with I0 => 1 - aa x y * x * x | I1 => - aa x y * x * y | I2 => - x end
                              + cos s * match k with I0 => - aa x y * x * y | I1 => 1 - aa x y * y * y | I2 => - y end.
Proof.
  intros x y s k. unfold Q_matrix. fold (zz x y). fold (aa x y). set (a := aa x y). set (z := zz x y). cbv zeta. unfold R3, rot3, mul3, entry.
  destruct k; cbn [mget mrow vget r0 r1 r2 v0 v1 v2]; rewrite cos_neg, sin_neg; split; unfold_num; ring.
Qed.
Lemma spin_algebra : forall x y z a al x' y' s' c s : R, z * z = 1 - (x * x + y * y) -> a * (1 + z) = 1 -> al * z = a * a * (x * x' + y * y') -> c * c + s * s = 1 ->
  let u0 := 1 - a * x * x in let u1 := - a * x * y in let u2 := - x in
  let w0 := - a * x * y in let w1 := 1 - a * y * y in let w2 := - y in
  let du0 := - (al * x * x + 2 * a * x * x') in let du1 := - (al * x * y + a * x' * y + a * x * y') in let du2 := - x' in
  let dw0 := du1 in let dw1 := - (al * y * y + 2 * a * y * y') in let dw2 := - y' in
  (- s' * s * u0 + c * du0 - (s' * c * w0 + s * dw0)) * (s * u0 + c * w0) +
  (- s' * s * u1 + c * du1 - (s' * c * w1 + s * dw1)) * (s * u1 + c * w1) +
  (- s' * s * u2 + c * du2 - (s' * c * w2 + s * dw2)) * (s * u2 + c * w2) = - s' + a * (x' * y - x * y').
Proof.
  intros x y z a al x' y' s' c s Hz Ha Hl Hc. cbv zeta.
  assert (A1 : a * (x * x + y * y) = 1 - z). { replace (x * x + y * y) with ((1 - z) * (1 + z)) by lra. replace (a * ((1 - z) * (1 + z))) with ((1 - z) * (a * (1 + z))) by ring. rewrite Ha. ring. }
  assert (A2 : a * a * (x * x + y * y) = 2 * a - 1). { replace (a * a * (x * x + y * y)) with (a * (a * (x * x + y * y))) by ring. rewrite A1. replace (a * (1 - z)) with (2 * a - a * (1 + z)) by ring. rewrite Ha. ring. }
  (* products of the rows *)
  assert (UU : (1 - a * x * x) * (1 - a * x * x) + (- a * x * y) * (- a * x * y) + (- x) * (- x) = 1).
  { replace (_ + _ + _) with (1 - 2 * a * (x * x) + x * x * (a * a * (x * x + y * y)) + x * x) by ring. rewrite A2. ring. }
  assert (WW : (- a * x * y) * (- a * x * y) + (1 - a * y * y) * (1 - a * y * y) + (- y) * (- y) = 1).
  { replace (_ + _ + _) with (1 - 2 * a * (y * y) + y * y * (a * a * (x * x + y * y)) + y * y) by ring. rewrite A2. ring. }
  assert (UW : (1 - a * x * x) * (- a * x * y) + (- a * x * y) * (1 - a * y * y) + (- x) * (- y) = 0).
  { replace (_ + _ + _) with (x * y * (1 - 2 * a + a * a * (x * x + y * y))) by ring. rewrite A2. ring. }
  (* products with the rates *)
  assert (DUU : - (al * x * x + 2 * a * x * x') * (1 - a * x * x) + - (al * x * y + a * x' * y + a * x * y') * (- a * x * y) + (- x') * (- x) = 0).
  { transitivity (x * x * (al * (a * (x * x + y * y) - 1) + a * a * (x * x' + y * y')) + x * x' * (1 - 2 * a + a * a * (x * x + y * y))); [ring|].
    rewrite A1, A2. replace (1 - z - 1) with (- z) by ring. replace (al * - z) with (- (al * z)) by ring. rewrite Hl. ring. }
  assert (DWW : - (al * x * y + a * x' * y + a * x * y') * (- a * x * y) + - (al * y * y + 2 * a * y * y') * (1 - a * y * y) + (- y') * (- y) = 0).
  { transitivity (y * y * (al * (a * (x * x + y * y) - 1) + a * a * (x * x' + y * y')) + y * y' * (1 - 2 * a + a * a * (x * x + y * y))); [ring|].
    rewrite A1, A2. replace (1 - z - 1) with (- z) by ring. replace (al * - z) with (- (al * z)) by ring. rewrite Hl. ring. }
  assert (DUW : - (al * x * x + 2 * a * x * x') * (- a * x * y) + - (al * x * y + a * x' * y + a * x * y') * (1 - a * y * y) + (- x') * (- y) = a * (x' * y - x * y')).
  { transitivity (x * y * (al * (a * (x * x + y * y) - 1) + a * a * (x * x' + y * y')) + x' * y * (1 - a + (a * a * (x * x + y * y)) * 1) - a * x * y'); [ring|].
    rewrite A1, A2. replace (1 - z - 1) with (- z) by ring. replace (al * - z) with (- (al * z)) by ring. rewrite Hl. ring. }
  assert (DWU : - (al * x * y + a * x' * y + a * x * y') * (1 - a * x * x) + - (al * y * y + 2 * a * y * y') * (- a * x * y) + (- y') * (- x) = - (a * (x' * y - x * y'))).
  { transitivity (x * y * (al * (a * (x * x + y * y) - 1) + a * a * (x * x' + y * y')) + x * y' * (1 - a + (a * a * (x * x + y * y)) * 1) - a * x' * y); [ring|].
    rewrite A1, A2. replace (1 - z - 1) with (- z) by ring. replace (al * - z) with (- (al * z)) by ring. rewrite Hl. ring. }
  set (u0 := 1 - a * x * x) in *. set (u1 := - a * x * y) in *. set (u2 := - x) in *. set (w1 := 1 - a * y * y) in *. set (w2 := - y) in *.
  set (du0 := - (al * x * x + 2 * a * x * x')) in *. set (du1 := - (al * x * y + a * x' * y + a * x * y')) in *. set (du2 := - x') in *. set (dw1 := - (al * y * y + 2 * a * y * y')) in *. set (dw2 := - y') in *.
  set (r := a * (x' * y - x * y')) in *. clearbody u0 u1 u2 w1 w2 du0 du1 du2 dw1 dw2 r.
  transitivity (- s' * (s * s * (u0 * u0 + u1 * u1 + u2 * u2) + c * c * (u1 * u1 + w1 * w1 + w2 * w2) + 2 * s * c * (u0 * u1 + u1 * w1 + u2 * w2))
    + c * s * (du0 * u0 + du1 * u1 + du2 * u2) + c * c * (du0 * u1 + du1 * w1 + du2 * w2) - s * s * (du1 * u0 + dw1 * u1 + dw2 * u2) - s * c * (du1 * u1 + dw1 * w1 + dw2 * w2)); [ring|].
  rewrite UU, WW, UW, DUU, DUW, DWU, DWW. replace (- s' * (s * s * 1 + c * c * 1 + 2 * s * c * 0) + c * s * 0 + c * c * r - s * s * - r - s * c * 0) with ((c * c + s * s) * (r - s')) by ring. rewrite Hc. ring.
Qed.
Lemma spin_Q : forall (x y s : R -> R) t x' y' s', derivable_pt_lim x t x' -> derivable_pt_lim y t y' -> derivable_pt_lim s t s' -> x t * x t + y t * y t < 1 ->
  spins (fun u => Q_matrix (x u) (y u) (s u)) t (- s' + aa (x t) (y t) * (x' * y t - x t * y')).
Proof.
  intros x y s t x' y' s' Hx Hy Hs H. pose proof (aa_der x y t x' y' Hx Hy H) as Ha. destruct (zz_facts _ _ H) as [Z0 Z1].
  set (al := (x t * x' + y t * y') / (zz (x t) (y t) * (1 + zz (x t) (y t)) ^ 2)) in *. set (a := aa (x t) (y t)).
  assert (HC : derivable_pt_lim (fun u => cos (s u)) t (- sin (s t) * s')) by (apply (derivable_pt_lim_comp s cos); [exact Hs|apply derivable_pt_lim_cos]).
  assert (HS : derivable_pt_lim (fun u => sin (s u)) t (cos (s t) * s')) by (apply (derivable_pt_lim_comp s sin); [exact Hs|apply derivable_pt_lim_sin]).
  pose (u (k : idx) (v : R) := match k with I0 => 1 - aa (x v) (y v) * x v * x v | I1 => - aa (x v) (y v) * x v * y v | I2 => - x v end).
  pose (w (k : idx) (v : R) := match k with I0 => - aa (x v) (y v) * x v * y v | I1 => 1 - aa (x v) (y v) * y v * y v | I2 => - y v end).
  pose (du (k : idx) := match k with I0 => - (al * x t * x t + 2 * a * x t * x') | I1 => - (al * x t * y t + a * x' * y t + a * x t * y') | I2 => - x' end).
  pose (dw (k : idx) := match k with I0 => - (al * x t * y t + a * x' * y t + a * x t * y') | I1 => - (al * y t * y t + 2 * a * y t * y') | I2 => - y' end).
  assert (P3 : forall (f g : R -> R) f' g', derivable_pt_lim f t f' -> derivable_pt_lim g t g' -> derivable_pt_lim (fun v => aa (x v) (y v) * f v * g v) t ((al * f t + a * f') * g t + a * f t * g')).
  { intros f g f' g' Hf Hg. apply (derivable_pt_lim_mult (fun v => aa (x v) (y v) * f v) g); [|exact Hg]. apply (derivable_pt_lim_mult (fun v => aa (x v) (y v)) f); assumption. }
  assert (eq_der : forall f l m, derivable_pt_lim f t l -> l = m -> derivable_pt_lim f t m) by (intros f l m K <-; exact K).
  assert (DU : forall k, derivable_pt_lim (u k) t (du k)).
  { intros k. destruct k; unfold u, du.
    - apply (eq_der _ (0 - ((al * x t + a * x') * x t + a * x t * x'))); [|ring]. apply (derivable_pt_lim_minus (fun _ => 1) (fun v => aa (x v) (y v) * x v * x v)); [apply derivable_pt_lim_const|apply P3; assumption].
    - apply (L_PSeries.der_ext (fun v => - (aa (x v) (y v) * x v * y v))); [intros v; ring|]. apply (eq_der _ (- ((al * x t + a * x') * y t + a * x t * y'))); [|ring]. apply (derivable_pt_lim_opp (fun v => aa (x v) (y v) * x v * y v)). apply P3; assumption.
    - apply (derivable_pt_lim_opp x). exact Hx. }
  assert (DW : forall k, derivable_pt_lim (w k) t (dw k)).
  { intros k. destruct k; unfold w, dw.
    - apply (L_PSeries.der_ext (fun v => - (aa (x v) (y v) * x v * y v))); [intros v; ring|]. apply (eq_der _ (- ((al * x t + a * x') * y t + a * x t * y'))); [|ring]. apply (derivable_pt_lim_opp (fun v => aa (x v) (y v) * x v * y v)). apply P3; assumption.
    - apply (eq_der _ (0 - ((al * y t + a * y') * y t + a * y t * y'))); [|ring]. apply (derivable_pt_lim_minus (fun _ => 1) (fun v => aa (x v) (y v) * y v * y v)); [apply derivable_pt_lim_const|apply P3; assumption].
    - apply (derivable_pt_lim_opp y). exact Hy. }
  exists (fun k => (- sin (s t) * s' * u k t + cos (s t) * du k) - (cos (s t) * s' * w k t + sin (s t) * dw k)). split.
  - intros k. apply (L_PSeries.der_ext (fun v => cos (s v) * u k v - sin (s v) * w k v)).
    { intros v. destruct (Q_rows (x v) (y v) (s v) k) as [E _]. rewrite E. reflexivity. }
    apply (derivable_pt_lim_minus (fun v => cos (s v) * u k v) (fun v => sin (s v) * w k v)); [apply (derivable_pt_lim_mult (fun v => cos (s v)) (u k))|apply (derivable_pt_lim_mult (fun v => sin (s v)) (w k))]; auto.
  - rewrite (proj2 (Q_rows (x t) (y t) (s t) I0)), (proj2 (Q_rows (x t) (y t) (s t) I1)), (proj2 (Q_rows (x t) (y t) (s t) I2)). unfold u, w, du, dw. fold a.
    assert (A : a * (1 + zz (x t) (y t)) = 1) by (unfold a, aa; apply Rinv_l; lra).
    assert (L : al * zz (x t) (y t) = a * a * (x t * x' + y t * y')) by (unfold al, a, aa; field; lra).
    pose proof (sin2_cos2 (s t)) as SC. unfold Rsqr in SC.
    pose proof (spin_algebra (x t) (y t) _ a al x' y' s' (cos (s t)) (sin (s t)) Z1 A L ltac:(lra)) as E. cbv zeta in E. rewrite <- E. ring.
Qed.

(** ** The angles of the series *)
Lemma combo_C1 : forall (fs fs' : list (R -> R)), Forall2 C1 fs fs' -> forall n, C1 (fun t => combo n (map (fun f => f t) fs)) (fun t => combo n (map (fun f => f t) fs')).
Proof.
  intros fs fs' F. induction F as [|f f' fs fs' H F IH]; intros n.
  - apply (C1_ext _ _ _ _ (C1_const 0)); intros t; cbn [map]; symmetry; apply L_Poisson.combo_r.
  - destruct n as [|z n]; cbn [map combo]; [apply C1_const|]. apply C1_plus; [apply C1_scal; exact H|apply IH].
Qed.
Lemma quartic_C1 : forall a b c d e, C1 (fun t => arcsec (a + b * t + c * t ^ 2 + d * t ^ 3 + e * t ^ 4)) (fun t => kap * (b + 2 * c * t + 3 * d * t ^ 2 + 4 * e * t ^ 3)).
Proof.
  intros a b c d e. apply (C1_ext _ _ _ _ (C1_scal kap _ _ (C1_plus _ _ _ _ (C1_plus _ _ _ _ (C1_plus _ _ _ _ (C1_plus _ _ _ _ (C1_const a) (C1_scal b _ _ C1_id)) (C1_scal c _ _ (C1_pow 2))) (C1_scal d _ _ (C1_pow 3))) (C1_scal e _ _ (C1_pow 4))))); intros t.
  - unfold arcsec. fold kap. ring.
  - cbn [INR Nat.pred]. ring.
Qed.
Lemma cio_C1 : exists s', C1 cio_sxy2 s'.
Proof.
  pose (fs := [iers_l; iers_lp; iers_f; iers_d; iers_om; iers_ve; iers_e; iers_pa]).
  assert (F : exists fs', Forall2 C1 fs fs').
  { eexists. unfold fs. constructor; [apply (C1_ext _ _ _ _ (quartic_C1 485868.249036 1717915923.2178 31.8792 0.051635 (- 0.00024470))); intros t; [unfold iers_l, arcsec; lra|reflexivity]|].
    constructor; [apply (C1_ext _ _ _ _ (quartic_C1 1287104.793048 129596581.0481 (- 0.5532) 0.000136 (- 0.00001149))); intros t; [unfold iers_lp, arcsec; lra|reflexivity]|].
    constructor; [apply (C1_ext _ _ _ _ (quartic_C1 335779.526232 1739527262.8478 (- 12.7512) (- 0.001037) 0.00000417)); intros t; [unfold iers_f, arcsec; lra|reflexivity]|].
    constructor; [apply (C1_ext _ _ _ _ (quartic_C1 1072260.703692 1602961601.2090 (- 6.3706) 0.006593 (- 0.00003169))); intros t; [unfold iers_d, arcsec; lra|reflexivity]|].
    constructor; [apply (C1_ext _ _ _ _ (quartic_C1 450160.398036 (- 6962890.5431) 7.4722 0.007702 (- 0.00005939))); intros t; [unfold iers_om, arcsec; lra|reflexivity]|].
    constructor; [exact (C1_plus _ _ _ _ (C1_const 3.176146697) (C1_scal 1021.3285546211 _ _ C1_id))|].
    constructor; [exact (C1_plus _ _ _ _ (C1_const 1.753470314) (C1_scal 628.3075849991 _ _ C1_id))|].
    constructor; [exact (C1_plus _ _ _ _ (C1_scal 0.024381750 _ _ C1_id) (C1_scal 0.00000538691 _ _ (C1_pow 2)))|]. constructor. }
  destruct F as (fs' & F). exists (dsgen cio_angles (fun t => map (fun f => f t) fs')).
  apply (C1_ext _ _ _ _ (sgen_C1 cio_angles (fun t => map (fun f => f t) fs') (fun n => combo_C1 fs fs' F n))); intros t; [apply sgen_cio|reflexivity].
Qed.

(** ** The turning rate of the frame without the locator *)
Definition prate (t : R) : R := px1 t * pole_y t + (aa (pole_x t) (pole_y t) - / 2) * (px1 t * pole_y t - pole_x t * py1 t).
Lemma pole_range : forall t, Rabs t <= 1 -> Rabs (pole_x t) <= 0.00976 /\ Rabs (pole_y t) <= 0.000161 /\ pole_x t * pole_x t + pole_y t * pole_y t < 1.
Proof.
  intros t Ht. destruct (pole_bounds t Ht) as (_ & B2 & _ & B4). destruct (resid_close t Ht) as [_ BY].
  set (x := pole_x t) in *. set (y := pole_y t) in *. set (w := YF t) in *. clearbody x y w.
  apply Rabs_le_inv in B2. apply Rabs_le_inv in B4. apply Rabs_le_inv in BY. apply Rabs_le_inv in Ht.
  split; [apply Rabs_le; lra|]. split; [apply Rabs_le; lra|]. assert (-0.00976 <= x <= 0.00976) by lra. assert (-0.000161 <= y <= 0.000161) by lra. nra.
Qed.
Lemma half_a : forall x y, Rabs x <= 0.00976 -> Rabs y <= 0.000161 ->
  0 <= aa x y - / 2 <= 0.0000120 /\ Rabs (aa x y - / 2 - x * x / 8) <= 4.2 / 10 ^ 9.
Proof.
  intros x y Hx Hy. apply Rabs_le_inv in Hx. apply Rabs_le_inv in Hy.
  assert (X2 : 0 <= x * x <= 0.0000952576) by nra. assert (Y2 : 0 <= y * y <= 0.000000025921) by nra.
  assert (H : x * x + y * y < 1) by lra. destruct (zz_facts x y H) as [Z0 Z1]. unfold aa. set (z := zz x y) in *. clearbody z.
  set (X := x * x) in *. set (Y := y * y) in *. clearbody X Y.
  assert (ZL : 0.99995 <= z <= 1) by (split; nra).
  (* a - 1/2 = (X + Y) / (2 (1+z)^2) *)
  assert (E : / (1 + z) - / 2 = (X + Y) / (2 * ((1 + z) * (1 + z)))). { replace (X + Y) with ((1 - z) * (1 + z)) by lra. field. lra. }
  rewrite E. set (q := (1 + z) * (1 + z)) in *. assert (Q : 3.9998 <= q <= 4) by (unfold q; split; nra). clearbody q.
  assert (I : 0 < / (2 * q) <= 0.12501). { split; [apply Rinv_0_lt_compat; lra|]. apply Rmult_le_reg_l with (2 * q); [lra|]. rewrite Rinv_r by lra. lra. }
  assert (I2 : 0.125 <= / (2 * q)). { apply Rmult_le_reg_l with (2 * q); [lra|]. rewrite Rinv_r by lra. lra. }
  unfold Rdiv. set (i := / (2 * q)) in *. clearbody i. split; [split; nra|]. apply Rabs_le. split; nra.
Qed.
Lemma prate_close : forall t, Rabs t <= 1 -> Rabs (dsth t - prate t - resid t) <= 1.03 / 10 ^ 9.
Proof.
  intros t Ht. destruct (pole_bounds t Ht) as (B1 & B2 & B3 & B4). destruct (pole_range t Ht) as (RX & RY & _). destruct (half_a _ _ RX RY) as [H0 H1].
  pose proof (XF_bound t Ht) as BX. pose proof (env_e t Ht) as BE. unfold prate, resid, cube.
  set (x := pole_x t) in *. set (y := pole_y t) in *. set (a := aa x y - / 2) in *. set (X := XF t) in *. set (Y := YF t) in *. set (E := deps1 t) in *. set (x' := px1 t) in *. set (y' := py1 t) in *. set (s := dsth t). clearbody x y a X Y E x' y' s.
  replace (s - (x' * y + a * (x' * y - x * y')) - (s - X * Y + 0.000000114671 * (t ^ 3 * E)))
    with (- (X * (y - Y)) - (x' - X) * y - a * (x' * y) + (a * x * (y' - E) + (a * x - 0.000000114671 * t ^ 3) * E)) by ring.
  assert (M1 : Rabs (X * (y - Y)) <= 0.02901 * 0.0000000066) by (apply mulb; assumption).
  assert (M2 : Rabs ((x' - X) * y) <= 0.0000041 * 0.000161) by (apply mulb; assumption).
  assert (X' : Rabs x' <= 0.02902) by (apply Rabs_le_inv in B1; apply Rabs_le_inv in BX; apply Rabs_le; lra).
  assert (A0 : Rabs a <= 0.000012) by (apply Rabs_le; lra).
  assert (M3 : Rabs (a * (x' * y)) <= 0.000012 * (0.02902 * 0.000161)) by (apply mulb; [exact A0|apply mulb; assumption]).
  assert (AX : Rabs (a * x) <= 0.000012 * 0.00976) by (apply mulb; assumption).
  assert (M4 : Rabs (a * x * (y' - E)) <= 0.000012 * 0.00976 * 0.00065) by (apply mulb; assumption).
  assert (C : Rabs (a * x - 0.000000114671 * t ^ 3) <= 1.6 / 10 ^ 9).
  { set (l := 0.009716595787 * t) in *. assert (L : Rabs l <= 0.00976) by (unfold l; apply Rabs_le_inv in Ht; apply Rabs_le; lra).
    assert (K1 : Rabs ((a - x * x / 8) * x) <= 4.2 / 10 ^ 9 * 0.00976) by (apply mulb; assumption).
    assert (K2 : Rabs ((x - l) * (x * x + x * l + l * l)) <= 0.000042 * (3 * (0.00976 * 0.00976))).
    { apply mulb; [exact B4|]. pose proof (mulb _ _ _ _ RX RX) as Q1. pose proof (mulb _ _ _ _ RX L) as Q2. pose proof (mulb _ _ _ _ L L) as Q3.
      apply Rabs_le_inv in Q1. apply Rabs_le_inv in Q2. apply Rabs_le_inv in Q3. apply Rabs_le. lra. }
    assert (K3 : Rabs (t ^ 3) <= 1) by (apply L_Lip.pow_abs1; exact Ht).
    replace (a * x - 0.000000114671 * t ^ 3) with ((a - x * x / 8) * x + (x - l) * (x * x + x * l + l * l) / 8 + (0.009716595787 ^ 3 / 8 - 0.000000114671) * t ^ 3) by (unfold l; field).
    set (k1 := (a - _) * x) in *. set (k2 := (x - l) * _) in *. set (k3 := t ^ 3) in *. clearbody k1 k2 k3. apply Rabs_le_inv in K1. apply Rabs_le_inv in K2. apply Rabs_le_inv in K3. clear - K1 K2 K3. apply Rabs_le. lra. }
  assert (M5 : Rabs ((a * x - 0.000000114671 * t ^ 3) * E) <= 1.6 / 10 ^ 9 * 0.018858) by (apply mulb; assumption).
  set (m1 := X * _) in *. set (m2 := (x' - X) * y) in *. set (m3 := a * (x' * y)) in *. set (m4 := a * x * _) in *. set (m5 := (a * x - _) * E) in *. clearbody m1 m2 m3 m4 m5. clear - M1 M2 M3 M4 M5.
  apply Rabs_le_inv in M1. apply Rabs_le_inv in M2. apply Rabs_le_inv in M3. apply Rabs_le_inv in M4. apply Rabs_le_inv in M5. apply Rabs_le. lra.
Qed.

(** ** The angle of the origin, by integration *)
Lemma primitive_of : forall f : R -> R, (forall t, Rabs t <= 1 -> continuity_pt f t) -> exists P : R -> R, forall t, Rabs t <= 1 -> derivable_pt_lim P t (f t).
Proof.
  intros f C. assert (h : -1 <= 1) by lra. assert (C0 : forall x, -1 <= x <= 1 -> continuity_pt f x) by (intros x Hx; apply C; apply Rabs_le; exact Hx).
  exists (primitive h (FTC_P1 h C0)). intros t Ht. apply RiemannInt_P28. apply Rabs_le_inv. exact Ht.
Qed.
Lemma prate_cont : forall t, Rabs t <= 1 -> continuity_pt prate t.
Proof.
  intros t Ht. destruct (pole_range t Ht) as (_ & _ & H). unfold prate.
  assert (A : continuity_pt (fun u => aa (pole_x u) (pole_y u)) t).
  { apply derivable_continuous_pt. eexists. exact (aa_der pole_x pole_y t _ _ (proj1 px_C1 t) (proj1 py_C1 t) H). }
  pose proof (C1_cont _ _ px_C1 t) as X0. pose proof (C1_cont _ _ py_C1 t) as Y0. pose proof (proj2 px_C1 t) as X1. pose proof (proj2 py_C1 t) as Y1.
  assert (K : forall c, continuity_pt (fun _ : R => c) t) by (intros c; apply continuity_const; intros ? ?; reflexivity).
  apply (continuity_pt_plus (fun u => px1 u * pole_y u) (fun u => (aa (pole_x u) (pole_y u) - / 2) * (px1 u * pole_y u - pole_x u * py1 u))).
  - apply (continuity_pt_mult px1 pole_y); assumption.
  - apply (continuity_pt_mult (fun u => aa (pole_x u) (pole_y u) - / 2) (fun u => px1 u * pole_y u - pole_x u * py1 u)).
    + apply (continuity_pt_minus (fun u => aa (pole_x u) (pole_y u)) (fun _ => / 2)); [exact A|apply K].
    + apply (continuity_pt_minus (fun u => px1 u * pole_y u) (fun u => pole_x u * py1 u)); [apply (continuity_pt_mult px1 pole_y)|apply (continuity_pt_mult pole_x py1)]; assumption.
Qed.
Lemma small_var : forall (g g' : R -> R) e, 0 <= e -> (forall t, Rabs t <= 1 -> derivable_pt_lim g t (g' t)) -> (forall t, Rabs t <= 1 -> Rabs (g' t) <= e) ->
  forall t, Rabs t <= 1 -> Rabs (g t - g 0) <= e.
Proof.
  intros g g' e He D B t Ht. apply Rabs_le_inv in Ht. destruct (Rtotal_order 0 t) as [H|[H|H]].
  - destruct (MVT_cor2 g g' 0 t H) as (c & E & Hc); [intros u Hu; apply D; apply Rabs_le; lra|]. rewrite E.
    eapply Rle_trans; [apply (mulb e 1); [apply B; apply Rabs_le; lra|apply Rabs_le; lra]|lra].
  - subst t. rewrite Rminus_diag_eq by reflexivity. rewrite Rabs_R0. exact He.
  - destruct (MVT_cor2 g g' t 0 H) as (c & E & Hc); [intros u Hu; apply D; apply Rabs_le; lra|]. rewrite Rabs_minus_sym, E.
    eapply Rle_trans; [apply (mulb e 1); [apply B; apply Rabs_le; lra|apply Rabs_le; lra]|lra].
Qed.
Lemma R3_Q : forall f x y s, mul3 (R3 f) (Q_matrix x y s) = Q_matrix x y (s - f).
Proof.
  intros f x y s. unfold Q_matrix. cbv zeta. set (z := R_sqrt.sqrt _). set (a := / _). clearbody a z.
  replace (- (s - f)) with (f + - s) by ring. unfold R3, rot3. rewrite cos_plus, sin_plus. unfold mul3, entry. cbn [mget mrow vget r0 r1 r2 v0 v1 v2].
  f_equal; f_equal; unfold_num; ring.
Qed.
Lemma origin : exists phi : R -> R, phi 0 = 0 /\ forall t, Rabs t <= 1 ->
  Rabs (phi t) <= 1.8 / 10 ^ 9 /\ spins (fun u => Q_matrix (pole_x u) (pole_y u) (cio_s u - phi u)) t 0.
Proof.
  destruct cio_C1 as (s' & CS). destruct (primitive_of prate prate_cont) as (P & DP). destruct resid_int as (W & w & CW & BW).
  exists (fun t => (cio_sxy2 t - cio_sxy2 0) - (P t - P 0)). split; [ring|]. intros t Ht. split.
  - pose (g := fun u => sgen th u - (P u + W u)).
    assert (V : Rabs (g t - g 0) <= 1.57 / 10 ^ 9).
    { apply (small_var g (fun u => dsth u - (prate u + w u)) (1.57 / 10 ^ 9)); [lra| | |exact Ht].
      - intros u Hu. apply (derivable_pt_lim_minus (sgen th) (fun u => P u + W u)); [apply (proj1 sth_C1)|]. apply (derivable_pt_lim_plus P W); [apply DP; exact Hu|apply (proj1 CW)].
      - intros u Hu. pose proof (prate_close u Hu) as B1. destruct (BW u Hu) as [B2 _]. apply Rabs_le_inv in B1. apply Rabs_le_inv in B2. apply Rabs_le. lra. }
    unfold g in V. destruct (BW t Ht) as [_ B2]. assert (H0 : Rabs 0 <= 1) by (rewrite Rabs_R0; lra).
    pose proof (sgen_near t Ht) as N1. pose proof (sgen_near 0 H0) as N2. rewrite sgen_cio in N1, N2.
    apply Rabs_le_inv in V. apply Rabs_le_inv in B2. apply Rabs_le_inv in N1. apply Rabs_le_inv in N2. apply Rabs_le. lra.
  - set (c := cio_sxy2 0). destruct (pole_range t Ht) as (_ & _ & H).
    pose proof (proj1 px_C1 t) as Dx. pose proof (proj1 py_C1 t) as Dy. pose proof (proj1 CS t) as Ds. pose proof (DP t Ht) as Dp.
    assert (D : derivable_pt_lim (fun u => cio_s u - (cio_sxy2 u - c - (P u - P 0))) t (prate t - / 2 * (px1 t * pole_y t + pole_x t * py1 t))).
    { apply (L_PSeries.der_ext (fun u => (P u - / 2 * (pole_x u * pole_y u)) + (c - P 0))); [intros u; unfold cio_s; field|].
      replace (prate t - / 2 * (px1 t * pole_y t + pole_x t * py1 t)) with (prate t - / 2 * (px1 t * pole_y t + pole_x t * py1 t) + 0) by ring.
      apply (derivable_pt_lim_plus (fun u => P u - / 2 * (pole_x u * pole_y u)) (fun _ => c - P 0)); [|apply derivable_pt_lim_const].
      apply (derivable_pt_lim_minus P (fun u => / 2 * (pole_x u * pole_y u))); [exact Dp|].
      apply (derivable_pt_lim_scal (fun u => pole_x u * pole_y u)). exact (derivable_pt_lim_mult pole_x pole_y t _ _ Dx Dy). }
    pose proof (spin_Q _ _ _ t _ _ _ Dx Dy D H) as S. match type of S with spins _ _ ?v => replace v with 0 in S; [exact S|] end.
    unfold prate. field.
Qed.

Lemma R3_near : forall f m, proper m -> Rabs f <= 1.8 / 10 ^ 9 -> forall i j, Rabs (entry m i j - entry (mul3 (R3 f) m) i j) <= 1.81 / 10 ^ 9.
Proof.
  intros f m Pm B i j.
  assert (E0 : entry (mul3 (R3 f) m) I0 j = cos f * entry m I0 j + sin f * entry m I1 j) by (destruct j; unfold mul3, R3, rot3, entry; cbn [mget mrow vget r0 r1 r2 v0 v1 v2]; unfold_num; ring).
  assert (E1 : entry (mul3 (R3 f) m) I1 j = - sin f * entry m I0 j + cos f * entry m I1 j) by (destruct j; unfold mul3, R3, rot3, entry; cbn [mget mrow vget r0 r1 r2 v0 v1 v2]; unfold_num; ring).
  assert (E2 : entry (mul3 (R3 f) m) I2 j = entry m I2 j) by (destruct j; unfold mul3, R3, rot3, entry; cbn [mget mrow vget r0 r1 r2 v0 v1 v2]; unfold_num; ring).
  pose proof (one_cos_small f _ B) as OC. pose proof (sin_small f _ B ltac:(lra)) as SS.
  assert (SB : Rabs (sin f) <= 1.801 / 10 ^ 9) by (apply Rabs_le_inv in SS; apply Rabs_le_inv in B; apply Rabs_le; split; lra).
  assert (CB : Rabs (1 - cos f) <= 0.001 / 10 ^ 9) by (apply Rabs_le; split; lra).
  pose proof (L_Fro.entry_1 m I0 j Pm) as U0. pose proof (L_Fro.entry_1 m I1 j Pm) as U1.
  pose proof (mulb _ _ _ _ CB U0) as A0. pose proof (mulb _ _ _ _ CB U1) as A1. pose proof (mulb _ _ _ _ SB U0) as B0. pose proof (mulb _ _ _ _ SB U1) as B1.
  apply Rabs_le_inv in A0. apply Rabs_le_inv in A1. apply Rabs_le_inv in B0. apply Rabs_le_inv in B1.
  destruct i; [rewrite E0|rewrite E1|rewrite E2]; apply Rabs_le; lra.
Qed.

(** ** C100 *)

(** The origin of the intermediate frame is a non-rotating origin.  Within a century of
    J2000 the exact celestial-to-intermediate matrix is, up to a turn about its own third
    axis of at most 1.8e-9 rad (0.4 mas), a frame whose first axis never moves towards its
    second: the accumulated error of the locator over the whole century is that angle. *)
Lemma C100_origin_pf : exists (F : R -> mat3 realA) (phi : R -> R), phi 0 = 0 /\
  (forall t, Rabs t <= 1 -> proper (F t) /\ spins F t 0 /\ Rabs (phi t) <= 1.8 / 10 ^ 9) /\
  forall d, Rabs (centuries d) <= 1 -> exists m, celestial_to_intermediate (A := realA) d = Val m /\
    F (centuries d) = mul3 (R3 (phi (centuries d))) m.
Proof.
  destruct origin as (phi & P0 & H). exists (fun u => Q_matrix (pole_x u) (pole_y u) (cio_s u - phi u)), phi. split; [exact P0|]. split.
  - intros t Ht. destruct (H t Ht) as [B S]. split; [|split; [exact S|exact B]]. apply Q_proper. exact (proj2 (proj2 (pole_range t Ht))).
  - intros d Hd. exists (C2I (centuries d)). split; [exact (proj1 (C69_exact_pf d ltac:(lra)))|]. unfold C2I. rewrite R3_Q. reflexivity.
Qed.

(** The binary64 matrix, for every split of the date with parts up to 2^22 days: one
    frame that never spins is within 1.9e-9 of the results at every date within a
    century of J2000, entry by entry, and agrees with the exact matrix at J2000. *)
Lemma C100_float_pf : exists F : R -> mat3 realA,
  (forall t, Rabs t <= 1 -> proper (F t) /\ spins F t 0) /\
  (forall d, centuries d = 0 -> celestial_to_intermediate (A := realA) d = Val (F 0)) /\
  forall lm, good_libm lm -> forall a b : b64, fin a = true -> fin b = true ->
    Rabs (B2R a) <= 4194304 -> Rabs (B2R b) <= 4194304 ->
    let t := centuries (MkTT (A := realA) (B2R a) (B2R b)) in
    Rabs t <= 1 ->
    exists q, celestial_to_intermediate (A := b64A lm) (MkTT (A := b64A lm) a b) = Val q /\
      forall i j, near (mget (A := b64A lm) q i j) (entry (F t) i j) (1.9 / 10 ^ 9).
Proof.
  destruct origin as (phi & P0 & H). pose (F := fun u => Q_matrix (pole_x u) (pole_y u) (cio_s u - phi u)). exists F. split; [|split].
  - intros t Ht. split; [|exact (proj2 (H t Ht))]. apply Q_proper. exact (proj2 (proj2 (pole_range t Ht))).
  - intros d Hd. rewrite (proj1 (C69_exact_pf d ltac:(rewrite Hd, Rabs_R0; lra))). rewrite Hd. unfold C2I, F. rewrite P0, Rminus_0_r. reflexivity.
  - intros lm G a b Fa Fb Ha Hb t Ht. destruct (proj1 (C69_terrestrial_accuracy_pf lm G a b Fa Fb Ha Hb ltac:(fold t; lra))) as (q & Eq & Hq). fold t in Hq.
    exists q. split; [exact Eq|]. intros i j. destruct (Hq i j) as [Fq Bq]. split; [exact Fq|].
    destruct (H t Ht) as [B _]. assert (PC : proper (C2I t)) by (apply Q_proper; exact (proj2 (proj2 (pole_range t Ht)))).
    assert (E : F t = mul3 (R3 (phi t)) (C2I t)) by (unfold C2I; rewrite R3_Q; reflexivity). rewrite E. clear E.
    assert (N : Rabs (entry (C2I t) i j - entry (mul3 (R3 (phi t)) (C2I t)) i j) <= 1.81 / 10 ^ 9); [|apply Rabs_le_inv in N; apply Rabs_le_inv in Bq; apply Rabs_le; lra].
    apply R3_near; assumption.
Qed.

(** What the notion says: a frame turning about its own third axis spins at the rate it
    turns, one turning about its second axis moves without spinning, and turning the
    latter about the third axis by the precession in right ascension of 4612 arc seconds
    a century, as the equinox does, makes it spin at that rate. *)
Example C100_example_pf :
  spins R3 0.7 1 /\ spins R2 0.7 0 /\
  spins (fun t => mul3 (R3 (arcsec (4612 * t))) (R2 t)) 0.7 (arcsec 4612).
Proof.
  assert (S1 : forall t, cos t * cos t + sin t * sin t = 1) by (intros t; pose proof (sin2_cos2 t) as E; unfold Rsqr in E; lra).
  split; [|split].
  - exists (fun k => match k with I0 => - sin 0.7 | I1 => cos 0.7 | I2 => 0 end). split.
    + intros k. destruct k; unfold R3, rot3, entry; cbn [mget mrow vget r0 r1 r2 v0 v1 v2]; [apply derivable_pt_lim_cos|apply derivable_pt_lim_sin|apply derivable_pt_lim_const].
    + unfold R3, rot3, entry; cbn [mget mrow vget r0 r1 r2 v0 v1 v2]. unfold_num. pose proof (S1 0.7). lra.
  - exists (fun k => match k with I0 => - sin 0.7 | I1 => 0 | I2 => - cos 0.7 end). split.
    + intros k. destruct k; unfold R2, rot3, entry; cbn [mget mrow vget r0 r1 r2 v0 v1 v2]; [apply derivable_pt_lim_cos|apply derivable_pt_lim_const|apply (derivable_pt_lim_opp sin); apply derivable_pt_lim_sin].
    + unfold R2, rot3, entry; cbn [mget mrow vget r0 r1 r2 v0 v1 v2]. unfold_num. ring.
  - pose (g := fun t => arcsec (4612 * t)). assert (Dg : forall t, derivable_pt_lim g t (arcsec 4612)).
    { intros t. apply (L_PSeries.der_ext (fun u => arcsec 4612 * u)); [intros u; unfold g, arcsec; field|]. pose proof (derivable_pt_lim_scal (fun u => u) (arcsec 4612) t 1 (derivable_pt_lim_id t)) as D. rewrite Rmult_1_r in D. exact D. }
    set (v := arcsec 4612) in *. change (spins (fun t => mul3 (R3 (g t)) (R2 t)) 0.7 v). specialize (Dg 0.7).
    assert (Dc : derivable_pt_lim (fun u => cos (g u)) 0.7 (- sin (g 0.7) * v)) by (apply (derivable_pt_lim_comp g cos); [exact Dg|apply derivable_pt_lim_cos]).
    assert (Ds : derivable_pt_lim (fun u => sin (g u)) 0.7 (cos (g 0.7) * v)) by (apply (derivable_pt_lim_comp g sin); [exact Dg|apply derivable_pt_lim_sin]).
    pose proof (S1 0.7) as E1. pose proof (S1 (g 0.7)) as E2.
    exists (fun k => match k with I0 => - sin (g 0.7) * v * cos 0.7 + cos (g 0.7) * - sin 0.7 | I1 => cos (g 0.7) * v | I2 => - ((- sin (g 0.7) * v) * sin 0.7 + cos (g 0.7) * cos 0.7) end). split.
    + intros k. destruct k; unfold mul3, R3, R2, rot3, entry; cbn [mget mrow vget r0 r1 r2 v0 v1 v2].
      * apply (L_PSeries.der_ext (fun u => cos (g u) * cos u)); [intros u; unfold_num; ring|]. apply (derivable_pt_lim_mult (fun u => cos (g u)) cos); [exact Dc|apply derivable_pt_lim_cos].
      * apply (L_PSeries.der_ext (fun u => sin (g u))); [intros u; unfold_num; ring|]. exact Ds.
      * apply (L_PSeries.der_ext (fun u => - (cos (g u) * sin u))); [intros u; unfold_num; ring|]. apply (derivable_pt_lim_opp (fun u => cos (g u) * sin u)). apply (derivable_pt_lim_mult (fun u => cos (g u)) sin); [exact Dc|apply derivable_pt_lim_sin].
    + unfold mul3, R3, R2, rot3, entry; cbn [mget mrow vget r0 r1 r2 v0 v1 v2]. unfold_num. clear Dg Dc Ds.
      set (c := cos 0.7) in *. set (s := sin 0.7) in *. set (C := cos (g 0.7)) in *. set (S := sin (g 0.7)) in *. clearbody c s C S v.
      transitivity (v * (C * C + S * S * (c * c + s * s))); [rewrite E1, Rmult_1_r, E2; ring|ring].
Qed.
