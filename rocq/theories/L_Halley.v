(** * The non-iterative step of geocentric_to_geodetic, in exact arithmetic

    Lengths in units of the equatorial radius.  w = 1 - f, e = 1 - w^2,
    (sp, cp) = sine and cosine of the geodetic latitude, h = height,
    u = 1 / sqrt(cp^2 + w^2 sp^2), so that the point is
    ((u + h) cp, (w^2 u + h) sp). *)

From Coq Require Import ZArith Reals Lra Lia.
Open Scope R_scope.

Record geo (w e sp cp u h a0 : R) : Prop := MkGeo {
  g_w : 0 < w <= 1;
  g_e : e = 1 - w * w;
  g_1 : sp * sp + cp * cp = 1;
  g_sp : 0 <= sp;
  g_cp : 0 < cp;
  g_u : 0 < u;
  g_d : u * u * (cp * cp + w * w * (sp * sp)) = 1;
  g_a : 0 <= a0;
  g_a2 : a0 * a0 = (w * ((u + h) * cp)) * (w * ((u + h) * cp)) + ((w * w * u + h) * sp) * ((w * w * u + h) * sp) }.

(** The quantities of the program, from the normalised coordinates. *)
Definition hd0 (w e pn s0 a0 : R) : R := w * s0 * (a0 * a0 * a0) + e * (s0 * s0 * s0).
Definition hf0 (w e pn s0 a0 : R) : R := pn * (a0 * a0 * a0) - e * ((w * pn) * (w * pn) * (w * pn)).
Definition hb0 (w e pn s0 a0 : R) : R := e * e * 1.5 * (s0 * s0) * ((w * pn) * (w * pn)) * pn * (a0 - w).
Definition hs1 (w e pn s0 a0 : R) : R := hd0 w e pn s0 a0 * hf0 w e pn s0 a0 - hb0 w e pn s0 a0 * s0.
Definition hcc (w e pn s0 a0 : R) : R := w * (hf0 w e pn s0 a0 * hf0 w e pn s0 a0 - hb0 w e pn s0 a0 * (w * pn)).

Definition hQ (w sp cp u h a0 : R) : R :=
  let A := u + h in let B := w * w * u + h in
  B * B * B * (sp * sp) + w * w * w * w * (A * A * A) * (cp * cp) - w * u * (a0 * a0 * a0).

(** The sine of the error times the norm. *)
Lemma cross_identity : forall w sp cp u h a0,
  let e := 1 - w * w in
  let pn := (u + h) * cp in let s0 := (w * w * u + h) * sp in
  hs1 w e pn s0 a0 * cp - hcc w e pn s0 a0 * sp =
  cp * sp * e * (hf0 w e pn s0 a0 * hQ w sp cp u h a0 - hb0 w e pn s0 a0 * h).
Proof.
  intros w sp cp u h a0 e pn s0. unfold hs1, hcc. 
  set (b0 := hb0 w e pn s0 a0). set (f0 := hf0 w e pn s0 a0).
  assert (X : cp * hd0 w e pn s0 a0 - w * sp * f0 = cp * sp * e * hQ w sp cp u h a0) by (unfold hd0, f0, hf0, hQ, pn, s0, e; ring).
  assert (Y : cp * s0 - w * sp * (w * pn) = cp * sp * e * h) by (unfold s0, pn, e; ring).
  replace (cp * sp * e * (f0 * hQ w sp cp u h a0 - b0 * h)) with (f0 * (cp * sp * e * hQ w sp cp u h a0) - b0 * (cp * sp * e * h)) by ring.
  rewrite <- X, <- Y. ring.
Qed.

(** Angle of (cc, s1) compared with the true one. *)
Lemma atan_diff : forall phi s1 cc, - (PI / 2) < phi < PI / 2 -> 0 < cc -> 0 < s1 * sin phi + cc * cos phi ->
  atan (s1 / cc) - phi = atan ((s1 * cos phi - cc * sin phi) / (s1 * sin phi + cc * cos phi)).
Proof.
  intros phi s1 cc Hp Hc HM.
  set (n := sqrt (s1 * s1 + cc * cc)).
  assert (N2 : n * n = s1 * s1 + cc * cc) by (apply sqrt_def; nra).
  assert (N0 : 0 < n) by (apply sqrt_lt_R0; nra).
  set (th := atan (s1 / cc)).
  assert (C : cos th = cc / n).
  { unfold th. rewrite cos_atan. replace (1 + Rsqr (s1 / cc)) with (n * n / (cc * cc)) by (rewrite N2; unfold Rsqr; field; lra).
    rewrite sqrt_div_alt by nra. rewrite !sqrt_square by lra. field. lra. }
  assert (S : sin th = s1 / n).
  { unfold th. rewrite sin_atan. replace (1 + Rsqr (s1 / cc)) with (n * n / (cc * cc)) by (rewrite N2; unfold Rsqr; field; lra).
    rewrite sqrt_div_alt by nra. rewrite !sqrt_square by lra. field. lra. }
  assert (S' : sin (th - phi) = (s1 * cos phi - cc * sin phi) / n) by (rewrite sin_minus, S, C; field; lra).
  assert (C' : cos (th - phi) = (s1 * sin phi + cc * cos phi) / n) by (rewrite cos_minus, S, C; field; lra).
  assert (CP : 0 < cos (th - phi)) by (rewrite C'; apply Rmult_lt_0_compat; [lra|apply Rinv_0_lt_compat; lra]).
  pose proof (atan_bound (s1 / cc)) as B. fold th in B.
  assert (R : - (PI / 2) < th - phi < PI / 2).
  { split; apply Rnot_le_lt; intros L.
    - assert (cos (th - phi) <= 0); [|lra]. rewrite <- (cos_neg (th - phi)). apply cos_le_0; lra.
    - assert (cos (th - phi) <= 0); [|lra]. apply cos_le_0; lra. }
  rewrite <- (atan_tan (th - phi) R). f_equal. unfold tan. rewrite S', C'. field. lra.
Qed.

(** The height from any latitude (s', c'), compared with the true height. *)
Lemma height_identity : forall w sp cp u h s c, 0 < w -> u * u * (cp * cp + w * w * (sp * sp)) = 1 -> 0 < u -> s * s + c * c = 1 ->
  0 < cp * c + w * w * (sp * s) -> sp * sp + cp * cp = 1 ->
  let r := sqrt (w * w * (s * s) + c * c) in
  (u + h) * cp * c + (w * w * u + h) * sp * s - r - h =
  - h * (1 - (cp * c + sp * s)) - u * u * (w * w) * ((cp * s - sp * c) * (cp * s - sp * c)) / (r + u * (cp * c + w * w * (sp * s))).
Proof.
  intros w sp cp u h s c Hw Hd Hu H1 HK H2 r.
  assert (R2 : r * r = w * w * (s * s) + c * c) by (apply sqrt_def; nra).
  assert (R0 : 0 <= r) by apply sqrt_pos.
  set (K := cp * c + w * w * (sp * s)) in *.
  assert (D : 0 < r + u * K) by nra.
  assert (L : r * r - u * K * (u * K) = u * u * (w * w) * ((cp * s - sp * c) * (cp * s - sp * c))).
  { rewrite R2. replace (w * w * (s * s) + c * c) with ((u * u * (cp * cp + w * w * (sp * sp))) * (w * w * (s * s) + c * c)) by (rewrite Hd; ring).
    unfold K. ring. }
  rewrite <- L. replace ((r * r - u * K * (u * K)) / (r + u * K)) with (r - u * K) by (field; lra). unfold K. ring.
Qed.

Lemma height_error : forall w sp cp u h s c, 0 < w <= 1 -> u * u * (cp * cp + w * w * (sp * sp)) = 1 -> 0 < u -> s * s + c * c = 1 ->
  0 <= cp -> 0 <= c -> 0 <= sp -> 0 <= s -> 0 < cp * c + sp * s -> sp * sp + cp * cp = 1 ->
  Rabs ((u + h) * cp * c + (w * w * u + h) * sp * s - sqrt (w * w * (s * s) + c * c) - h) <=
  (Rabs h + u) * ((s * cp - c * sp) * (s * cp - c * sp)).
Proof.
  intros w sp cp u h s c Hw Hd Hu H1 Hcp Hc Hsp Hs C0 H2.
  assert (SS : 0 <= sp * s) by (apply Rmult_le_pos; assumption).
  assert (CC : 0 <= cp * c) by (apply Rmult_le_pos; assumption).
  assert (HK : 0 < cp * c + w * w * (sp * s)).
  { assert (0 < w * w * (cp * c + sp * s)) by (apply Rmult_lt_0_compat; nra).
    assert (0 <= (1 - w * w) * (cp * c)) by (apply Rmult_le_pos; nra). lra. }
  rewrite (height_identity w sp cp u h s c ltac:(lra) Hd Hu H1 HK H2).
  set (r := sqrt (w * w * (s * s) + c * c)).
  assert (Rw : w <= r).
  { unfold r. rewrite <- (sqrt_square w) at 1 by lra. apply sqrt_le_1_alt.
    replace (s * s) with (1 - c * c) by lra. assert (0 <= c * c * (1 - w * w)) by (apply Rmult_le_pos; nra). lra. }
  set (K := cp * c + w * w * (sp * s)) in *. set (x := s * cp - c * sp).
  replace (cp * s - sp * c) with x by (unfold x; ring).
  assert (X0 : 0 <= x * x) by nra.
  assert (LG : (cp * c + sp * s) * (cp * c + sp * s) + x * x = 1).
  { replace 1 with ((sp * sp + cp * cp) * (s * s + c * c)) by (rewrite H1, H2; ring). unfold x. ring. }
  set (C := cp * c + sp * s) in *. assert (C1 : 0 <= 1 - C <= x * x) by nra.
  assert (U : u * w <= 1).
  { assert (u * w * (u * w) <= 1); [|nra]. rewrite <- Hd. 
    replace (u * w * (u * w)) with (u * u * (w * w)) by ring. apply Rmult_le_compat_l; [nra|].
    replace (cp * cp) with (1 - sp * sp) by lra. assert (0 <= (1 - sp * sp) * (1 - w * w)) by (apply Rmult_le_pos; nra). lra. }
  assert (Q : 0 <= u * u * (w * w) * (x * x) / (r + u * K) <= u * (x * x)).
  { split.
    - apply Rmult_le_pos; [nra|]. apply Rlt_le, Rinv_0_lt_compat. nra.
    - apply Rmult_le_reg_r with (r + u * K); [nra|]. unfold Rdiv. rewrite Rmult_assoc, Rinv_l, Rmult_1_r by nra.
      assert (0 <= u * K) by nra.
      apply Rle_trans with (u * (x * x) * w); [|apply Rmult_le_compat_l; [nra|lra]].
      replace (u * u * (w * w) * (x * x)) with (u * (x * x) * w * (u * w)) by ring. rewrite <- (Rmult_1_r (u * (x * x) * w)) at 2.
      apply Rmult_le_compat_l; [|exact U]. apply Rmult_le_pos; [nra|lra]. }
  set (q := u * u * (w * w) * (x * x) / (r + u * K)) in *. clearbody q.
  eapply Rle_trans; [apply Rabs_triang|]. rewrite Rmult_plus_distr_r. apply Rplus_le_compat.
  - replace (- h * (1 - C)) with (- (h * (1 - C))) by ring. rewrite Rabs_Ropp, Rabs_mult, (Rabs_pos_eq (1 - C)) by lra. apply Rmult_le_compat_l; [apply Rabs_pos|lra].
  - rewrite Rabs_Ropp, Rabs_pos_eq; lra.
Qed.

(** ** Where the step is exact *)

Lemma surface_exact : forall w e sp cp u a0, geo w e sp cp u 0 a0 -> a0 = w.
Proof.
  intros w e sp cp u a0 [Hw He H1 Hsp Hcp Hu Hd Ha Ha2].
  assert (E : a0 * a0 = w * w).
  { rewrite Ha2. replace (w * ((u + 0) * cp) * (w * ((u + 0) * cp)) + (w * w * u + 0) * sp * ((w * w * u + 0) * sp))
      with (w * w * (u * u * (cp * cp + w * w * (sp * sp)))) by ring. rewrite Hd. ring. }
  nra.
Qed.

Lemma surface_Q : forall w e sp cp u a0, geo w e sp cp u 0 a0 -> hQ w sp cp u 0 a0 = 0.
Proof.
  intros w e sp cp u a0 G. rewrite (surface_exact _ _ _ _ _ _ G). destruct G as [Hw He H1 Hsp Hcp Hu Hd Ha Ha2].
  unfold hQ. 
  replace ((w * w * u + 0) * (w * w * u + 0) * (w * w * u + 0) * (sp * sp) + w * w * w * w * ((u + 0) * (u + 0) * (u + 0)) * (cp * cp) - w * u * (w * w * w))
    with (w * w * w * w * u * (u * u * (cp * cp + w * w * (sp * sp)) - 1)) by ring.
  rewrite Hd. ring.
Qed.

(** ** Bounds *)

Lemma mul_bd : forall x y a b c d, 0 <= a -> 0 <= c -> a <= x <= b -> c <= y <= d -> a * c <= x * y <= b * d.
Proof. intros x y a b c d Ha Hc Hx Hy. split; apply Rmult_le_compat; lra. Qed.
Lemma mul_bd0 : forall x y b d, 0 <= x <= b -> 0 <= y <= d -> 0 <= x * y <= b * d.
Proof. intros x y b d Hx Hy. split; [apply Rmult_le_pos; lra|apply Rmult_le_compat; lra]. Qed.
Lemma abs_le_both : forall x b, Rabs x <= b -> - b <= x <= b.
Proof. intros x b H. unfold Rabs in H. destruct (Rcase_abs x); lra. Qed.
Lemma abs_mul_bd : forall x y b d, Rabs x <= b -> Rabs y <= d -> Rabs (x * y) <= b * d.
Proof. intros. rewrite Rabs_mult. apply Rmult_le_compat; auto using Rabs_pos. Qed.

Lemma geo_u : forall w e sp cp u h a0, geo w e sp cp u h a0 -> e <= 0.012 -> 1 <= u <= 1.0061.
Proof.
  intros w e sp cp u h a0 [Hw He H1 Hsp Hcp Hu Hd Ha Ha2] He2.
  assert (D : 0.988 <= cp * cp + w * w * (sp * sp) <= 1).
  { replace (cp * cp) with (1 - sp * sp) by lra.
    assert (0 <= sp * sp <= 1) by nra. assert (E : 0 <= e) by nra.
    replace (w * w) with (1 - e) by lra. pose proof (mul_bd e (sp * sp) 0 0.012 0 1). nra. }
  set (d := cp * cp + w * w * (sp * sp)) in *. clearbody d. split.
  - apply Rnot_lt_le. intros L. assert (u * u < 1) by nra. nra.
  - apply Rnot_lt_le. intros L. assert (1.0061 * 1.0061 < u * u) by nra. nra.
Qed.

Lemma geo_w : forall w e sp cp u h a0, geo w e sp cp u h a0 -> e <= 0.012 -> 0.9939 <= w <= 1 /\ 0.988 <= w * w <= 1 /\ 0 <= e <= 0.012.
Proof.
  intros w e sp cp u h a0 [Hw He H1 Hsp Hcp Hu Hd Ha Ha2] He2.
  assert (0.988 <= w * w <= 1) by nra. split; [|split; [assumption|nra]]. split; [|lra].
  apply Rnot_lt_le. intros L. assert (w * w < 0.9939 * 0.9939) by nra. lra.
Qed.

Lemma geo_cs : forall w e sp cp u h a0, geo w e sp cp u h a0 ->
  0 <= sp * sp <= 1 /\ 0 <= cp * cp <= 1 /\ 0 <= cp * sp <= 1 / 2 /\ 0 <= sp * sp * (cp * cp) <= 1 / 4.
Proof.
  intros w e sp cp u h a0 [Hw He H1 Hsp Hcp Hu Hd Ha Ha2].
  pose proof (Rle_0_sqr sp). pose proof (Rle_0_sqr cp). pose proof (Rle_0_sqr (sp - cp)). unfold Rsqr in *.
  assert (X : 0 <= cp * sp <= 1 / 2) by (split; [apply Rmult_le_pos; lra|lra]).
  repeat split; try lra.
  - apply Rmult_le_pos; assumption.
  - replace (sp * sp * (cp * cp)) with (cp * sp * (cp * sp)) by ring. 
    pose proof (mul_bd (cp * sp) (cp * sp) 0 (1/2) 0 (1/2) ltac:(lra) ltac:(lra) X X). lra.
Qed.

(** a0 and B relative to A. *)
Lemma geo_ab : forall w e sp cp u h a0, geo w e sp cp u h a0 -> e <= 0.012 -> 0.9 <= u + h ->
  let A := u + h in let B := w * w * u + h in
  0.986 * A <= B <= A /\ 0.986 * A <= a0 <= A.
Proof.
  intros w e sp cp u h a0 G He HA A B.
  destruct (geo_u _ _ _ _ _ _ _ G He) as [U1 U2]. destruct (geo_w _ _ _ _ _ _ _ G He) as (W1 & W2 & E1).
  pose proof (g_e _ _ _ _ _ _ _ G) as Ee.
  assert (Beq : B = A - e * u) by (unfold A, B; rewrite Ee; ring).
  pose proof (mul_bd e u 0 0.012 0 1.0061 ltac:(lra) ltac:(lra) E1 ltac:(lra)) as EU.
  assert (HB : 0.986 * A <= B <= A) by (split; unfold A in *; lra).
  split; [exact HB|].
  destruct (geo_cs _ _ _ _ _ _ _ G) as (S2 & C2 & _). destruct G as [_ _ H1 Hsp Hcp _ _ Ha Ha2].
  fold A B in Ha2. 
  assert (A0 : 0 < A) by (unfold A; lra).
  assert (B2 : 0.986 * A * (0.986 * A) <= B * B <= A * A) by (apply mul_bd; lra).
  assert (WA : 0.986 * A * (0.986 * A) <= w * A * (w * A) <= A * A) by (apply mul_bd; nra).
  assert (X : 0.986 * A * (0.986 * A) <= a0 * a0 <= A * A).
  { rewrite Ha2. replace (w * (A * cp) * (w * (A * cp)) + B * sp * (B * sp)) with (w * A * (w * A) * (cp * cp) + B * B * (sp * sp)) by ring.
    split.
    - replace (0.986 * A * (0.986 * A)) with (0.986 * A * (0.986 * A) * (cp * cp) + 0.986 * A * (0.986 * A) * (sp * sp)) by (rewrite <- Rmult_plus_distr_l, (Rplus_comm (cp * cp)), H1; ring).
      apply Rplus_le_compat; apply Rmult_le_compat_r; lra.
    - replace (A * A) with (A * A * (cp * cp) + A * A * (sp * sp)) by (rewrite <- Rmult_plus_distr_l, (Rplus_comm (cp * cp)), H1; ring).
      apply Rplus_le_compat; apply Rmult_le_compat_r; lra. }
  clear -X A0 Ha. split; apply Rnot_lt_le; intros L; nra.
Qed.

(** |a0 - w| is of the order of the height. *)
Lemma geo_aw : forall w e sp cp u h a0, geo w e sp cp u h a0 -> e <= 0.012 -> 0.9 <= u + h ->
  Rabs (a0 - w) <= 1.02 * Rabs h.
Proof.
  intros w e sp cp u h a0 G He HA.
  destruct (geo_u _ _ _ _ _ _ _ G He) as [U1 U2]. destruct (geo_w _ _ _ _ _ _ _ G He) as (W1 & W2 & E1).
  destruct (geo_ab _ _ _ _ _ _ _ G He HA) as (_ & A1 & A2).
  destruct (geo_cs _ _ _ _ _ _ _ G) as (S2 & C2 & _). destruct G as [_ Ee H1 Hsp Hcp _ Hd Ha Ha2].
  assert (I : (a0 - w) * (a0 + w) = h * (2 * u * (w * w) + (1 - e * (cp * cp)) * h)).
  { replace ((a0 - w) * (a0 + w)) with (a0 * a0 - w * w) by ring. rewrite Ha2.
    replace (w * ((u + h) * cp) * (w * ((u + h) * cp)) + (w * w * u + h) * sp * ((w * w * u + h) * sp) - w * w)
      with (w * w * (u * u * (cp * cp + w * w * (sp * sp)) - 1) + h * (2 * u * (w * w) * (sp * sp + cp * cp) + (w * w * (cp * cp) + sp * sp) * h)) by ring.
    rewrite Hd, H1. replace (w * w * (cp * cp) + sp * sp) with (1 - e * (cp * cp)); [ring|]. rewrite Ee. lra. }
  set (k := 2 * u * (w * w) + (1 - e * (cp * cp)) * h) in *.
  assert (EC : 0 <= e * (cp * cp) <= 0.012 * 1) by (apply mul_bd0; lra).
  assert (K : 0 <= k <= u + h + 1.008).
  { unfold k. pose proof (mul_bd u (w * w) 1 1.0061 0.988 1 ltac:(lra) ltac:(lra) ltac:(lra) W2).
    pose proof (mul_bd u (w * w) u u 0.988 1 ltac:(lra) ltac:(lra) ltac:(lra) W2).
    set (q := e * (cp * cp)) in *. clearbody q. split; [clear -H U1 U2 HA EC; destruct (Rle_lt_dec 0 h); nra|].
    destruct (Rle_lt_dec 0 h) as [P|P].
    - assert (0 <= q * h) by (apply Rmult_le_pos; lra). lra.
    - assert (q * (- h) <= 0.012 * 0.1062) by (apply Rmult_le_compat; lra). lra. }
  assert (S : 0 < a0 + w) by lra.
  assert (KS : k <= 1.02 * (a0 + w)) by lra.
  apply Rmult_le_reg_r with (a0 + w); [exact S|].
  rewrite <- (Rabs_pos_eq (a0 + w)) at 1 by lra. rewrite <- Rabs_mult, I, Rabs_mult, (Rabs_pos_eq k) by lra.
  replace (1.02 * Rabs h * (a0 + w)) with (Rabs h * (1.02 * (a0 + w))) by ring. apply Rmult_le_compat_l; [apply Rabs_pos|lra].
Qed.

(** Q is of second order in the height. *)
Lemma geo_Q : forall w e sp cp u h a0, geo w e sp cp u h a0 -> e <= 0.012 -> 0.9 <= u + h ->
  Rabs (hQ w sp cp u h a0) <= 1.66 * (e * e) * (h * h) * (u + h).
Proof.
  intros w e sp cp u h a0 G He HA.
  destruct (geo_u _ _ _ _ _ _ _ G He) as [U1 U2]. destruct (geo_w _ _ _ _ _ _ _ G He) as (W1 & W2 & E1).
  destruct (geo_ab _ _ _ _ _ _ _ G He HA) as (_ & A1 & A2).
  destruct (geo_cs _ _ _ _ _ _ _ G) as (S2 & C2 & SC & SC2). destruct G as [Hw Ee H1 Hsp Hcp Hu Hd Ha Ha2].
  set (A := u + h) in *.
  set (V := 1 + u * h). set (k2 := sp * sp * (cp * cp)) in *.
  assert (U3 : 1 <= u * u <= 1.0061 * 1.0061) by (pose proof (mul_bd u u 1 1.0061 1 1.0061); lra).
  assert (Vb : 0.89 <= V <= 1.0061 * A).
  { assert (VE : V = 1 + u * A - u * u) by (unfold V, A; ring). split.
    - unfold V. destruct (Rle_lt_dec 0 h) as [P|P]; [nra|]. 
      assert (u * (- h) <= 1.0061 * 0.1061) by (apply Rmult_le_compat; unfold A in *; lra). lra.
    - rewrite VE. assert (u * A <= 1.0061 * A) by (apply Rmult_le_compat_r; lra). lra. }
  set (del := e * e * k2 * (u * u) / (w * w)).
  set (mu := k2 * (e * e) * (3 - 2 * e - (2 * e - e * e) * (sp * sp)) * (u * u * u) / (w * w * w * w)).
  set (r := a0 / w).
  assert (RA : a0 = w * r) by (unfold r; field; lra).
  assert (cp2 : cp * cp = 1 - sp * sp) by lra.
  assert (u2 : u * u * (1 - e * (sp * sp)) = 1) by (transitivity (u * u * (cp * cp + w * w * (sp * sp))); [rewrite Ee, cp2; ring|exact Hd]).
  assert (R2 : r * r = V * V + del * (h * h)).
  { apply Rmult_eq_reg_l with (w * w); [|nra]. replace (w * w * (r * r)) with (a0 * a0) by (rewrite RA; ring).
    replace (w * w * (V * V + del * (h * h))) with (w * w * (V * V) + e * e * k2 * (u * u) * (h * h)) by (unfold del; field; lra).
    rewrite Ha2. unfold V, k2, A. 
    transitivity (w * w * (u * u * (cp * cp + w * w * (sp * sp))) + 2 * u * h * (w * w) * (sp * sp + cp * cp) + h * h * (w * w * (cp * cp) + sp * sp)); [ring|].
    rewrite Hd, H1.
    assert (W : w * w = 1 - e) by lra. rewrite W, cp2.
    transitivity ((1 - e) * (1 + 2 * u * h) + h * h * ((1 - e) * (1 - sp * sp) + sp * sp)); [ring|].
    transitivity ((1 - e) * (1 + 2 * u * h) + h * h * ((1 - e) * (u * u) + e * e * (sp * sp) * (1 - sp * sp) * (u * u))); [|ring].
    f_equal. f_equal.
    replace ((1 - e) * (u * u) + e * e * (sp * sp) * (1 - sp * sp) * (u * u)) with ((u * u * (1 - e * (sp * sp))) * (1 - e * (1 - sp * sp))) by ring.
    rewrite u2. ring. }
  assert (del0 : 0 <= del) by (unfold del; apply Rmult_le_pos; [repeat apply Rmult_le_pos; nra|apply Rlt_le, Rinv_0_lt_compat; nra]).
  assert (r0 : 0 <= r) by (unfold r; apply Rmult_le_pos; [lra|apply Rlt_le, Rinv_0_lt_compat; lra]).
  assert (h2 : 0 <= h * h) by nra.
  assert (rV : V <= r) by (apply Rnot_lt_le; intros L; assert (0 <= del * (h * h)) by (apply Rmult_le_pos; assumption); nra).
  assert (rA : r <= 1.0062 * A).
  { unfold r. apply Rmult_le_reg_r with w; [lra|]. unfold Rdiv. rewrite Rmult_assoc, Rinv_l, Rmult_1_r by lra.
    assert (A * 0.9939 <= A * w) by (apply Rmult_le_compat_l; lra). lra. }
  (* the S part *)
  assert (QE : hQ w sp cp u h a0 = w * w * w * w * u * (3 * del * (h * h) + mu * (h * h * h) - (r * r * r - V * V * V))).
  { unfold hQ. rewrite RA.
    assert (SE : (w * w * u + h) * (w * w * u + h) * (w * w * u + h) * (sp * sp) + w * w * w * w * ((u + h) * (u + h) * (u + h)) * (cp * cp)
      = w * w * w * w * u * (V * V * V + 3 * del * (h * h) + mu * (h * h * h))); [|rewrite SE; ring].
    assert (D1 : w * w * w * w * u * (3 * del * (h * h)) = 3 * (w * w) * u * (e * e * k2 * (u * u)) * (h * h)) by (unfold del; field; lra).
    assert (D2 : w * w * w * w * u * (mu * (h * h * h)) = u * (k2 * (e * e) * (3 - 2 * e - (2 * e - e * e) * (sp * sp)) * (u * u * u)) * (h * h * h)) by (unfold mu; field; lra).
    transitivity (w * w * w * w * u * (V * V * V) + w * w * w * w * u * (3 * del * (h * h)) + w * w * w * w * u * (mu * (h * h * h))); [|ring].
    rewrite D1, D2. unfold V, k2.
    assert (W : w * w = 1 - e) by lra. rewrite cp2.
    replace (w * w * w * w) with ((w * w) * (w * w)) by ring. rewrite W.
    set (s := sp * sp) in *. clearbody s.
    (* coefficients of h^0, h^1, h^2, h^3 with u^2 (1 - e s) = 1 *)
    assert (K0 : u * u * u * (1 - e * s) = u) by (replace (u * u * u * (1 - e * s)) with (u * (u * u * (1 - e * s))) by ring; rewrite u2; ring).
    transitivity ((1 - e) * (1 - e) * (u * u * u * (1 - e * s)) + 3 * ((1 - e) * (1 - e)) * (u * u * (1 - 0 * s)) * h
       + 3 * ((1 - e) * u * s + (1 - e) * (1 - e) * u * (1 - s)) * (h * h) + (s + (1 - e) * (1 - e) * (1 - s)) * (h * h * h)); [ring|].
    rewrite K0.
    assert (H2' : (1 - e) * u * s + (1 - e) * (1 - e) * u * (1 - s) = (1 - e) * (1 - e) * (u * u * u) + (1 - e) * u * (e * e * (s * (1 - s)) * (u * u))).
    { transitivity ((1 - e) * u * (1 - e * (1 - s))); [ring|].
      replace (u * u * u) with (u * (u * u)) by ring.
      transitivity ((1 - e) * u * ((u * u * (1 - e * s)) * (1 - e * (1 - s)))); [rewrite u2; ring|ring]. }
    rewrite H2'.
    assert (H3' : s + (1 - e) * (1 - e) * (1 - s) = (1 - e) * (1 - e) * u * (u * u * u) + u * (s * (1 - s) * (e * e) * (3 - 2 * e - (2 * e - e * e) * s) * (u * u * u))).
    { transitivity ((u * u * (1 - e * s)) * (u * u * (1 - e * s)) * (s + (1 - e) * (1 - e) * (1 - s))); [rewrite u2; ring|ring]. }
    rewrite H3'. ring. }
  (* bounds *)
  assert (CUBE : 0 <= r * r * r - V * V * V <= del * (h * h) * (r + V)).
  { assert (V0 : 0 < V) by lra. assert (DD : del * (h * h) = (r - V) * (r + V)) by lra. rewrite DD.
    replace (r * r * r - V * V * V) with ((r - V) * (r * r + r * V + V * V)) by ring.
    split; [apply Rmult_le_pos; nra|]. rewrite Rmult_assoc. apply Rmult_le_compat_l; nra. }
  assert (e2 : 0 <= e * e) by nra.
  assert (w2i : / (w * w) <= 1.0122).
  { apply Rmult_le_reg_r with (w * w); [lra|]. rewrite Rinv_l by lra. lra. }
  assert (w2p : 0 < / (w * w)) by (apply Rinv_0_lt_compat; lra).
  assert (delb : del <= 0.2562 * (e * e)).
  { unfold del, Rdiv. 
    assert (k2 * (u * u) <= 1 / 4 * (1.0061 * 1.0061)) by (apply Rmult_le_compat; lra).
    assert (k2 * (u * u) * / (w * w) <= 1 / 4 * (1.0061 * 1.0061) * 1.0122) by (apply Rmult_le_compat; nra).
    replace (e * e * k2 * (u * u) * / (w * w)) with (k2 * (u * u) * / (w * w) * (e * e)) by ring.
    apply Rmult_le_compat_r; lra. }
  assert (mub : 0 <= mu <= 0.79 * (e * e)).
  { unfold mu, Rdiv.
    replace (/ (w * w * w * w)) with (/ (w * w) * / (w * w)) by (field; lra).
    set (g := 3 - 2 * e - (2 * e - e * e) * (sp * sp)).
    assert (gb : 0 <= g <= 3).
    { unfold g. assert (0 <= (2 * e - e * e) * (sp * sp) <= 0.024 * 1) by (apply mul_bd0; [clear -E1; nra|lra]). lra. }
    assert (B1 : 0 <= k2 * g <= 1 / 4 * 3) by (pose proof (mul_bd k2 g 0 (1/4) 0 3); lra).
    assert (B2 : 0 <= u * u * u <= 1.0061 * 1.0061 * 1.0061) by (pose proof (mul_bd (u * u) u 0 (1.0061*1.0061) 0 1.0061); lra).
    assert (B3 : 0 <= / (w * w) * / (w * w) <= 1.0122 * 1.0122) by (pose proof (mul_bd (/ (w * w)) (/ (w * w)) 0 1.0122 0 1.0122); lra).
    pose proof (mul_bd _ _ _ _ _ _ (Rle_refl 0) (Rle_refl 0) B1 B2) as B4.
    rewrite Rmult_0_l in B4. pose proof (mul_bd _ _ _ _ _ _ (Rle_refl 0) (Rle_refl 0) B4 B3) as B5.
    replace (k2 * (e * e) * g * (u * u * u) * (/ (w * w) * / (w * w))) with (k2 * g * (u * u * u) * (/ (w * w) * / (w * w)) * (e * e)) by ring.
    split; [apply Rmult_le_pos; lra|apply Rmult_le_compat_r; lra]. }
  assert (hA : Rabs h <= A) by (apply Rabs_le; unfold A in *; lra).
  rewrite QE, Rabs_mult.
  assert (W4 : 0 <= w * w * w * w * u <= 1.0061).
  { assert (0 <= w * w * w * w <= 1) by (replace (w * w * w * w) with ((w * w) * (w * w)) by ring; pose proof (mul_bd (w*w) (w*w) 0 1 0 1); lra).
    pose proof (mul_bd (w*w*w*w) u 0 1 0 1.0061). lra. }
  rewrite (Rabs_pos_eq (w * w * w * w * u)) by lra.
  assert (T : Rabs (3 * del * (h * h) + mu * (h * h * h) - (r * r * r - V * V * V)) <= (3.3334 * 0.2562 + 0.79) * (e * e * (h * h) * A)).
  { assert (P1 : 0 <= del * (h * h) <= 0.2562 * (e * e) * (h * h)) by (pose proof (mul_bd del (h*h) 0 (0.2562 * (e*e)) (h*h) (h*h)); lra).
    assert (P2 : Rabs (mu * (h * h * h)) <= 0.79 * (e * e) * (h * h) * A).
    { replace (mu * (h * h * h)) with (mu * (h * h) * h) by ring. apply abs_mul_bd; [|exact hA].
      rewrite Rabs_pos_eq by nra. apply Rmult_le_compat_r; lra. }
    assert (P3 : Rabs (3 * del * (h * h) - (r * r * r - V * V * V)) <= 3.3334 * (del * (h * h)) * A).
    { set (x := del * (h * h)) in *. replace (3 * del * (h * h)) with (3 * x) by (unfold x; ring). clearbody x.
      assert (x * (r + V) <= x * (3.3334 * A)) by (apply Rmult_le_compat_l; lra).
      assert (x * 3 <= x * (3.3334 * A)) by (apply Rmult_le_compat_l; lra).
      apply Rabs_le. lra. }
    replace (3 * del * (h * h) + mu * (h * h * h) - (r * r * r - V * V * V)) with ((3 * del * (h * h) - (r * r * r - V * V * V)) + mu * (h * h * h)) by ring.
    eapply Rle_trans; [apply Rabs_triang|]. 
    assert (3.3334 * (del * (h * h)) * A <= 3.3334 * (0.2562 * (e * e) * (h * h)) * A) by (apply Rmult_le_compat_r; lra).
    lra. }
  apply Rle_trans with (1.0061 * ((3.3334 * 0.2562 + 0.79) * (e * e * (h * h) * A))).
  - apply Rmult_le_compat; try lra. apply Rabs_pos.
  - assert (0 <= e * e * (h * h) * A) by (apply Rmult_le_pos; [apply Rmult_le_pos; assumption|lra]). lra.
Qed.

(** The program's numbers in units of powers of A; k = 1/A. *)
Definition nF (w e cp al k : R) : R := al * al * al - e * (w * w * w) * (cp * cp) * k.
Definition nD (w e sp al b k : R) : R := w * b * (al * al * al) + e * (b * b * b) * (sp * sp) * k.
Definition nB (w e al b k : R) : R := 1.5 * (e * e) * (b * b) * (w * w) * (al - w * k).

Lemma factored : forall w e sp cp A b al k, A * k = 1 ->
  let pn := A * cp in let s0 := A * b * sp in let a0 := A * al in
  hf0 w e pn s0 a0 = A ^ 4 * cp * nF w e cp al k /\
  hd0 w e pn s0 a0 = A ^ 4 * sp * nD w e sp al b k /\
  hb0 w e pn s0 a0 = A ^ 6 * (cp * cp * cp * (sp * sp)) * nB w e al b k /\
  hs1 w e pn s0 a0 = A ^ 8 * (cp * sp) * (nD w e sp al b k * nF w e cp al k - nB w e al b k * b * k * (sp * sp * (cp * cp))) /\
  hcc w e pn s0 a0 = A ^ 8 * (cp * cp) * (w * (nF w e cp al k * nF w e cp al k - nB w e al b k * w * k * (sp * sp * (cp * cp)))).
Proof.
  intros w e sp cp A b al k HK pn s0 a0.
  assert (E1 : hf0 w e pn s0 a0 = A ^ 4 * cp * nF w e cp al k).
  { unfold hf0, nF, pn, s0, a0.
    transitivity (A ^ 4 * cp * (al * al * al) - A ^ 3 * (1) * (e * (w * w * w) * (cp * cp * cp))); [ring|]. rewrite <- HK. ring. }
  assert (E2 : hd0 w e pn s0 a0 = A ^ 4 * sp * nD w e sp al b k).
  { unfold hd0, nD, pn, s0, a0.
    transitivity (A ^ 4 * (w * b * (al * al * al)) * sp + A ^ 3 * (1) * (e * (b * b * b) * (sp * sp * sp))); [ring|]. rewrite <- HK. ring. }
  assert (E3 : hb0 w e pn s0 a0 = A ^ 6 * (cp * cp * cp * (sp * sp)) * nB w e al b k).
  { unfold hb0, nB, pn, s0, a0.
    transitivity (A ^ 5 * (cp * cp * cp * (sp * sp)) * (1.5 * (e * e) * (b * b) * (w * w) * (A * al - w * 1))); [ring|]. rewrite <- HK. ring. }
  assert (E4 : A ^ 7 = A ^ 8 * k) by (replace (A ^ 8 * k) with (A ^ 7 * (A * k)) by ring; rewrite HK; ring).
  repeat split; try assumption.
  - unfold hs1. rewrite E1, E2, E3. unfold s0.
    transitivity (A ^ 8 * (cp * sp) * (nD w e sp al b k * nF w e cp al k) - A ^ 7 * (cp * cp * cp * (sp * sp) * nB w e al b k * (b * sp))); [ring|]. rewrite E4. ring.
  - unfold hcc. rewrite E1, E3. unfold pn.
    transitivity (A ^ 8 * (cp * cp) * (w * (nF w e cp al k * nF w e cp al k)) - A ^ 7 * (w * (cp * cp * cp * (sp * sp) * nB w e al b k * (w * cp)))); [ring|]. rewrite E4. ring.
Qed.

Lemma normalised_bounds : forall w e sp cp b al k,
  0.9939 <= w <= 1 -> 0 <= e <= 0.012 -> 0.986 <= b <= 1 -> 0.986 <= al <= 1 -> 0 <= k <= 1.1112 ->
  0 <= sp * sp <= 1 -> 0 <= cp * cp <= 1 -> 0 <= sp * sp * (cp * cp) <= 1 / 4 ->
  0.94 <= nF w e cp al k <= 1 /\ 0.93 <= nD w e sp al b k /\
  0.86 <= nD w e sp al b k * nF w e cp al k - nB w e al b k * b * k * (sp * sp * (cp * cp)) /\
  0.86 <= w * (nF w e cp al k * nF w e cp al k - nB w e al b k * w * k * (sp * sp * (cp * cp))).
Proof.
  intros w e sp cp b al k Hw He Hb Hal Hk Hs Hc Hsc.
  assert (A3 : 0.958 <= al * al * al <= 1).
  { pose proof (mul_bd al al 0.986 1 0.986 1 ltac:(lra) ltac:(lra) Hal Hal) as X.
    assert (0.986 * 0.986 * 0.986 <= al * al * al <= 1 * 1 * 1) by (apply mul_bd; lra). lra. }
  assert (W3 : 0 <= w * w * w <= 1).
  { assert (0 <= w * w <= 1 * 1) by (apply mul_bd0; lra). assert (0 <= w * w * w <= 1 * 1 * 1) by (apply mul_bd0; lra). lra. }
  assert (W2 : 0 <= w * w <= 1 * 1) by (apply mul_bd0; lra).
  assert (B2 : 0 <= b * b <= 1 * 1) by (apply mul_bd0; lra).
  assert (B3 : 0 <= b * b * b <= 1 * 1 * 1) by (apply mul_bd0; lra).
  assert (X1 : 0 <= e * (w * w * w) <= 0.012 * 1) by (apply mul_bd0; lra).
  assert (X2 : 0 <= e * (w * w * w) * (cp * cp) <= 0.012 * 1 * 1) by (apply mul_bd0; lra).
  assert (X3 : 0 <= e * (w * w * w) * (cp * cp) * k <= 0.012 * 1 * 1 * 1.1112) by (apply mul_bd0; lra).
  assert (F : 0.944 <= nF w e cp al k <= 1) by (unfold nF; lra).
  assert (Y1 : 0 <= e * (b * b * b) <= 0.012 * 1) by (apply mul_bd0; lra).
  assert (Y2 : 0 <= e * (b * b * b) * (sp * sp) <= 0.012 * 1 * 1) by (apply mul_bd0; lra).
  assert (Y3 : 0 <= e * (b * b * b) * (sp * sp) * k <= 0.012 * 1 * 1 * 1.1112) by (apply mul_bd0; lra).
  assert (WB : 0.9939 * 0.986 <= w * b <= 1 * 1) by (apply mul_bd; lra).
  assert (Y4 : 0.9939 * 0.986 * 0.958 <= w * b * (al * al * al) <= 1 * 1 * 1) by (apply mul_bd; lra).
  assert (D : 0.938 <= nD w e sp al b k) by (unfold nD; lra).
  assert (WK : 0 <= w * k <= 1 * 1.1112) by (apply mul_bd0; lra).
  assert (Z1 : Rabs (al - w * k) <= 1) by (apply Rabs_le; lra).
  assert (E2 : 0 <= e * e <= 0.012 * 0.012) by (apply mul_bd0; lra).
  assert (Z2 : 0 <= 1.5 * (e * e) * (b * b) <= 1.5 * (0.012 * 0.012) * (1 * 1)) by (apply mul_bd0; lra).
  assert (Z3 : 0 <= 1.5 * (e * e) * (b * b) * (w * w) <= 1.5 * (0.012 * 0.012) * (1 * 1) * (1 * 1)) by (apply mul_bd0; lra).
  assert (NB : Rabs (nB w e al b k) <= 0.00022 * 1).
  { unfold nB. apply abs_mul_bd; [rewrite Rabs_pos_eq by lra; lra|exact Z1]. }
  assert (P : forall y, 0 <= y <= 1 -> Rabs (nB w e al b k * y * k * (sp * sp * (cp * cp))) <= 0.00022 * 1 * 1 * 1.1112 * (1 / 4)).
  { intros y Hy. apply abs_mul_bd; [apply abs_mul_bd; [apply abs_mul_bd; [exact NB|]|]|]; rewrite Rabs_pos_eq; lra. }
  assert (Pb := P b ltac:(lra)). assert (Pw := P w ltac:(lra)). apply abs_le_both in Pb, Pw.
  assert (FD : 0.938 * 0.944 <= nD w e sp al b k * nF w e cp al k) by (apply Rmult_le_compat; lra).
  assert (FF : 0.944 * 0.944 <= nF w e cp al k * nF w e cp al k) by (apply Rmult_le_compat; lra).
  repeat split; try lra.
  apply Rle_trans with (0.9939 * 0.89); [lra|]. apply Rmult_le_compat; lra.
Qed.

(** Everything about the step for a terrestrial ellipsoid. *)
Theorem step_error : forall w e sp cp u h a0, geo w e sp cp u h a0 -> e <= 0.012 -> 0.9 <= u + h ->
  let pn := (u + h) * cp in let s0 := (w * w * u + h) * sp in
  let s1 := hs1 w e pn s0 a0 in let cc := hcc w e pn s0 a0 in
  0 <= s1 /\ 0 < cc /\ 0 < s1 * sp + cc * cp /\
  Rabs ((s1 * cp - cc * sp) / (s1 * sp + cc * cp)) <= 1.2 * (e * e * e) * (h * h) / ((u + h) * (u + h) * (u + h)).
Proof.
  intros w e sp cp u h a0 G He HA pn s0 s1 cc.
  destruct (geo_w _ _ _ _ _ _ _ G He) as (W1 & W2 & E1).
  destruct (geo_ab _ _ _ _ _ _ _ G He HA) as (Bb & Ab).
  destruct (geo_cs _ _ _ _ _ _ _ G) as (S2 & C2 & SC & SC2).
  pose proof (geo_Q _ _ _ _ _ _ _ G He HA) as HQ.
  pose proof (geo_aw _ _ _ _ _ _ _ G He HA) as HAW.
  set (A := u + h) in *. set (B := w * w * u + h) in *.
  assert (A0 : 0 < A) by lra.
  set (k := / A). assert (HK : A * k = 1) by (unfold k; field; lra).
  assert (Kb : 0 <= k <= 1.1112) by (split; [unfold k; apply Rlt_le, Rinv_0_lt_compat; lra|nra]).
  set (b := B * k). set (al := a0 * k).
  assert (Bq : B = A * b) by (unfold b; transitivity (B * (A * k)); [rewrite HK; ring|ring]).
  assert (Aq : a0 = A * al) by (unfold al; transitivity (a0 * (A * k)); [rewrite HK; ring|ring]).
  assert (bb : 0.986 <= b <= 1) by (clear -Bq Bb A0; nra).
  assert (alb : 0.986 <= al <= 1) by (clear -Aq Ab A0; nra).
  destruct (factored w e sp cp A b al k HK) as (EF & ED & EB & ES & EC).
  rewrite <- Bq, <- Aq in EF, ED, EB, ES, EC. fold pn s0 in EF, ED, EB, ES, EC. fold s1 in ES. fold cc in EC.
  destruct (normalised_bounds w e sp cp b al k W1 E1 bb alb Kb S2 C2 SC2) as (NF & ND & G1 & G2).
  set (g1 := nD w e sp al b k * nF w e cp al k - nB w e al b k * b * k * (sp * sp * (cp * cp))) in *.
  set (g2 := w * (nF w e cp al k * nF w e cp al k - nB w e al b k * w * k * (sp * sp * (cp * cp)))) in *.
  clearbody g1 g2.
  pose proof (cross_identity w sp cp u h a0) as X. cbv zeta in X. fold A B in X. fold pn s0 in X.
  pose proof (g_e _ _ _ _ _ _ _ G) as Ee. rewrite <- Ee in X. fold s1 cc in X.
  pose proof (g_1 _ _ _ _ _ _ _ G) as H1. pose proof (g_sp _ _ _ _ _ _ _ G) as Hsp. pose proof (g_cp _ _ _ _ _ _ _ G) as Hcp.
  assert (A8 : 0 < A ^ 8) by (apply pow_lt; exact A0).
  assert (M : 0.86 * (A ^ 8 * cp) <= s1 * sp + cc * cp).
  { rewrite ES, EC.
    replace (A ^ 8 * (cp * sp) * g1 * sp + A ^ 8 * (cp * cp) * g2 * cp) with (A ^ 8 * cp * (sp * sp * g1 + cp * cp * g2)) by ring.
    rewrite (Rmult_comm 0.86). apply Rmult_le_compat_l; [apply Rmult_le_pos; lra|].
    replace 0.86 with (sp * sp * 0.86 + cp * cp * 0.86) by (rewrite <- Rmult_plus_distr_r, H1; ring).
    apply Rplus_le_compat; apply Rmult_le_compat_l; lra. }
  assert (M0 : 0 < A ^ 8 * cp) by (apply Rmult_lt_0_compat; lra).
  split; [rewrite ES; apply Rmult_le_pos; [apply Rmult_le_pos|]; lra|].
  split; [rewrite EC; apply Rmult_lt_0_compat; [apply Rmult_lt_0_compat; [lra|apply Rmult_lt_0_compat; lra]|lra]|].
  split; [lra|].
  assert (N : Rabs (s1 * cp - cc * sp) <= A ^ 8 * cp * (1.03 * (e * e * e) * (h * h) * (k * k * k))).
  { rewrite X, EF, EB.
    replace (cp * sp * e * (A ^ 4 * cp * nF w e cp al k * hQ w sp cp u h a0 - A ^ 6 * (cp * cp * cp * (sp * sp)) * nB w e al b k * h))
      with (cp * (cp * sp * e * (A ^ 4 * (nF w e cp al k * hQ w sp cp u h a0) - A ^ 6 * (sp * sp * (cp * cp) * (nB w e al b k * h))))) by ring.
    assert (Q1 : Rabs (nF w e cp al k * hQ w sp cp u h a0) <= 1 * (1.66 * (e * e) * (h * h) * A)).
    { apply abs_mul_bd; [rewrite Rabs_pos_eq; lra|exact HQ]. }
    assert (HB : Rabs (nB w e al b k * h) <= 1.53 * (e * e) * (h * h) * k).
    { unfold nB. replace (al - w * k) with ((a0 - w) * k) by (unfold al; ring).
      replace (1.5 * (e * e) * (b * b) * (w * w) * ((a0 - w) * k) * h) with ((b * b) * (w * w) * (a0 - w) * h * (1.5 * (e * e) * k)) by ring.
      assert (E0 : 0 <= 1.5 * (e * e) * k) by (apply Rmult_le_pos; [nra|lra]).
      rewrite Rabs_mult, (Rabs_pos_eq (1.5 * (e * e) * k)) by exact E0.
      replace (1.53 * (e * e) * (h * h) * k) with (1 * 1 * (1.02 * Rabs h) * Rabs h * (1.5 * (e * e) * k)).
      - apply Rmult_le_compat_r; [exact E0|]. apply abs_mul_bd; [apply abs_mul_bd; [apply abs_mul_bd|exact HAW]|apply Rle_refl].
        + rewrite Rabs_pos_eq by nra. clear -bb. nra.
        + rewrite Rabs_pos_eq; lra.
      - replace (1 * 1 * (1.02 * Rabs h) * Rabs h) with (1.02 * (Rabs h * Rabs h)) by ring. rewrite <- Rabs_mult, (Rabs_pos_eq (h * h)) by nra. lra. }
    assert (SB : Rabs (sp * sp * (cp * cp) * (nB w e al b k * h)) <= 1 / 4 * (1.53 * (e * e) * (h * h) * k)).
    { apply abs_mul_bd; [rewrite Rabs_pos_eq; lra|exact HB]. }
    set (Y := e * e * (h * h)) in *. assert (Y0 : 0 <= Y) by (unfold Y; apply Rmult_le_pos; [clear|clear]; nra).
    assert (TOT : Rabs (A ^ 4 * (nF w e cp al k * hQ w sp cp u h a0) - A ^ 6 * (sp * sp * (cp * cp) * (nB w e al b k * h))) <= 2.06 * (Y * A ^ 5)).
    { eapply Rle_trans; [apply Rabs_triang|]. rewrite Rabs_Ropp, !(Rabs_mult (A ^ _)).
      rewrite (Rabs_pos_eq (A ^ 4)), (Rabs_pos_eq (A ^ 6)) by (apply pow_le; lra).
      apply Rle_trans with (A ^ 4 * (1 * (1.66 * (e * e) * (h * h) * A)) + A ^ 6 * (1 / 4 * (1.53 * (e * e) * (h * h) * k))).
      - apply Rplus_le_compat; apply Rmult_le_compat_l; try assumption; apply pow_le; lra.
      - replace (A ^ 6 * (1 / 4 * (1.53 * (e * e) * (h * h) * k))) with (A ^ 5 * (A * k) * (1 / 4 * 1.53 * Y)) by (unfold Y; ring). rewrite HK.
        replace (A ^ 4 * (1 * (1.66 * (e * e) * (h * h) * A))) with (1.66 * (Y * A ^ 5)) by (unfold Y; ring).
        assert (0 <= Y * A ^ 5) by (apply Rmult_le_pos; [exact Y0|apply pow_le; lra]). lra. }
    rewrite Rabs_mult, (Rabs_pos_eq cp) by lra.
    replace (A ^ 8 * cp * (1.03 * (e * e * e) * (h * h) * (k * k * k))) with (cp * (1 / 2 * e * (2.06 * (Y * A ^ 5)) * ((A * k) * (A * k) * (A * k)))) by (unfold Y; lra).
    rewrite HK. apply Rmult_le_compat_l; [lra|]. rewrite !Rmult_1_r.
    apply abs_mul_bd; [|exact TOT]. apply abs_mul_bd; rewrite Rabs_pos_eq; lra. }
  unfold Rdiv. rewrite Rabs_mult, Rabs_inv, (Rabs_pos_eq (s1 * sp + cc * cp)) by lra.
  apply Rmult_le_reg_r with (s1 * sp + cc * cp); [lra|]. rewrite Rmult_assoc, Rinv_l, Rmult_1_r by lra.
  replace (/ (A * A * A)) with (k * k * k) by (unfold k; field; lra).
  eapply Rle_trans; [exact N|].
  assert (Z : 0 <= e * e * e * (h * h) * (k * k * k)).
  { apply Rmult_le_pos; [apply Rmult_le_pos; [apply Rmult_le_pos; nra|nra]|apply Rmult_le_pos; nra]. }
  replace (1.2 * (e * e * e) * (h * h) * (k * k * k)) with (1.2 * (e * e * e * (h * h) * (k * k * k))) by ring.
  replace (1.03 * (e * e * e) * (h * h) * (k * k * k)) with (1.03 * (e * e * e * (h * h) * (k * k * k))) by ring.
  set (z := e * e * e * (h * h) * (k * k * k)) in *.
  apply Rle_trans with (1.2 * z * (0.86 * (A ^ 8 * cp))).
  - assert (0 <= z * (A ^ 8 * cp)) by (apply Rmult_le_pos; lra). lra.
  - apply Rmult_le_compat_l; lra.
Qed.
