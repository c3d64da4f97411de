(** * A certified evaluator of cosines and sines in fixed point

    Numbers are integers over 2^p.  Whole quarter turns are taken off, the angle is divided by
    16, its cosine and sine are taken from the power series, and the angle is doubled four times.  The
    number of bits p is chosen by the caller, so that small terms cost less. *)

From Coq Require Import ZArith Reals Lra Lia List.
From Flocq Require Import Core.
From Verif Require Import Spec_Series.
From Verif Require L_Apx L_Pi.
Import ListNotations.
Open Scope R_scope.

Lemma zdiv_R : forall a b, (0 < b)%Z -> IZR a / IZR b - 1 <= IZR (a / b) <= IZR a / IZR b.
Proof.
  intros a b Hb. assert (B : 0 < IZR b) by (apply IZR_lt; exact Hb). assert (E := Z_div_mod_eq_full a b). assert (M := Z.mod_pos_bound a b Hb).
  assert (E' : IZR a = IZR b * IZR (a / b) + IZR (a mod b)) by (rewrite <- mult_IZR, <- plus_IZR; apply f_equal; exact E).
  assert (M1 : 0 <= IZR (a mod b)) by (apply IZR_le; lia). assert (M2 : IZR (a mod b) <= IZR b) by (apply IZR_le; lia).
  rewrite E'. set (q := IZR (a / b)) in *. set (r := IZR (a mod b)) in *. set (c := IZR b) in *.
  replace ((c * q + r) / c) with (q + r / c) by (field; lra).
  assert (0 <= r / c <= 1).
  { split; [apply Rmult_le_pos; [lra|left; apply Rinv_0_lt_compat; lra]|]. apply Rmult_le_reg_r with c; [lra|]. unfold Rdiv. rewrite Rmult_assoc, Rinv_l; lra. }
  lra.
Qed.

Section Prec.
Variable p : Z.
Definition SC : Z := (2 ^ p)%Z.
Definition ep : R := / IZR SC.
Definition fx (u : Z) : R := IZR u * ep.
Definition shr (x : Z) : Z := Z.shiftr x p.
Hypothesis Hp : (40 <= p <= 90)%Z.

Lemma SC_posZ : (0 < SC)%Z. Proof. apply Z.pow_pos_nonneg; lia. Qed.
Lemma SC_pos : 0 < IZR SC. Proof. apply IZR_lt, SC_posZ. Qed.
Lemma ep_pos : 0 < ep. Proof. apply Rinv_0_lt_compat, SC_pos. Qed.
Lemma SC_ep : IZR SC * ep = 1. Proof. unfold ep. apply Rinv_r. generalize SC_pos. lra. Qed.
Lemma ep_small : ep <= / 10 ^ 12.
Proof.
  unfold ep. apply Rinv_le_contravar; [apply pow_lt; lra|]. apply Rle_trans with (IZR (2 ^ 40)); [change (IZR (2 ^ 40)) with 1099511627776; lra|].
  apply IZR_le. unfold SC. apply Z.pow_le_mono_r; lia.
Qed.
Lemma shr_div : forall x, shr x = (x / SC)%Z. Proof. intros x. apply Z.shiftr_div_pow2. lia. Qed.
Definition mulS (u v : Z) : Z := shr (u * v).
Lemma mulS_ok : forall u v, fx u * fx v - ep <= fx (mulS u v) <= fx u * fx v.
Proof.
  intros u v. unfold mulS, fx. rewrite shr_div. destruct (zdiv_R (u * v) SC SC_posZ) as [H1 H2]. rewrite mult_IZR in H1, H2. unfold Rdiv in H1, H2. fold ep in H1, H2.
  assert (P := ep_pos). set (q := IZR (u * v / SC)) in *. split.
  - replace (IZR u * ep * (IZR v * ep) - ep) with ((IZR u * IZR v * ep - 1) * ep) by ring. apply Rmult_le_compat_r; lra.
  - replace (IZR u * ep * (IZR v * ep)) with ((IZR u * IZR v * ep) * ep) by ring. apply Rmult_le_compat_r; lra.
Qed.

Lemma fx_div : forall u k, (0 < k)%Z -> fx u / IZR k - ep <= fx (u / k) <= fx u / IZR k.
Proof.
  intros u k Hk. unfold fx. destruct (zdiv_R u k Hk) as [H1 H2]. assert (P := ep_pos). assert (K : 0 < IZR k) by (apply IZR_lt; exact Hk).
  set (q := IZR (u / k)) in *. replace (IZR u * ep / IZR k) with (IZR u / IZR k * ep) by (field; lra). split; [|apply Rmult_le_compat_r; lra].
  replace (IZR u / IZR k * ep - ep) with ((IZR u / IZR k - 1) * ep) by ring. apply Rmult_le_compat_r; lra.
Qed.

Lemma fx_sub : forall u v, fx (u - v) = fx u - fx v. Proof. intros. unfold fx. rewrite minus_IZR. ring. Qed.
Lemma fx_SC : fx SC = 1. Proof. apply SC_ep. Qed.

(** One step of Horner's rule: 1 - x2 h / k. *)
Definition horner (x2 h k : Z) : Z := (SC - mulS x2 h / k)%Z.
Lemma horner_ok : forall x2 h k y H, (2 <= k)%Z -> 0 <= y <= / 100 -> 0 <= H <= 1 -> Rabs (fx x2 - y) <= ep -> Rabs (fx h - H) <= 3 * ep ->
  Rabs (fx (horner x2 h k) - (1 - y * H / IZR k)) <= 3 * ep /\ 0 <= 1 - y * H / IZR k <= 1.
Proof.
  intros x2 h k y H Hk Hy HH Ex Eh. assert (K : 2 <= IZR k) by (apply IZR_le; exact Hk). assert (P := ep_pos). assert (S := ep_small).
  assert (S' : ep <= / 1200) by (apply Rle_trans with (1 := S); apply Rinv_le_contravar; lra).
  apply Rabs_le_inv in Ex. apply Rabs_le_inv in Eh. destruct (mulS_ok x2 h) as [M1 M2]. destruct (fx_div (mulS x2 h) k ltac:(lia)) as [D1 D2].
  assert (YH : 0 <= y * H <= / 100) by (split; [apply Rmult_le_pos; lra|]; apply Rle_trans with (y * 1); [apply Rmult_le_compat_l; lra|lra]).
  assert (A : Rabs (fx x2 * fx h - y * H) <= 1.1 * ep).
  { replace (fx x2 * fx h - y * H) with ((fx x2 - y) * H + (fx x2 - y) * (fx h - H) + y * (fx h - H)) by ring.
    assert (A1 : Rabs ((fx x2 - y) * H) <= ep) by (rewrite Rabs_mult, (Rabs_pos_eq H) by lra; apply Rle_trans with (ep * 1); [apply Rmult_le_compat; [apply Rabs_pos|lra|apply Rabs_le; lra|lra]|lra]).
    assert (A2 : Rabs ((fx x2 - y) * (fx h - H)) <= ep * (3 * / 1000)) by (rewrite Rabs_mult; apply Rmult_le_compat; try apply Rabs_pos; apply Rabs_le; lra).
    assert (A3 : Rabs (y * (fx h - H)) <= / 100 * (3 * ep)) by (rewrite Rabs_mult; apply Rmult_le_compat; try apply Rabs_pos; [rewrite Rabs_pos_eq; lra|apply Rabs_le; lra]).
    eapply Rle_trans; [apply Rabs_triang|]. eapply Rle_trans; [apply Rplus_le_compat_r, Rabs_triang|]. lra. }
  apply Rabs_le_inv in A. assert (IK : 0 < / IZR k <= / 2) by (split; [apply Rinv_0_lt_compat; lra|apply Rinv_le_contravar; lra]).
  unfold Rdiv in *. set (ik := / IZR k) in *. set (m := fx (mulS x2 h)) in *. set (yh := y * H) in *. 
  assert (B : Rabs (m * ik - yh * ik) <= 1.1 * ep).
  { replace (m * ik - yh * ik) with ((m - yh) * ik) by ring. rewrite Rabs_mult, (Rabs_pos_eq ik) by lra.
    apply Rle_trans with (2.2 * ep * / 2); [|lra]. apply Rmult_le_compat; [apply Rabs_pos|lra|apply Rabs_le; lra|lra]. }
  apply Rabs_le_inv in B. assert (C : 0 <= yh * ik <= 1) by (split; [apply Rmult_le_pos; lra|]; apply Rle_trans with (/ 100 * / 2); [apply Rmult_le_compat; lra|lra]).
  unfold horner. rewrite fx_sub, fx_SC. split; [apply Rabs_le|]; lra.
Qed.

Definition cos0 (x x2 : Z) : Z := horner x2 (horner x2 (horner x2 (horner x2 (horner x2 (horner x2 SC 132) 90) 56) 30) 12) 2.
Definition sin0 (x x2 : Z) : Z := mulS x (horner x2 (horner x2 (horner x2 (horner x2 (horner x2 (horner x2 SC 156) 110) 72) 42) 20) 6).

Definition poly_c (y : R) : R := 1 - y * (1 - y * (1 - y * (1 - y * (1 - y * (1 - y * 1 / 132) / 90) / 56) / 30) / 12) / 2.
Definition poly_s (y : R) : R := 1 - y * (1 - y * (1 - y * (1 - y * (1 - y * (1 - y * 1 / 156) / 110) / 72) / 42) / 20) / 6.

Lemma sq_fix : forall x, 0 <= fx x <= 0.0982 -> 0 <= fx x * fx x <= / 100 /\ Rabs (fx (mulS x x) - fx x * fx x) <= ep.
Proof.
  intros x Hx. split.
  - split; [apply Rmult_le_pos; lra|]. apply Rle_trans with (0.0982 * 0.0982); [apply Rmult_le_compat; lra|lra].
  - destruct (mulS_ok x x). assert (P := ep_pos). apply Rabs_le. lra.
Qed.

Lemma cos0_ok : forall x, 0 <= fx x <= 0.0982 -> Rabs (fx (cos0 x (mulS x x)) - poly_c (fx x * fx x)) <= 3 * ep.
Proof.
  intros x Hx. destruct (sq_fix x Hx) as [Hy Ey]. set (y := fx x * fx x) in *. set (x2 := mulS x x) in *. unfold cos0, poly_c.
  assert (P := ep_pos).
  assert (I : Rabs (fx SC - 1) <= 3 * ep) by (rewrite fx_SC; apply Rabs_le; lra).
  destruct (horner_ok x2 SC 132 y 1 ltac:(lia) Hy ltac:(lra) Ey I) as [I0 B0].
  destruct (horner_ok x2 _ 90 y _ ltac:(lia) Hy B0 Ey I0) as [I1 B1].
  destruct (horner_ok x2 _ 56 y _ ltac:(lia) Hy B1 Ey I1) as [I2 B2].
  destruct (horner_ok x2 _ 30 y _ ltac:(lia) Hy B2 Ey I2) as [I3 B3].
  destruct (horner_ok x2 _ 12 y _ ltac:(lia) Hy B3 Ey I3) as [I4 B4].
  destruct (horner_ok x2 _ 2 y _ ltac:(lia) Hy B4 Ey I4) as [I5 B5]. exact I5.
Qed.

Lemma sin0_ok : forall x, 0 <= fx x <= 0.0982 -> Rabs (fx (sin0 x (mulS x x)) - fx x * poly_s (fx x * fx x)) <= 2 * ep.
Proof.
  intros x Hx. destruct (sq_fix x Hx) as [Hy Ey]. set (y := fx x * fx x) in *. set (x2 := mulS x x) in *. unfold sin0, poly_s.
  assert (P := ep_pos).
  assert (I : Rabs (fx SC - 1) <= 3 * ep) by (rewrite fx_SC; apply Rabs_le; lra).
  destruct (horner_ok x2 SC 156 y 1 ltac:(lia) Hy ltac:(lra) Ey I) as [I0 B0].
  destruct (horner_ok x2 _ 110 y _ ltac:(lia) Hy B0 Ey I0) as [I1 B1].
  destruct (horner_ok x2 _ 72 y _ ltac:(lia) Hy B1 Ey I1) as [I2 B2].
  destruct (horner_ok x2 _ 42 y _ ltac:(lia) Hy B2 Ey I2) as [I3 B3].
  destruct (horner_ok x2 _ 20 y _ ltac:(lia) Hy B3 Ey I3) as [I4 B4].
  destruct (horner_ok x2 _ 6 y _ ltac:(lia) Hy B4 Ey I4) as [I5 B5].
  set (h := horner x2 (horner x2 (horner x2 (horner x2 (horner x2 (horner x2 SC 156) 110) 72) 42) 20) 6) in *.
  match type of I5 with Rabs (_ - ?p) <= _ => set (H := p) in * end.
  destruct (mulS_ok x h) as [M1 M2]. apply Rabs_le_inv in I5. set (z := fx x) in *. set (w := fx h) in *. clearbody H z w.
  assert (Rabs (z * (w - H)) <= 0.0982 * (3 * ep)) by (rewrite Rabs_mult; apply Rmult_le_compat; try apply Rabs_pos; [rewrite Rabs_pos_eq; lra|apply Rabs_le; lra]).
  apply Rabs_le_inv in H0. apply Rabs_le. lra.
Qed.

(** The power series. *)
Lemma fct_S : forall n v, INR (fact n) = IZR v -> INR (fact (S n)) = IZR (Z.of_nat (S n) * v).
Proof. intros n v H. rewrite fact_simpl, mult_INR, H, mult_IZR, <- INR_IZR_INZ. reflexivity. Qed.
Lemma facts : INR (fact 0) = 1 /\ INR (fact 1) = 1 /\ INR (fact 2) = 2 /\ INR (fact 3) = 6 /\ INR (fact 4) = 24 /\ INR (fact 5) = 120 /\ INR (fact 6) = 720 /\
  INR (fact 7) = 5040 /\ INR (fact 8) = 40320 /\ INR (fact 9) = 362880 /\ INR (fact 10) = 3628800 /\ INR (fact 11) = 39916800 /\ INR (fact 12) = 479001600 /\ INR (fact 13) = 6227020800 /\ INR (fact 14) = 87178291200 /\ INR (fact 15) = 1307674368000.
Proof.
  assert (F0 : INR (fact 0) = 1) by reflexivity.
  assert (F1 := fct_S _ _ F0). assert (F2 := fct_S _ _ F1). assert (F3 := fct_S _ _ F2). assert (F4 := fct_S _ _ F3). assert (F5 := fct_S _ _ F4). assert (F6 := fct_S _ _ F5).
  assert (F7 := fct_S _ _ F6). assert (F8 := fct_S _ _ F7). assert (F9 := fct_S _ _ F8). assert (F10 := fct_S _ _ F9). assert (F11 := fct_S _ _ F10). assert (F12 := fct_S _ _ F11). assert (F13 := fct_S _ _ F12). assert (F14 := fct_S _ _ F13). assert (F15 := fct_S _ _ F14).
  repeat (split; [first [exact F0|exact F1|exact F2|exact F3|exact F4|exact F5|exact F6|exact F7|exact F8|exact F9|exact F10|exact F11|exact F12|exact F13|exact F14]|]). exact F15.
Qed.

Lemma poly_c_ok : forall z, 0 <= z <= 0.0982 -> Rabs (cos z - poly_c (z * z)) <= z ^ 14 / 87178291200.
Proof.
  intros z Hz. destruct (pre_cos_bound z 3 ltac:(lra) ltac:(lra)) as [H1 _]. destruct (pre_cos_bound z 2 ltac:(lra) ltac:(lra)) as [_ H2]. unfold cos_approx, cos_term in *.
  cbn [sum_f_R0 Nat.mul Nat.add] in H1, H2.
  destruct facts as (F0 & F1 & F2 & F3 & F4 & F5 & F6 & F7 & F8 & F9 & F10 & F11 & F12 & F13 & F14 & F15).
  rewrite F0, F2, F4, F6, F8, F10, F12 in H1, H2. rewrite F14 in H1.
  assert (E1 : poly_c (z * z) = 1 - z ^ 2 / 2 + z ^ 4 / 24 - z ^ 6 / 720 + z ^ 8 / 40320 - z ^ 10 / 3628800 + z ^ 12 / 479001600) by (unfold poly_c; field).
  rewrite E1. assert (Z14 : 0 <= z ^ 14) by (apply pow_le; lra).
  replace ((-1) ^ 0) with 1 in * by ring. replace ((-1) ^ 1) with (-1) in * by ring. replace ((-1) ^ 2) with 1 in * by ring. replace ((-1) ^ 3) with (-1) in * by ring.
  replace ((-1) ^ 4) with 1 in * by ring. replace ((-1) ^ 5) with (-1) in * by ring. replace ((-1) ^ 6) with 1 in * by ring. replace ((-1) ^ 7) with (-1) in * by ring.
  replace (z ^ 0) with 1 in * by ring.
  set (c := cos z) in *. set (z2 := z ^ 2) in *. set (z4 := z ^ 4) in *. set (z6 := z ^ 6) in *. set (z8 := z ^ 8) in *. set (z10 := z ^ 10) in *. set (z12 := z ^ 12) in *. set (z14 := z ^ 14) in *.
  clearbody c z2 z4 z6 z8 z10 z12 z14. apply Rabs_le. lra.
Qed.

Lemma poly_s_ok : forall z, 0 <= z <= 0.0982 -> Rabs (sin z - z * poly_s (z * z)) <= z ^ 15 / 1307674368000.
Proof.
  intros z Hz. destruct (pre_sin_bound z 3 ltac:(lra) ltac:(lra)) as [H1 _]. destruct (pre_sin_bound z 2 ltac:(lra) ltac:(lra)) as [_ H2]. unfold sin_approx, sin_term in *.
  cbn [sum_f_R0 Nat.mul Nat.add] in H1, H2.
  destruct facts as (F0 & F1 & F2 & F3 & F4 & F5 & F6 & F7 & F8 & F9 & F10 & F11 & F12 & F13 & F14 & F15).
  rewrite F1, F3, F5, F7, F9, F11, F13 in H1, H2. rewrite F15 in H1.
  assert (E1 : z * poly_s (z * z) = z - z ^ 3 / 6 + z ^ 5 / 120 - z ^ 7 / 5040 + z ^ 9 / 362880 - z ^ 11 / 39916800 + z ^ 13 / 6227020800) by (unfold poly_s; field).
  rewrite E1. assert (Z15 : 0 <= z ^ 15) by (apply pow_le; lra).
  replace ((-1) ^ 0) with 1 in * by ring. replace ((-1) ^ 1) with (-1) in * by ring. replace ((-1) ^ 2) with 1 in * by ring. replace ((-1) ^ 3) with (-1) in * by ring.
  replace ((-1) ^ 4) with 1 in * by ring. replace ((-1) ^ 5) with (-1) in * by ring. replace ((-1) ^ 6) with 1 in * by ring. replace ((-1) ^ 7) with (-1) in * by ring.
  replace (z ^ 1) with z in * by ring.
  set (c := sin z) in *. set (z3 := z ^ 3) in *. set (z5 := z ^ 5) in *. set (z7 := z ^ 7) in *. set (z9 := z ^ 9) in *. set (z11 := z ^ 11) in *. set (z13 := z ^ 13) in *. set (z15 := z ^ 15) in *.
  clearbody c z3 z5 z7 z9 z11 z13 z15. apply Rabs_le. lra.
Qed.

(** ** Doubling *)
Definition dbl (p : Z * Z) : Z * Z := let '(c, s) := p in (shr ((c - s) * (c + s)), shr (2 * c * s)).

Lemma dbl_ok : forall c s th e, 0 <= e <= / 10 -> Rabs (fx c - cos th) <= e -> Rabs (fx s - sin th) <= e ->
  Rabs (fx (fst (dbl (c, s))) - cos (2 * th)) <= 5 * e + ep /\ Rabs (fx (snd (dbl (c, s))) - sin (2 * th)) <= 5 * e + ep.
Proof.
  intros c s th e He Hc Hs. cbn [fst snd dbl]. replace ((c - s) * (c + s))%Z with (c * c - s * s)%Z by ring. rewrite !shr_div. assert (P := ep_pos).
  assert (C1 := COS_bound th). assert (S1 := SIN_bound th). apply Rabs_le_inv in Hc. apply Rabs_le_inv in Hs.
  rewrite cos_2a, sin_2a.
  assert (D : forall u, fx u * fx SC = fx u) by (intros; rewrite fx_SC; ring).
  assert (DC : (fx c * fx c - fx s * fx s) - ep <= fx ((c * c - s * s) / SC) <= fx c * fx c - fx s * fx s).
  { destruct (zdiv_R (c * c - s * s) SC SC_posZ) as [H1 H2]. rewrite minus_IZR, !mult_IZR in H1, H2. unfold Rdiv in H1, H2. fold ep in H1, H2. unfold fx.
    set (q := IZR ((c * c - s * s) / SC)) in *. split.
    - replace (IZR c * ep * (IZR c * ep) - IZR s * ep * (IZR s * ep) - ep) with (((IZR c * IZR c - IZR s * IZR s) * ep - 1) * ep) by ring. apply Rmult_le_compat_r; lra.
    - replace (IZR c * ep * (IZR c * ep) - IZR s * ep * (IZR s * ep)) with (((IZR c * IZR c - IZR s * IZR s) * ep) * ep) by ring. apply Rmult_le_compat_r; lra. }
  assert (DS : 2 * fx c * fx s - ep <= fx ((2 * c * s) / SC) <= 2 * fx c * fx s).
  { destruct (zdiv_R (2 * c * s) SC SC_posZ) as [H1 H2]. rewrite !mult_IZR in H1, H2. unfold Rdiv in H1, H2. fold ep in H1, H2. unfold fx.
    set (q := IZR (2 * c * s / SC)) in *. split.
    - replace (2 * (IZR c * ep) * (IZR s * ep) - ep) with ((2 * IZR c * IZR s * ep - 1) * ep) by ring. apply Rmult_le_compat_r; lra.
    - replace (2 * (IZR c * ep) * (IZR s * ep)) with ((2 * IZR c * IZR s * ep) * ep) by ring. apply Rmult_le_compat_r; lra. }
  set (x := fx c) in *. set (y := fx s) in *. set (u := cos th) in *. set (v := sin th) in *. clearbody x y u v.
  assert (PR : forall a b g q, Rabs (a - g) <= e -> Rabs (b - q) <= e -> -1 <= g <= 1 -> -1 <= q <= 1 -> Rabs (a * b - g * q) <= 2.1 * e).
  { intros a b g q Ha Hb Hg Hq. replace (a * b - g * q) with ((a - g) * (b - q) + (a - g) * q + g * (b - q)) by ring.
    eapply Rle_trans; [apply Rabs_triang|]. eapply Rle_trans; [apply Rplus_le_compat_r, Rabs_triang|]. rewrite !Rabs_mult.
    assert (A1 : Rabs (a - g) * Rabs (b - q) <= e * (/ 10)) by (apply Rmult_le_compat; try apply Rabs_pos; lra).
    assert (A2 : Rabs (a - g) * Rabs q <= e * 1) by (apply Rmult_le_compat; try apply Rabs_pos; [lra|apply Rabs_le; lra]).
    assert (A3 : Rabs g * Rabs (b - q) <= 1 * e) by (apply Rmult_le_compat; try apply Rabs_pos; [apply Rabs_le; lra|lra]). lra. }
  assert (Ax : Rabs (x - u) <= e) by (apply Rabs_le; lra). assert (Ay : Rabs (y - v) <= e) by (apply Rabs_le; lra).
  assert (P1 := PR x x u u Ax Ax C1 C1). assert (P2 := PR y y v v Ay Ay S1 S1). assert (P3 := PR x y u v Ax Ay C1 S1).
  apply Rabs_le_inv in P1. apply Rabs_le_inv in P2. apply Rabs_le_inv in P3.
  split; apply Rabs_le; lra.
Qed.

Fixpoint dbls (n : nat) (p : Z * Z) : Z * Z := match n with O => p | S m => dbl (dbls m p) end.

Lemma dbls_ok : forall n c s th e, 0 <= e -> (e + ep) * 5 ^ n <= / 10 -> Rabs (fx c - cos th) <= e -> Rabs (fx s - sin th) <= e ->
  Rabs (fx (fst (dbls n (c, s))) - cos (2 ^ n * th)) <= (e + ep) * 5 ^ n /\ Rabs (fx (snd (dbls n (c, s))) - sin (2 ^ n * th)) <= (e + ep) * 5 ^ n.
Proof.
  assert (P := ep_pos).
  assert (G : forall n c s th e, 0 <= e -> (e + ep) * 5 ^ n <= / 10 -> Rabs (fx c - cos th) <= e -> Rabs (fx s - sin th) <= e ->
    Rabs (fx (fst (dbls n (c, s))) - cos (2 ^ n * th)) <= (e + ep) * 5 ^ n - ep /\ Rabs (fx (snd (dbls n (c, s))) - sin (2 ^ n * th)) <= (e + ep) * 5 ^ n - ep).
  { induction n as [|n IH]; intros c s th e He H Hc Hs.
    - cbn [dbls fst snd pow]. rewrite !Rmult_1_l. lra.
    - assert (P5 : 1 <= 5 ^ n) by (apply pow_R1_Rle; lra).
      assert (H' : (e + ep) * 5 ^ n <= / 10) by (cbn [pow] in H; set (q := 5 ^ n) in *; assert (0 <= (e + ep) * q) by (apply Rmult_le_pos; lra); lra).
      destruct (IH c s th e He H' Hc Hs) as [I1 I2]. cbn [dbls]. destruct (dbls n (c, s)) as [c' s']. cbn [fst snd] in I1, I2.
      assert (Q : ep <= (e + ep) * 5 ^ n) by (set (q := 5 ^ n) in *; apply Rle_trans with ((e + ep) * 1); [lra|apply Rmult_le_compat_l; lra]).
      destruct (dbl_ok c' s' (2 ^ n * th) ((e + ep) * 5 ^ n - ep) ltac:(lra) I1 I2) as [D1 D2].
      replace (2 ^ S n * th) with (2 * (2 ^ n * th)) by (cbn [pow]; ring).
      replace ((e + ep) * 5 ^ S n - ep) with (5 * ((e + ep) * 5 ^ n - ep) + 4 * ep) by (cbn [pow]; ring).
      split; lra. }
  intros n c s th e He H Hc Hs. destruct (G n c s th e He H Hc Hs). split; lra.
Qed.

(** Cosine and sine of the angle n / d, 0 <= n / d <= 2184. *)
Definition QT90 : Z := 1944551666501805353363452692%Z.
Definition turn : Z := Z.shiftr QT90 (90 - p).
Definition rot (j : Z) (q : Z * Z) : Z * Z :=
  let '(c, s) := q in match j with 0%Z => (c, s) | 1%Z => (- s, c)%Z | 2%Z => (- c, - s)%Z | _ => (s, - c)%Z end.
Definition cossin (n d : Z) : Z * Z :=
  let '(k, x1) := Z.div_eucl (Z.shiftl n p / d) turn in let x := Z.shiftr x1 4 in let x2 := mulS x x in rot (k mod 4)%Z (dbls 4 (cos0 x x2, sin0 x x2)).

Definition eval_err : R := 6000 * ep + 4 / 10 ^ 21.

Lemma turn_ok : PI / 2 - 1 / 10 ^ 24 - ep <= fx turn <= PI / 2 + 1 / 10 ^ 24.
Proof.
  unfold turn, fx. rewrite Z.shiftr_div_pow2 by lia. assert (B : (0 < 2 ^ (90 - p))%Z) by (apply Z.pow_pos_nonneg; lia).
  destruct (zdiv_R QT90 (2 ^ (90 - p)) B) as [H1 H2]. assert (P := ep_pos). assert (SE := SC_ep).
  assert (E : IZR (2 ^ (90 - p)) = IZR (2 ^ 90) * ep).
  { apply Rmult_eq_reg_r with (IZR SC); [|generalize SC_pos; lra]. replace (IZR (2 ^ 90) * ep * IZR SC) with (IZR (2 ^ 90) * (IZR SC * ep)) by ring. rewrite SE, Rmult_1_r, <- mult_IZR.
    apply f_equal. unfold SC. rewrite <- Z.pow_add_r by lia. f_equal. lia. }
  rewrite E in H1, H2. change (IZR (2 ^ 90)) with 1237940039285380274899124224 in *. set (q := IZR (QT90 / 2 ^ (90 - p))) in *.
  assert (E2 : IZR QT90 / (1237940039285380274899124224 * ep) * ep = IZR QT90 / 1237940039285380274899124224) by (field; lra).
  assert (L := L_Pi.PI_bounds_24). unfold QT90 in *.
  set (w := IZR 1944551666501805353363452692 / (1237940039285380274899124224 * ep)) in *.
  assert (A1 : (w - 1) * ep <= q * ep) by (apply Rmult_le_compat_r; lra). assert (A2 : q * ep <= w * ep) by (apply Rmult_le_compat_r; lra).
  set (qe := q * ep) in *. replace ((w - 1) * ep) with (w * ep - ep) in A1 by ring. set (we := w * ep) in *. clearbody qe we. lra.
Qed.

Lemma sin_cos_shift : forall x, - sin x = cos (PI / 2 + x). Proof. intros. rewrite sin_cos. ring. Qed.
Lemma cos_sin_shift : forall x, sin (PI / 2 + x) = cos x. Proof. intros. symmetry. apply cos_sin. Qed.
Lemma shift_turns : forall k x, (0 <= k)%Z -> forall c s, let j := (k mod 4)%Z in
  Rabs (fx (fst (rot j (c, s))) - cos (x + IZR k * (PI / 2))) <= Rmax (Rabs (fx c - cos x)) (Rabs (fx s - sin x)) /\
  Rabs (fx (snd (rot j (c, s))) - sin (x + IZR k * (PI / 2))) <= Rmax (Rabs (fx c - cos x)) (Rabs (fx s - sin x)).
Proof.
  intros k x Hk c s j. assert (E := Z_div_mod_eq_full k 4). fold j in E. assert (J : (0 <= j < 4)%Z) by (apply Z.mod_pos_bound; reflexivity). set (m := (k / 4)%Z) in *.
  assert (M : (0 <= m)%Z) by (apply Z.div_pos; lia). clearbody m j.
  assert (K : x + IZR k * (PI / 2) = (x + IZR j * (PI / 2)) + 2 * INR (Z.to_nat m) * PI).
  { rewrite INR_IZR_INZ, Z2Nat.id by exact M. rewrite E, plus_IZR, mult_IZR. field. }
  rewrite K, cos_period, sin_period. assert (L := Rmax_l (Rabs (fx c - cos x)) (Rabs (fx s - sin x))). assert (L' := Rmax_r (Rabs (fx c - cos x)) (Rabs (fx s - sin x))).
  assert (N : forall u, fx (- u) = - fx u) by (intros; unfold fx; rewrite opp_IZR; ring).
  assert (C : j = 0%Z \/ j = 1%Z \/ j = 2%Z \/ j = 3%Z) by lia. destruct C as [ -> | [ -> | [ -> | -> ]]]; cbn [rot fst snd]; rewrite ?N.
  - replace (x + 0 * (PI / 2)) with x by ring. split; assumption.
  - replace (x + 1 * (PI / 2)) with (PI / 2 + x) by field. rewrite <- sin_cos_shift, cos_sin_shift. split.
    + replace (- fx s - - sin x) with (- (fx s - sin x)) by ring. rewrite Rabs_Ropp. assumption.
    + assumption.
  - replace (x + 2 * (PI / 2)) with (x + PI) by field. rewrite neg_cos, neg_sin. split.
    + replace (- fx c - - cos x) with (- (fx c - cos x)) by ring. rewrite Rabs_Ropp. assumption.
    + replace (- fx s - - sin x) with (- (fx s - sin x)) by ring. rewrite Rabs_Ropp. assumption.
  - replace (x + 3 * (PI / 2)) with (PI / 2 + x + PI) by field. rewrite neg_cos, neg_sin, <- sin_cos_shift, cos_sin_shift. split.
    + replace (fx s - - - sin x) with (fx s - sin x) by ring. assumption.
    + replace (- fx c - - cos x) with (- (fx c - cos x)) by ring. rewrite Rabs_Ropp. assumption.
Qed.

Lemma cossin_ok : forall n d, (0 < d)%Z -> (0 <= n <= 2184 * d)%Z ->
  Rabs (fx (fst (cossin n d)) - cos (IZR n / IZR d)) <= eval_err /\ Rabs (fx (snd (cossin n d)) - sin (IZR n / IZR d)) <= eval_err.
Proof.
  intros n d Hd Hn. unfold cossin. cbv zeta. assert (P := ep_pos). assert (PS := ep_small). assert (TU := turn_ok). assert (PB := L_Pi.PI_bounds).
  assert (D : 0 < IZR d) by (apply IZR_lt; exact Hd).
  assert (TP : (0 < turn)%Z).
  { apply lt_IZR. apply Rmult_lt_reg_r with ep; [exact P|]. rewrite Rmult_0_l. fold (fx turn). lra. }
  rewrite Z.shiftl_mul_pow2 by lia. fold SC. set (x0 := ((n * SC) / d)%Z).
  assert (DE : Z.div_eucl x0 turn = (x0 / turn, x0 mod turn)%Z) by (unfold Z.div, Z.modulo; destruct (Z.div_eucl x0 turn); reflexivity). rewrite DE. clear DE.
  set (k := (x0 / turn)%Z). set (x1 := (x0 mod turn)%Z). set (x := Z.shiftr x1 4).
  assert (X0 : (0 <= x0)%Z) by (apply Z.div_pos; [apply Z.mul_nonneg_nonneg; [lia|apply Z.lt_le_incl, SC_posZ]|exact Hd]).
  assert (K0 : (0 <= k)%Z) by (apply Z.div_pos; assumption).
  assert (X1 : (0 <= x1 < turn)%Z) by (apply Z.mod_pos_bound; exact TP).
  assert (XE : IZR x0 = IZR turn * IZR k + IZR x1) by (rewrite <- mult_IZR, <- plus_IZR; apply f_equal, Z_div_mod_eq_full).
  set (a := IZR n / IZR d).
  assert (A0 : 0 <= a <= 2184).
  { unfold a. split; [apply Rmult_le_pos; [apply IZR_le; lia|left; apply Rinv_0_lt_compat; exact D]|].
    assert (IZR n <= 2184 * IZR d) by (rewrite <- mult_IZR; apply IZR_le; lia).
    apply Rmult_le_reg_r with (IZR d); [lra|]; unfold Rdiv; rewrite Rmult_assoc, Rinv_l; lra. }
  assert (XA : a - ep <= fx x0 <= a).
  { destruct (zdiv_R (n * SC) d Hd) as [H1 H2]. fold x0 in H1, H2. rewrite mult_IZR in H1, H2.
    assert (E : IZR n * IZR SC / IZR d = a * IZR SC) by (unfold a; field; lra). rewrite E in H1, H2.
    unfold fx. set (q := IZR x0) in *. assert (T : a = a * IZR SC * ep) by (rewrite Rmult_assoc, SC_ep; ring). split.
    - replace (a - ep) with ((a * IZR SC - 1) * ep) by (rewrite T at 2; ring). apply Rmult_le_compat_r; lra.
    - rewrite T. apply Rmult_le_compat_r; lra. }
  assert (FE : fx x0 = fx turn * IZR k + fx x1) by (unfold fx; rewrite XE; ring).
  assert (F1 : 0 <= fx x1) by (unfold fx; apply Rmult_le_pos; [apply IZR_le; lia|lra]).
  assert (F2 : fx x1 <= fx turn) by (unfold fx; apply Rmult_le_compat_r; [lra|apply IZR_le; lia]).
  assert (KR : 0 <= IZR k) by (apply IZR_le; exact K0).
  assert (KB : IZR k <= 1392).
  { assert (fx turn * IZR k <= 2184) by lra. assert (1.57 <= fx turn) by lra. set (u := fx turn) in *. set (v := IZR k) in *. clearbody u v.
    assert (1.57 * v <= u * v) by (apply Rmult_le_compat_r; lra). lra. }
  assert (TH : Rabs (fx x1 + IZR k * (PI / 2) - a) <= 1393 * ep + 1.4 / 10 ^ 21).
  { replace (fx x1 + IZR k * (PI / 2) - a) with ((fx x0 - a) + IZR k * (PI / 2 - fx turn)) by (rewrite FE; ring).
    set (v := IZR k) in *. set (u := PI / 2 - fx turn) in *. assert (U : Rabs u <= 1 / 10 ^ 24 + ep) by (unfold u; apply Rabs_le; lra). clearbody u.
    assert (VU : Rabs (v * u) <= 1392 * (1 / 10 ^ 24 + ep)) by (rewrite Rabs_mult, (Rabs_pos_eq v) by lra; apply Rmult_le_compat; [lra|apply Rabs_pos|lra|exact U]).
    apply Rabs_le_inv in VU. apply Rabs_le. lra. }
  assert (LC := L_Apx.cos_lip (fx x1 + IZR k * (PI / 2)) a). assert (LS := L_Apx.sin_lip (fx x1 + IZR k * (PI / 2)) a).
  set (y1 := fx x1) in *. set (th := y1 / 16).
  assert (X : th - ep <= fx x <= th).
  { unfold x. rewrite Z.shiftr_div_pow2 by lia. change (2 ^ 4)%Z with 16%Z. exact (fx_div x1 16 eq_refl). }
  assert (Z0 : 0 <= fx x) by (unfold fx; apply Rmult_le_pos; [apply IZR_le; unfold x; rewrite Z.shiftr_div_pow2 by lia; apply Z.div_pos; lia|lra]).
  assert (Z1 : 0 <= fx x <= 0.0982) by (unfold th in X; lra).
  assert (C := cos0_ok x Z1). assert (S := sin0_ok x Z1). assert (PC := poly_c_ok (fx x) Z1). assert (PSn := poly_s_ok (fx x) Z1).
  assert (MC := L_Apx.cos_lip (fx x) th). assert (MS := L_Apx.sin_lip (fx x) th).
  assert (LX : Rabs (fx x - th) <= ep) by (apply Rabs_le; lra).
  assert (Q14 : fx x ^ 14 <= 7.76 / 10 ^ 15) by (apply Rle_trans with (0.0982 ^ 14); [apply pow_incr; lra|lra]).
  assert (Q15 : fx x ^ 15 <= 1 / 10 ^ 15) by (apply Rle_trans with (0.0982 ^ 15); [apply pow_incr; lra|lra]).
  set (c0 := cos0 x (mulS x x)) in *. set (s0 := sin0 x (mulS x x)) in *.
  set (e0 := 4 * ep + 9 / 10 ^ 26).
  assert (EC : Rabs (fx c0 - cos th) <= e0).
  { unfold e0. replace (fx c0 - cos th) with ((fx c0 - poly_c (fx x * fx x)) + - (cos (fx x) - poly_c (fx x * fx x)) + (cos (fx x) - cos th)) by ring.
    eapply Rle_trans; [apply Rabs_triang|]. eapply Rle_trans; [apply Rplus_le_compat_r, Rabs_triang|]. rewrite Rabs_Ropp. lra. }
  assert (ES : Rabs (fx s0 - sin th) <= e0).
  { unfold e0. replace (fx s0 - sin th) with ((fx s0 - fx x * poly_s (fx x * fx x)) + - (sin (fx x) - fx x * poly_s (fx x * fx x)) + (sin (fx x) - sin th)) by ring.
    eapply Rle_trans; [apply Rabs_triang|]. eapply Rle_trans; [apply Rplus_le_compat_r, Rabs_triang|]. rewrite Rabs_Ropp. lra. }
  clearbody c0 s0.
  assert (B : (e0 + ep) * 5 ^ 4 <= 3125 * ep + 0.1 / 10 ^ 21) by (unfold e0; lra).
  destruct (dbls_ok 4 c0 s0 th e0 ltac:(unfold e0; lra) ltac:(lra) EC ES) as [R1 R2].
  replace (2 ^ 4 * th) with y1 in R1, R2 by (unfold th; field).
  destruct (dbls 4 (c0, s0)) as [c s]. cbn [fst snd] in R1, R2. destruct (shift_turns k y1 K0 c s) as [S1 S2]. cbv zeta in S1, S2.
  assert (RM : Rmax (Rabs (fx c - cos y1)) (Rabs (fx s - sin y1)) <= 3125 * ep + 0.1 / 10 ^ 21) by (apply Rmax_lub; lra).
  assert (S1' := Rle_trans _ _ _ S1 RM). assert (S2' := Rle_trans _ _ _ S2 RM).
  apply Rabs_le_inv in S1', S2'. assert (LC' := Rle_trans _ _ _ LC TH). assert (LS' := Rle_trans _ _ _ LS TH). apply Rabs_le_inv in LC', LS'.
  unfold eval_err. split; apply Rabs_le; lra.
Qed.
End Prec.

(** ** Sums over a table

    Amplitudes are scaled to integers over 10^26, phases and frequencies to integers over
    10^15, and the time is the fraction tn / td. *)
Definition scl (k : Z) (d : Z * Z) : Z := (fst d * 10 ^ (snd d + k))%Z.

Lemma dec_scl : forall k d, (0 <= k)%Z -> (0 <= snd d + k)%Z -> dec d = IZR (scl k d) / IZR (10 ^ k).
Proof.
  intros k [m e] Hk H. unfold dec, scl. cbn [fst snd] in *. rewrite mult_IZR. unfold Rdiv. rewrite Rmult_assoc. f_equal.
  assert (E : forall z, (0 <= z)%Z -> IZR (10 ^ z) = powerRZ 10 z) by (intros z Hz; rewrite <- (Z2Nat.id z Hz), <- pow_IZR, <- pow_powerRZ; reflexivity).
  rewrite !E by assumption. rewrite powerRZ_add by lra. rewrite Rmult_assoc, Rinv_r; [ring|]. apply powerRZ_NOR. lra.
Qed.

Definition Q26 : Z := (10 ^ 26)%Z.
Definition Q15 : Z := (10 ^ 15)%Z.
Definition U90 : Z := (2 ^ 90)%Z.

(** The sums of the cosines and of their derivatives, over 2^90; the sums of absolute values of
    the terms and of their first two derivatives; the first two of these with every term weighted
    by its rounding unit. *)
Record acc := Acc { a_p : Z; a_v : Z; a_ap : Z; a_av : Z; a_aw : Z; a_ep : Z; a_ev : Z; a_ok : bool }.

(** Fewer bits are enough for a small amplitude. *)
Definition bits (a : Z) : Z := Z.max 40 (Z.min 90 (Z.log2 (Z.abs a) - 6)).
Lemma bits_ok : forall a, (40 <= bits a <= 90)%Z. Proof. intros. unfold bits. lia. Qed.

Lemma unit90 : forall p, (40 <= p <= 90)%Z -> IZR (2 ^ (90 - p)) / IZR U90 = ep p.
Proof.
  intros p Hp. unfold ep, SC, U90. replace 90%Z with ((90 - p) + p)%Z at 2 by lia. rewrite Z.pow_add_r, mult_IZR by lia.
  assert (0 < IZR (2 ^ (90 - p))) by (apply IZR_lt, Z.pow_pos_nonneg; lia). assert (0 < IZR (2 ^ p)) by (apply IZR_lt, Z.pow_pos_nonneg; lia). field. lra.
Qed.

Section Table.
  Variables (tn td : Z) (tab : list (list (list (Z * Z)))) (k : nat).
  Definition ent (q j : nat) : Z * Z := nth k (nth j (nth q tab []) []) (0, 0)%Z.
  Definition inrange (s : Z) (d : Z * Z) : bool := (0 <=? snd d + s)%Z.
  Definition row (j : nat) : acc :=
    let a := scl 26 (ent 0 j) in let c := scl 15 (ent 2 j) in
    let n := (scl 15 (ent 1 j) * td + c * tn)%Z in let d := (Q15 * td)%Z in let p := bits a in let s := (90 - p)%Z in
    if (a =? 0)%Z then Acc 0 0 0 0 0 0 0 (inrange 26 (ent 0 j)) else
    let '(co, si) := cossin p n d in
    let ac := (a * c)%Z in
    Acc (Z.shiftl (a * co) s) (Z.shiftl (ac * si) s) (Z.abs a) (Z.abs ac) (Z.abs (ac * c)) (Z.shiftl (Z.abs a) s) (Z.shiftl (Z.abs ac) s)
      (inrange 26 (ent 0 j) && inrange 15 (ent 1 j) && inrange 15 (ent 2 j) && (0 <=? n)%Z && (n <=? 2184 * d)%Z)%bool.
  Definition addacc (x y : acc) : acc := Acc (a_p x + a_p y) (a_v x + a_v y) (a_ap x + a_ap y) (a_av x + a_av y) (a_aw x + a_aw y) (a_ep x + a_ep y) (a_ev x + a_ev y) (a_ok x && a_ok y).
  Fixpoint total (n : nat) : acc := match n with O => Acc 0 0 0 0 0 0 0 true | S m => addacc (total m) (row m) end.

  (** Derivative of the sum with respect to time. *)
  Definition dtrig (t : R) : R := sumn (length (nth 0 tab [])) (fun j => - (cell tab 0 j k * cell tab 2 j k * sin (cell tab 1 j k + cell tab 2 j k * t))).

  Lemma row_ok : forall j, (0 < td)%Z -> a_ok (row j) = true -> let t := IZR tn / IZR td in
    exists a c p s e, cell tab 0 j k = a / IZR Q26 /\ cell tab 2 j k = c / IZR Q15 /\ 0 <= e /\
      IZR (a_p (row j)) / IZR U90 = a * p /\ IZR (a_v (row j)) / IZR U90 = a * c * s /\ IZR (a_ap (row j)) = Rabs a /\ IZR (a_av (row j)) = Rabs (a * c) /\ IZR (a_aw (row j)) = Rabs (a * c * c) /\
      IZR (a_ep (row j)) / IZR U90 = Rabs a * e /\ IZR (a_ev (row j)) / IZR U90 = Rabs (a * c) * e /\
      Rabs (p - cos (cell tab 1 j k + cell tab 2 j k * t)) <= 6000 * e + 4 / 10 ^ 21 /\
      Rabs (s - sin (cell tab 1 j k + cell tab 2 j k * t)) <= 6000 * e + 4 / 10 ^ 21.
  Proof.
    intros j Htd OK t. assert (TD : 0 < IZR td) by (apply IZR_lt; exact Htd).
    unfold row in *. cbv zeta in *. set (a := scl 26 (ent 0 j)) in *. set (c := scl 15 (ent 2 j)) in *. set (b := scl 15 (ent 1 j)) in *.
    set (nn := (b * td + c * tn)%Z) in *. set (dd := (Q15 * td)%Z) in *.
    assert (DD : (0 < dd)%Z) by (unfold dd; apply Z.mul_pos_pos; [reflexivity|exact Htd]).
    assert (BP := bits_ok a). set (p := bits a) in *. destruct (a =? 0)%Z eqn:A0.
    { apply Z.eqb_eq in A0. cbn [a_p a_v a_ap a_av a_aw a_ep a_ev a_ok] in *. unfold inrange in OK. apply Z.leb_le in OK. exists 0, (cell tab 2 j k * IZR Q15), (cos (cell tab 1 j k + cell tab 2 j k * t)), (sin (cell tab 1 j k + cell tab 2 j k * t)), 0.
      assert (QP : 0 < IZR Q15) by (apply IZR_lt; reflexivity).
      split; [unfold cell; change (nth k (nth j (nth 0 tab []) []) (0, 0)%Z) with (ent 0 j); rewrite (dec_scl 26 (ent 0 j)) by (discriminate || assumption); fold a; rewrite A0; reflexivity|]. split; [field; lra|]. split; [lra|].
      unfold Rdiv. rewrite !Rmult_0_l, !Rminus_diag_eq, Rabs_R0 by reflexivity. repeat (split; [reflexivity|]). assert (0 < / 10 ^ 21) by (apply Rinv_0_lt_compat, pow_lt; lra). split; lra. }
    pose proof (cossin_ok p BP nn dd DD) as CK. destruct (cossin p nn dd) as [co si]. cbn [a_p a_v a_ap a_av a_aw a_ep a_ev a_ok fst snd] in *.
    repeat (apply andb_prop in OK; destruct OK as [OK ?]). unfold inrange in *. repeat match goal with X : (_ <=? _)%Z = true |- _ => apply Z.leb_le in X end.
    destruct (CK ltac:(split; assumption)) as [K1 K2].
    assert (QP : 0 < IZR Q15) by (apply IZR_lt; reflexivity).
    assert (EB : cell tab 1 j k = IZR b / IZR Q15) by (unfold cell; apply (dec_scl 15); [discriminate|assumption]).
    assert (EC : cell tab 2 j k = IZR c / IZR Q15) by (unfold cell; apply (dec_scl 15); [discriminate|assumption]).
    assert (ANG : IZR nn / IZR dd = cell tab 1 j k + cell tab 2 j k * t).
    { rewrite EB, EC. unfold nn, dd, t. rewrite plus_IZR, !mult_IZR. field. split; lra. }
    rewrite ANG in K1, K2. assert (UN := unit90 p BP). assert (PE := ep_pos p BP). unfold eval_err in K1, K2.
    assert (SH : forall z, IZR (Z.shiftl z (90 - p)) / IZR U90 = IZR z * ep p).
    { intros z. rewrite Z.shiftl_mul_pow2, mult_IZR by lia. unfold Rdiv in *. rewrite Rmult_assoc, UN. reflexivity. }
    rewrite !SH, !abs_IZR, !mult_IZR.
    exists (IZR a), (IZR c), (fx p co), (fx p si), (ep p). unfold fx in *. 
    split; [unfold cell; apply (dec_scl 26); [discriminate|assumption]|]. split; [exact EC|]. split; [lra|].
    split; [ring|]. split; [ring|]. repeat (split; [reflexivity|]). split; [exact K1|exact K2].
  Qed.

  Lemma total_ok : forall n, (0 < td)%Z -> a_ok (total n) = true -> let t := IZR tn / IZR td in
    Rabs (IZR (a_p (total n)) / IZR U90 / IZR Q26 - sumn n (fun j => cell tab 0 j k * cos (cell tab 1 j k + cell tab 2 j k * t))) <=
      (IZR (a_ap (total n)) * (4 / 10 ^ 21) + 6000 * (IZR (a_ep (total n)) / IZR U90)) / IZR Q26 /\
    Rabs (- (IZR (a_v (total n)) / IZR U90) / IZR Q26 / IZR Q15 - sumn n (fun j => - (cell tab 0 j k * cell tab 2 j k * sin (cell tab 1 j k + cell tab 2 j k * t)))) <=
      (IZR (a_av (total n)) * (4 / 10 ^ 21) + 6000 * (IZR (a_ev (total n)) / IZR U90)) / IZR Q26 / IZR Q15.
  Proof.
    intros n Htd. assert (QP : 0 < IZR Q26) by (apply IZR_lt; reflexivity). assert (RP : 0 < IZR Q15) by (apply IZR_lt; reflexivity).
    induction n as [|n IH]; intros OK t.
    - cbn [total a_p a_v a_ap a_av a_aw a_ep a_ev sumn]. unfold Rdiv. rewrite !Rmult_0_l, Ropp_0, !Rmult_0_l, Rminus_0_r, Rabs_R0, Rmult_0_r, Rplus_0_l, !Rmult_0_l. lra.
    - cbn [total] in *. unfold addacc in *. cbn [a_p a_v a_ap a_av a_aw a_ep a_ev a_ok sumn] in *. apply andb_prop in OK. destruct OK as [O1 O2]. destruct (IH O1) as [I1 I2]. fold t in I1, I2.
      destruct (row_ok n Htd O2) as (a & c & p & s & e & EA & EC & E0 & Ep & Ev & Eap & Eav & _ & Eep & Eev & K1 & K2). fold t in K1, K2. cbv zeta in K1, K2. fold t in K1, K2.
      rewrite !plus_IZR. rewrite Eap, Eav. unfold Rdiv in Ep, Ev, Eep, Eev |- *. rewrite !Rmult_plus_distr_r, Ep, Ev, Eep, Eev. rewrite EA. rewrite EC in K1, K2 |- *.
      set (th := cell tab 1 n k + c / IZR Q15 * t) in *. 
      set (S1 := sumn n (fun j => cell tab 0 j k * cos (cell tab 1 j k + cell tab 2 j k * t))) in *.
      set (S2 := sumn n (fun j => - (cell tab 0 j k * cell tab 2 j k * sin (cell tab 1 j k + cell tab 2 j k * t)))) in *.
      unfold Rdiv in I1, I2 |- *. set (q := / IZR Q26) in *. assert (Q : 0 < q) by (apply Rinv_0_lt_compat; exact QP). set (r := / IZR Q15) in *. assert (RR : 0 < r) by (apply Rinv_0_lt_compat; exact RP).
      set (u := / IZR U90) in *. set (x1 := IZR (a_p (total n)) * u) in *. set (x2 := IZR (a_v (total n)) * u) in *. set (x3 := IZR (a_ap (total n))) in *. set (x4 := IZR (a_av (total n))) in *.
      set (x5 := IZR (a_ep (total n)) * u) in *. set (x6 := IZR (a_ev (total n)) * u) in *. set (z := 4 * / 10 ^ 21) in *. unfold Rdiv in K1, K2. fold z in K1, K2.
      fold th. clearbody th S1 S2 q r u x1 x2 x3 x4 x5 x6 z.
      split.
      + match goal with |- Rabs ?x <= ?y => replace x with ((x1 * q - S1) + a * q * (p - cos th)) by ring;
        replace y with ((x3 * z + 6000 * x5) * q + Rabs a * q * (6000 * e + z)) by ring end.
        eapply Rle_trans; [apply Rabs_triang|]. apply Rplus_le_compat; [exact I1|]. rewrite !Rabs_mult, (Rabs_pos_eq q) by lra. apply Rmult_le_compat_l; [|exact K1]. apply Rmult_le_pos; [apply Rabs_pos|lra].
      + match goal with |- Rabs ?x <= ?y => replace x with ((- x2 * q * r - S2) + - (a * c * q * r * (s - sin th))) by ring;
        replace y with ((x4 * z + 6000 * x6) * q * r + Rabs (a * c) * q * r * (6000 * e + z)) by ring end.
        eapply Rle_trans; [apply Rabs_triang|]. apply Rplus_le_compat; [exact I2|]. rewrite Rabs_Ropp, !Rabs_mult, (Rabs_pos_eq q), (Rabs_pos_eq r) by lra. apply Rmult_le_compat_l; [|exact K2].
        repeat apply Rmult_le_pos; try apply Rabs_pos; lra.
  Qed.

  (** How far the sums can move when the date changes. *)
  Lemma total_lip : forall n t', (0 < td)%Z -> a_ok (total n) = true -> let t := IZR tn / IZR td in
    Rabs (sumn n (fun j => cell tab 0 j k * cos (cell tab 1 j k + cell tab 2 j k * t')) - sumn n (fun j => cell tab 0 j k * cos (cell tab 1 j k + cell tab 2 j k * t))) <=
      IZR (a_av (total n)) / IZR Q26 / IZR Q15 * Rabs (t' - t) /\
    Rabs (sumn n (fun j => - (cell tab 0 j k * cell tab 2 j k * sin (cell tab 1 j k + cell tab 2 j k * t'))) - sumn n (fun j => - (cell tab 0 j k * cell tab 2 j k * sin (cell tab 1 j k + cell tab 2 j k * t)))) <=
      IZR (a_aw (total n)) / IZR Q26 / IZR Q15 / IZR Q15 * Rabs (t' - t).
  Proof.
    intros n t' Htd. assert (QP : 0 < IZR Q26) by (apply IZR_lt; reflexivity). assert (RP : 0 < IZR Q15) by (apply IZR_lt; reflexivity).
    induction n as [|n IH]; intros OK t.
    - cbn [total a_av a_aw sumn]. unfold Rdiv. rewrite !Rmult_0_l, Rminus_0_r, Rabs_R0. lra.
    - cbn [total] in *. unfold addacc in *. cbn [a_p a_v a_ap a_av a_aw a_ep a_ev a_ok sumn] in *. apply andb_prop in OK. destruct OK as [O1 O2]. destruct (IH O1) as [I1 I2]. fold t in I1, I2.
      destruct (row_ok n Htd O2) as (a & c & p & s & e & EA & EC & E0 & _ & _ & _ & Eav & Eaw & _ & _ & _). 
      rewrite !plus_IZR, Eav, Eaw, EA, EC. set (b := cell tab 1 n k).
      set (S1 := sumn n (fun j => cell tab 0 j k * cos (cell tab 1 j k + cell tab 2 j k * t))) in *. set (S1' := sumn n (fun j => cell tab 0 j k * cos (cell tab 1 j k + cell tab 2 j k * t'))) in *.
      set (S2 := sumn n (fun j => - (cell tab 0 j k * cell tab 2 j k * sin (cell tab 1 j k + cell tab 2 j k * t)))) in *.
      set (S2' := sumn n (fun j => - (cell tab 0 j k * cell tab 2 j k * sin (cell tab 1 j k + cell tab 2 j k * t')))) in *.
      assert (LC := L_Apx.cos_lip (b + c / IZR Q15 * t') (b + c / IZR Q15 * t)). assert (LS := L_Apx.sin_lip (b + c / IZR Q15 * t') (b + c / IZR Q15 * t)).
      unfold Rdiv in *. set (q := / IZR Q26) in *. assert (Q : 0 < q) by (apply Rinv_0_lt_compat; exact QP). set (r := / IZR Q15) in *. assert (RR : 0 < r) by (apply Rinv_0_lt_compat; exact RP).
      set (x := IZR (a_av (total n))) in *. set (y := IZR (a_aw (total n))) in *. clearbody x y q r S1 S2 S1' S2' b. clear IH.
      replace (b + c * r * t' - (b + c * r * t)) with (c * r * (t' - t)) in LC, LS by ring. rewrite !Rabs_mult, (Rabs_pos_eq r) in LC, LS by lra.
      set (d := Rabs (t' - t)) in *.
      split.
      + replace (S1' + a * q * cos (b + c * r * t') - (S1 + a * q * cos (b + c * r * t))) with ((S1' - S1) + a * q * (cos (b + c * r * t') - cos (b + c * r * t))) by ring.
        rewrite Rabs_mult. replace ((x + Rabs a * Rabs c) * q * r * d) with (x * q * r * d + Rabs a * q * (Rabs c * r * d)) by ring.
        eapply Rle_trans; [apply Rabs_triang|]. apply Rplus_le_compat; [exact I1|]. rewrite !Rabs_mult, (Rabs_pos_eq q) by lra. apply Rmult_le_compat_l; [|exact LC]. apply Rmult_le_pos; [apply Rabs_pos|lra].
      + replace (S2' + - (a * q * (c * r) * sin (b + c * r * t')) - (S2 + - (a * q * (c * r) * sin (b + c * r * t)))) with ((S2' - S2) + - (a * q * c * r * (sin (b + c * r * t') - sin (b + c * r * t)))) by ring.
        rewrite !Rabs_mult. replace ((y + Rabs a * Rabs c * Rabs c) * q * r * r * d) with (y * q * r * r * d + Rabs a * q * Rabs c * r * (Rabs c * r * d)) by ring.
        eapply Rle_trans; [apply Rabs_triang|]. apply Rplus_le_compat; [exact I2|]. rewrite Rabs_Ropp, !Rabs_mult, (Rabs_pos_eq q), (Rabs_pos_eq r) by lra. apply Rmult_le_compat_l; [|exact LS].
        repeat apply Rmult_le_pos; try apply Rabs_pos; lra.
  Qed.

  Definition tot : acc := total (length (nth 0 tab [])).
End Table.
