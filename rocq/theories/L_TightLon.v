(** * The round trip of the WGS84 conversions: the longitude (for C75 and C101) *)

From Coq Require Import ZArith Reals Lra Lia Bool List Psatz.
From Flocq Require Import Core BinarySingleNaN.
From Verif Require Import Outcome Arith ArithR ArithF Spec_Float Spec_Accuracy Spec_Sharp M_Common M_Ellipsoid Spec_Matrix Spec_Geo.
From Verif Require Import L_ArithF L_ArithR L_Flit L_PMatrix L_Frames L_Rel L_Ellipsoid L_Halley L_ApxGd L_Tight.
From Verif Require L_Pi L_Apx L_ApxMod L_ApxGeo L_PAccGeo L_PAccGd L_PGeoTrip.
Open Scope R_scope.

(** ** The numbers up to pi, and up to half of it *)

Ltac flit_value :=
  rewrite B2R_SF; match goal with |- context [B2SF ?t] =>
    let x := fresh "x" in set (x := B2SF t); let v := eval vm_compute in x in
    let E := fresh "E" in assert (E : x = v) by (vm_compute; reflexivity); rewrite E; clear E x end;
  cbn [SF2R cond_Zopp Z.opp is_finite_SF]; unfold F2R; cbn [Fnum Fexp];
  repeat match goal with |- context [bpow radix2 ?e] => let v := eval cbv in e in
     match v with Z0 => change (bpow radix2 e) with 1 | Zpos ?q => let w := eval vm_compute in (2 ^ Zpos q)%Z in change (bpow radix2 e) with (IZR w)
       | Zneg ?q => let w := eval vm_compute in (2 ^ Zpos q)%Z in change (bpow radix2 e) with (/ IZR w) end end.

Lemma below_lit : forall x m p r e, fin x = true -> B2R x <= r -> r <= Rlit m (Zneg p) -> Rabs (Rlit m (Zneg p)) <= 10 -> B2R (Flit m (Zneg p)) <= r - e -> B2R x <= r - e.
Proof.
  intros x m p r e F A B S H. destruct (Flit_neg m p) as [E _]; [apply (small_le _ 10); [lia|change (bpow radix2 10) with 1024; lra]|].
  eapply Rle_trans; [|exact H]. rewrite E. apply rnd_ge; [apply generic_format_B2R|lra].
Qed.

Lemma both_signs : forall r e, (forall x, fin x = true -> B2R x <= r -> B2R x <= r - e) -> forall x, fin x = true -> - r <= B2R x <= r -> Rabs (B2R x) <= r - e.
Proof.
  intros r e K x F H. apply Rabs_le. split.
  - pose proof (K (Bopp x)) as Q. rewrite is_finite_Bopp, B2R_Bopp in Q. specialize (Q F). lra.
  - apply K; [exact F|lra].
Qed.
Lemma upto_pi : forall x, fin x = true -> - PI <= B2R x <= PI -> Rabs (B2R x) <= PI - / 10 ^ 16.
Proof.
  apply both_signs. intros x F H. pose proof L_Pi.PI_bounds_24 as PB. 
  assert (V : Rlit 3141592653589793239 (-18) = 3.141592653589793239) by (unfold Rlit; change (Z.pow_pos 10 18) with 1000000000000000000%Z; lra).
  apply (below_lit x 3141592653589793239 18 PI); [exact F|exact H|rewrite V; lra|rewrite V, Rabs_pos_eq; lra|]. flit_value. lra.
Qed.
Lemma upto_half_pi : forall x, fin x = true -> - (PI / 2) <= B2R x <= PI / 2 -> Rabs (B2R x) <= PI / 2 - 6 / 10 ^ 17.
Proof.
  apply both_signs. intros x F H. pose proof L_Pi.PI_bounds_24 as PB. 
  assert (V : Rlit 1570796326794896620 (-18) = 1.57079632679489662) by (unfold Rlit; change (Z.pow_pos 10 18) with 1000000000000000000%Z; lra).
  apply (below_lit x 1570796326794896620 18 (PI / 2)); [exact F|exact H|rewrite V; lra|rewrite V, Rabs_pos_eq; lra|]. flit_value. lra.
Qed.

(** ** The argument of a slightly displaced point *)

Lemma sin_near_pi : forall t, 0 <= t -> PI / 2 <= t <= PI - / 10 ^ 16 -> 8 / 10 ^ 17 <= sin t.
Proof.
  intros t T0 H. pose proof L_Pi.PI_bounds_24 as PB. rewrite <- sin_PI_x.
  assert (S : sin (/ 10 ^ 16) <= sin (PI - t)) by (apply sin_incr_1; lra).
  pose proof (L_Ellipsoid.sin_lower (/ 10 ^ 16) ltac:(lra)). lra.
Qed.

Lemma angle_near : forall lo r x y e, Rabs lo <= PI - / 10 ^ 16 -> 0 < r -> 0 < e <= / 10 ^ 60 ->
  Rabs (x - r * cos lo) <= r * (3.1 * U * Rabs (cos lo) + e) -> Rabs (y - r * sin lo) <= r * (3.1 * U * Rabs (sin lo) + e) ->
  (y <> 0 \/ 0 < x) /\ Rabs (Ratan2 y x - lo) <= 5.4 * U.
Proof.
  intros lo r x y e HL R0 HE EX EY. pose proof U_pos as UP. pose proof L_Pi.PI_bounds_24 as PB. apply Rabs_le_inv in HL.
  assert (U60 : / 10 ^ 60 <= 0.001 * U) by (unfold U; lra).
  set (c := cos lo) in *. set (s := sin lo) in *. assert (SC : s * s + c * c = 1) by apply sc1.
  pose proof (COS_bound lo) as CB. pose proof (SIN_bound lo) as SB. fold c in CB. fold s in SB.
  (* signs *)
  assert (BIG : PI / 2 <= Rabs lo -> 8 / 10 ^ 17 <= Rabs s /\ 0 <= s * lo).
  { intros L. unfold s. unfold Rabs in L |- *. destruct (Rcase_abs lo) as [Q|Q].
    - pose proof (sin_near_pi (- lo) ltac:(lra) ltac:(lra)) as K. rewrite sin_neg in K. destruct (Rcase_abs (sin lo)); [|lra]. split; [lra|]. nra.
    - pose proof (sin_near_pi lo ltac:(lra) ltac:(lra)) as K. destruct (Rcase_abs (sin lo)); [lra|]. split; [lra|]. nra. }
  assert (YS : PI / 2 <= Rabs lo -> 0 < y * lo).
  { intros L. destruct (BIG L) as [S1 S2]. assert (SG : 0 < y * s).
    { apply Rabs_le_inv in EY. assert (K : r * (3.1 * U * Rabs s + e) <= r * (0.1 * Rabs s)) by (apply Rmult_le_compat_l; [lra|]; assert (U * Rabs s <= 0.001 * Rabs s) by (apply Rmult_le_compat_r; lra); lra).
      assert (SG : 0 < r * Rabs s) by (apply Rmult_lt_0_compat; lra).
      unfold Rabs in S1, K, SG, EY. destruct (Rcase_abs s) as [Q|Q].
      - assert (y < 0) by lra. nra.
      - assert (0 < y) by lra. apply Rmult_lt_0_compat; lra. }
    unfold Rabs in L, S1. destruct (Rcase_abs lo) as [Q|Q]; destruct (Rcase_abs s) as [Q'|Q'].
    - assert (y < 0) by (apply Rnot_le_lt; intros Y; assert (y * s <= 0) by nra; lra). nra.
    - exfalso. assert (s * lo < 0) by nra. lra.
    - exfalso. assert (s * lo < 0) by nra. lra.
    - assert (0 < y) by (apply Rnot_le_lt; intros Y; assert (y * s <= 0) by nra; lra). apply Rmult_lt_0_compat; lra. }
  assert (DX : Rabs (x - r * c) <= r * (3.2 * U)).
  { eapply Rle_trans; [exact EX|]. apply Rmult_le_compat_l; [lra|]. assert (U * Rabs c <= U * 1) by (apply Rmult_le_compat_l; [lra|apply Rabs_le; lra]). lra. }
  assert (DY : Rabs (y - r * s) <= r * (3.2 * U)).
  { eapply Rle_trans; [exact EY|]. apply Rmult_le_compat_l; [lra|]. assert (U * Rabs s <= U * 1) by (apply Rmult_le_compat_l; [lra|apply Rabs_le; lra]). lra. }
  split.
  { destruct (Rle_or_lt (PI / 2) (Rabs lo)) as [L|L].
    - left. intros Y. specialize (YS L). rewrite Y in YS. lra.
    - destruct (Rle_or_lt (/ 2) c) as [K|K].
      + right. apply Rabs_le_inv in DX. assert (r * / 2 <= r * c) by (apply Rmult_le_compat_l; lra). assert (r * (3.2 * U) <= r * 0.1) by (apply Rmult_le_compat_l; lra). lra.
      + left. intros Y. rewrite Y in DY. rewrite Rminus_0_l, Rabs_Ropp, Rabs_mult, (Rabs_pos_eq r) in DY by lra. apply Rmult_le_reg_l in DY; [|lra].
        assert (C0 : 0 <= c) by (unfold c; apply Rabs_lt_inv in L; apply cos_ge_0; lra).
        assert (Rabs s * Rabs s <= 0.1 * 0.1) by (apply Rmult_le_compat; try apply Rabs_pos; lra). rewrite <- Rabs_mult, Rabs_pos_eq in H by apply Rle_0_sqr.
        assert (c * c <= / 2 * / 2) by (apply Rmult_le_compat; lra). lra. }
  set (p := sqrt (x * x + y * y)).
  set (dx := x - r * c) in *. set (dy := y - r * s) in *.
  assert (Ex : x = r * c + dx) by (unfold dx; ring). assert (Ey : y = r * s + dy) by (unfold dy; ring).
  assert (DOT : x * c + y * s = r + (dx * c + dy * s)) by (rewrite Ex, Ey; transitivity (r * (s * s + c * c) + (dx * c + dy * s)); [ring|rewrite SC; ring]).
  assert (CRO : x * s - y * c = dx * s - dy * c) by (rewrite Ex, Ey; ring).
  assert (PP : x * x + y * y = (x * c + y * s) * (x * c + y * s) + (x * s - y * c) * (x * s - y * c)) by (transitivity ((x * x + y * y) * (s * s + c * c)); [rewrite SC; ring|ring]).
  assert (B1 : Rabs (dx * c + dy * s) <= r * 0.001).
  { apply Rle_trans with (r * (3.2 * U) * 1 + r * (3.2 * U) * 1).
    - eapply Rle_trans; [apply Rabs_triang|]. apply Rplus_le_compat; apply abs_mul_bd; (assumption || (apply Rabs_le; lra)).
    - assert (r * (3.2 * U) <= r * 0.0001) by (apply Rmult_le_compat_l; lra). lra. }
  assert (B2 : Rabs (dx * s - dy * c) <= r * (3.11 * U)).
  { (* 2 |s c| <= 1 *)
    assert (SCB : 2 * (Rabs s * Rabs c) <= 1) by (pose proof (Rle_0_sqr (Rabs s - Rabs c)) as Z; unfold Rsqr in Z; assert (Rabs s * Rabs s + Rabs c * Rabs c = 1) by (rewrite <- !Rabs_mult, !Rabs_pos_eq by apply Rle_0_sqr; exact SC); lra).
    apply Rle_trans with (r * (3.1 * U * Rabs c + e) * Rabs s + r * (3.1 * U * Rabs s + e) * Rabs c).
    - unfold Rminus. eapply Rle_trans; [apply Rabs_triang|]. rewrite Rabs_Ropp, !Rabs_mult. apply Rplus_le_compat; apply Rmult_le_compat_r; try apply Rabs_pos; assumption.
    - replace (r * (3.1 * U * Rabs c + e) * Rabs s + r * (3.1 * U * Rabs s + e) * Rabs c) with (r * (3.1 * U * (2 * (Rabs s * Rabs c)) + e * (Rabs s + Rabs c))) by ring.
      apply Rmult_le_compat_l; [lra|]. assert (3.1 * U * (2 * (Rabs s * Rabs c)) <= 3.1 * U * 1) by (apply Rmult_le_compat_l; lra).
      assert (e * (Rabs s + Rabs c) <= / 10 ^ 60 * 2) by (apply Rmult_le_compat; try lra; [pose proof (Rabs_pos s); pose proof (Rabs_pos c); lra|assert (Rabs s <= 1) by (apply Rabs_le; lra); assert (Rabs c <= 1) by (apply Rabs_le; lra); lra]). lra. }
  rewrite <- CRO in B2. set (d := x * c + y * s) in *. set (k := x * s - y * c) in *.
  assert (D0 : 0.999 * r <= d) by (rewrite DOT; apply Rabs_le_inv in B1; lra).
  assert (DD : 0.999 * r * (0.999 * r) <= d * d) by (apply Rmult_le_compat; lra). assert (K0 : 0 <= k * k) by apply Rle_0_sqr.
  assert (R2 : 0 < r * r) by (apply Rmult_lt_0_compat; lra).
  assert (PV : p * p = d * d + k * k) by (unfold p; rewrite sqrt_sqrt; [exact PP|rewrite PP; lra]).
  assert (PL : 0.999 * r <= p). { unfold p. rewrite PP. rewrite <- (sqrt_square (0.999 * r)) by lra. apply sqrt_le_1; lra. }
  destruct (cos_atan2 x y p ltac:(lra) ltac:(unfold p; rewrite sqrt_sqrt; [reflexivity|rewrite PP; lra])) as [AC AS].
  pose proof (Ratan2_range y x) as TR. set (t := Ratan2 y x) in *.
  assert (CT : cos (t - lo) = d / p) by (rewrite cos_minus; fold c s; rewrite AC, AS; unfold d; field; lra).
  destruct (L_PGeoTrip.reduce_turn (t - lo)) as [n Hn]. destruct (L_ApxMod.trig_turns (t - lo) n) as [TC _].
  set (q := t - lo + IZR n * (2 * PI)) in *.
  assert (SM : Rabs q <= 6 / 5 * (4.45 * U)).
  { apply L_PGeoTrip.small_angle; [exact Hn|lra|]. rewrite TC, CT.
    assert (DP : d <= p). { apply Rnot_lt_le. intros L. assert (p * p < d * d) by (apply Rmult_le_0_lt_compat; lra). lra. }
    replace (2 * (1 - d / p)) with (2 * (k * k) / (p * (p + d))) by (replace (k * k) with (p * p - d * d) by lra; field; lra).
    apply div_le; [apply Rmult_lt_0_compat; lra|].
    assert (KK : k * k <= r * (3.11 * U) * (r * (3.11 * U))) by (rewrite <- (Rabs_pos_eq (k * k)) by exact K0; apply abs_mul_bd; exact B2).
    assert (PD : 0.999 * r * (1.998 * r) <= p * (p + d)) by (apply Rmult_le_compat; lra).
    assert (UU : 0 <= U * U) by apply Rle_0_sqr.
    apply Rle_trans with (4.45 * U * (4.45 * U) * (0.999 * r * (1.998 * r))); [|apply Rmult_le_compat_l; [apply Rle_0_sqr|exact PD]].
    assert (0 <= U * U * (r * r)) by (apply Rmult_le_pos; lra). lra. }
  assert (NZ : n = 0%Z).
  { assert (NB : (-1 <= n <= 1)%Z).
    { assert (QB : Rabs q <= 0.1) by lra. apply Rabs_le_inv in QB. unfold q in QB. split.
      - apply Z.lt_succ_r, lt_IZR. apply Rnot_le_lt. intros L. assert (IZR n <= -2) by (change (-2) with (IZR (-2)); apply IZR_le; apply le_IZR in L; lia). assert (IZR n * (2 * PI) <= -2 * (2 * PI)) by (apply Rmult_le_compat_r; lra). lra.
      - apply Z.lt_succ_r, lt_IZR. apply Rnot_le_lt. intros L. assert (2 <= IZR n) by (change 2 with (IZR 2) at 1; apply IZR_le; apply le_IZR in L; lia). assert (2 * (2 * PI) <= IZR n * (2 * PI)) by (apply Rmult_le_compat_r; lra). lra. }
    assert (QB : Rabs q <= 0.1) by lra. apply Rabs_le_inv in QB. unfold q in QB.
    assert (SY : p * sin t = y) by (rewrite AS; field; lra).
    assert (CS : (n = -1 \/ n = 0 \/ n = 1)%Z) by lia. destruct CS as [-> | [-> | ->]]; [|reflexivity|]; exfalso.
    - (* t = lo + 2 pi *)
      assert (LL : PI / 2 <= Rabs lo) by (rewrite Rabs_left1; lra). specialize (YS LL).
      assert (0 <= sin t) by (apply sin_ge_0; lra). assert (0 <= p * sin t) by (apply Rmult_le_pos; lra). rewrite SY in H0. assert (lo < 0) by lra. pose proof (Rmult_le_pos y (- lo) H0 ltac:(lra)). lra.
    - assert (LL : PI / 2 <= Rabs lo) by (rewrite Rabs_pos_eq; lra). specialize (YS LL).
      assert (sin t <= 0). { rewrite <- (Ropp_involutive (sin t)), <- sin_neg. assert (0 <= sin (- t)) by (apply sin_ge_0; lra). lra. }
      assert (0 <= p * - sin t) by (apply Rmult_le_pos; lra). assert (0 < lo) by lra. pose proof (Rmult_le_pos (- y) lo ltac:(lra) ltac:(lra)). lra. }
  unfold q in SM. rewrite NZ, Rmult_0_l, Rplus_0_r in SM. lra.
Qed.

(** ** The longitude comes back *)

Lemma coord : forall r q c x e, 0 < r -> / 10 ^ 10 <= r -> 0 <= e -> Rabs (q - c) <= 2 * U * Rabs c + e -> Rabs (x - r * q) <= U * Rabs (r * q) + e -> Rabs c <= 1 -> e <= / 10 ^ 80 ->
  Rabs (x - r * c) <= r * (3.1 * U * Rabs c + / 10 ^ 60).
Proof.
  intros r q c x e R0 RL E0 HQ HX C1 HE. pose proof U_pos as UP.
  assert (QB : Rabs q <= 1.001 * Rabs c + e).
  { replace q with (c + (q - c)) by ring. eapply Rle_trans; [apply Rabs_triang|]. assert (U * Rabs c <= 0.0001 * Rabs c) by (apply Rmult_le_compat_r; [apply Rabs_pos|unfold U; lra]); pose proof (Rabs_pos c). lra. }
  replace (x - r * c) with (x - r * q + r * (q - c)) by ring. eapply Rle_trans; [apply Rabs_triang|]. rewrite Rabs_mult, (Rabs_pos_eq r) by lra.
  rewrite Rabs_mult, (Rabs_pos_eq r) in HX by lra.
  assert (K1 : r * Rabs (q - c) <= r * (2 * U * Rabs c + e)) by (apply Rmult_le_compat_l; [lra|exact HQ]).
  assert (K2 : U * (r * Rabs q) <= U * (r * (1.001 * Rabs c + e))) by (apply Rmult_le_compat_l; [lra|]; apply Rmult_le_compat_l; lra).
  assert (K3 : e <= r * (10 ^ 10 * e)). { assert (/ 10 ^ 10 * (10 ^ 10 * e) <= r * (10 ^ 10 * e)) by (apply Rmult_le_compat_r; lra). lra. }
  assert (K4 : r * (U * e) <= r * (0.001 * e)) by (apply Rmult_le_compat_l; [lra|]; apply Rmult_le_compat_r; lra).
  assert (K5 : r * e <= r * / 10 ^ 80) by (apply Rmult_le_compat_l; lra).
  assert (K6 : 0 <= r * (U * Rabs c)) by (apply Rmult_le_pos; [lra|apply Rmult_le_pos; [lra|apply Rabs_pos]]). lra.
Qed.

Lemma lon_tight : forall lm, good_libm lm -> sharp_libm lm -> forall c lo la h v,
  conv_new (A := b64A lm) (WGS84 (A := b64A lm)) = Ok c -> fin lo = true -> fin la = true -> fin h = true ->
  - PI <= B2R lo <= PI -> - (PI / 2) <= B2R la <= PI / 2 -> -10000 <= B2R h <= 10000 ->
  geodetic_to_geocentric (A := b64A lm) c (MkGeod (A := b64A lm) lo la h) = Ok v ->
  near (elong (A := b64A lm) (geocentric_to_geodetic (A := b64A lm) c v)) (B2R lo) (1.1 / 10 ^ 15).
Proof.
  intros lm G SH c lo la h v HC Flo Fla Fh Hlo Hla Hh V. pose proof U_pos as UP.
  pose proof (upto_pi lo Flo Hlo) as LP. pose proof (upto_half_pi la Fla Hla) as HP. pose proof L_Pi.PI_bounds_24 as PB.
  pose proof (fwd_val lm c lo la h v HC V) as EV. cbv zeta in EV. destruct (ec2_b lm c HC) as (Fe & HW & EW & FW & _). rewrite EW in HW.
  set (w := L_ApxGeo.geoW (A := b64A lm)) in *. clearbody w.
  destruct (good_sin lm G la Fla) as [Fsp Esp]. destruct (good_cos lm G la Fla) as [Fcp Ecp].
  destruct (good_sin lm G lo Flo) as [Fsl Esl]. destruct (good_cos lm G lo Flo) as [Fcl Ecl].
  pose proof (sharp_cos lm SH la Fla) as Scp. pose proof (sharp_cos lm SH lo Flo) as Scl. pose proof (sharp_sin lm SH lo Flo) as Ssl. rewrite two_U in *.
  set (sp := lm_sin lm la) in *. set (cp := lm_cos lm la) in *. set (sl := lm_sin lm lo) in *. set (cl := lm_cos lm lo) in *. clearbody sp cp sl cl.
  assert (SQ' : Rabs (B2R cp * B2R cp + B2R sp * B2R sp - 1) <= / 10 ^ 12) by (pose proof (trig_sq _ _ _ Ecp Esp); lra).
  destruct (forward w sp cp h FW HW Fsp Fcp Fh ltac:(lra) SQ') as (_ & _ & Fr & Er & Fz & Ez).
  pose proof (fA_b w sp cp h HW ltac:(lra) SQ') as AB. destruct (fB w sp cp h HW ltac:(lra) SQ') as [CB _].
  assert (T0 : 0 < bpow radix2 (-1074) <= / 10 ^ 80).
  { split; [apply bpow_gt_0|]. apply Rle_trans with (bpow radix2 (-270)); [apply bpow_le; lia|]. change (bpow radix2 (-270)) with (/ 1897137590064188545819787018382342682267975428761855001222473056385648716020711424). lra. }
  (* the cosine of the latitude is positive *)
  assert (CL : 5 / 10 ^ 17 <= cos (B2R la)).
  { apply Rle_trans with (sin (6 / 10 ^ 17)); [pose proof (L_Ellipsoid.sin_lower (6 / 10 ^ 17) ltac:(lra)); lra|].
    replace (cos (B2R la)) with (sin (PI / 2 - Rabs (B2R la))) by (rewrite sin_shift; unfold Rabs; destruct (Rcase_abs _); [apply cos_neg|reflexivity]).
    pose proof (Rabs_pos (B2R la)). apply sin_incr_1; lra. }
  assert (CP : 4 / 10 ^ 17 <= B2R cp).
  { rewrite (Rabs_pos_eq (cos (B2R la))) in Scp by lra. apply Rabs_le_inv in Scp. assert (U * cos (B2R la) <= 0.01 * cos (B2R la)) by (apply Rmult_le_compat_r; lra). lra. }
  assert (EN : fN cp = B2R cp).
  { unfold fN. rewrite Rabs_pos_eq by lra. apply Rmax_left. change (bpow radix2 (-57)) with (/ 144115188075855872). lra. }
  rewrite EN in Er. set (r := fr w sp cp h) in *. set (z := fz w sp cp h) in *. clearbody r z. set (Ar := fA w sp cp) in *.
  assert (RL : 6 * 10 ^ 6 * B2R cp <= B2R r <= 7 * 10 ^ 6 * B2R cp).
  { assert (5.6 * 6378137 * U * B2R cp <= 1 * B2R cp) by (apply Rmult_le_compat_r; [lra|unfold U; lra]).
    assert (6368000 * B2R cp <= (Ar + B2R h) * B2R cp <= 6420000 * B2R cp) by (split; apply Rmult_le_compat_r; lra). apply Rabs_le_inv in Er. lra. }
  rewrite (Rabs_pos_eq (B2R cp)) in CB by lra.
  destruct (spread r cl sl (B2R lo) Fr Fcl Fsl ltac:(rewrite Rabs_pos_eq; lra) Ecl Esl) as (Fx & Fy & EX & EY & SP).
  pose proof (COS_bound (B2R lo)) as BC. pose proof (SIN_bound (B2R lo)) as BS.
  pose proof (coord (B2R r) (B2R cl) (cos (B2R lo)) _ (bpow radix2 (-1074)) ltac:(lra) ltac:(lra) ltac:(lra) Scl EX ltac:(apply Rabs_le; lra) ltac:(lra)) as CX.
  pose proof (coord (B2R r) (B2R sl) (sin (B2R lo)) _ (bpow radix2 (-1074)) ltac:(lra) ltac:(lra) ltac:(lra) Ssl EY ltac:(apply Rabs_le; lra) ltac:(lra)) as CY.
  destruct (angle_near (B2R lo) (B2R r) _ _ (/ 10 ^ 60) LP ltac:(lra) ltac:(lra) CX CY) as [NZ AN].
  set (x := Fmul r cl) in *. set (y := Fmul r sl) in *. clearbody x y.
  (* the branch *)
  rewrite (Rabs_pos_eq (B2R r)) in SP by lra.
  set (P2 := B2R x * B2R x + B2R y * B2R y) in *. assert (P20 : 0 <= P2) by (unfold P2; pose proof (Rle_0_sqr (B2R x)); pose proof (Rle_0_sqr (B2R y)); unfold Rsqr in *; lra).
  assert (SL : / 10 ^ 10 <= sqrt P2 <= 8 * 10 ^ 6).
  { apply Rabs_le_inv in SP. assert (U * B2R r <= 0.01 * B2R r) by (apply Rmult_le_compat_r; lra). lra. }
  assert (PL : / 10 ^ 10 * / 10 ^ 10 <= P2 <= 8 * 10 ^ 6 * (8 * 10 ^ 6)) by (rewrite <- (sqrt_sqrt P2) by exact P20; split; apply Rmult_le_compat; lra).
  destruct (L_PAccGd.p2_F x y Fx Fy ltac:(fold P2; lra)) as (Fp & Pp & Ep). fold P2 in Ep.
  assert (PG : 0 < B2R (Fadd (Fmul x x) (Fmul y y))).
  { assert (bpow radix2 (-1000) <= 0.1 * / 10 ^ 20). { apply Rle_trans with (bpow radix2 (-70)); [apply bpow_le; lia|]. change (bpow radix2 (-70)) with (/ 1180591620717411303424). lra. }
    assert (2.001 * U * P2 <= 0.1 * P2) by (apply Rmult_le_compat_r; lra). apply Rabs_le_inv in Ep. lra. }
  rewrite EV. unfold geocentric_to_geodetic. cbn [v0 v1 v2]. unfold sq. b64A_ops.
  destruct (gc2gd_phi_height (A := b64A lm) c (Fadd (Fmul x x) (Fmul y y)) (Babs z)) as [ph hh]. cbn [elong].
  destruct lit_0 as [L0 LF]. rewrite Bltb_correct by assumption. rewrite L0. rewrite Rlt_bool_true by exact PG.
  destruct (good_atan2 lm G y x Fy Fx) as [FA _]; [destruct NZ; [right; assumption|left; lra]|]. split; [exact FA|].
  pose proof (sharp_atan2 lm SH y x Fy Fx NZ) as SA. assert (51 = 52 - 1)%Z by reflexivity. change (-51)%Z with (1 + -52)%Z in SA. rewrite bpow_plus, two_U in SA. change (bpow radix2 1) with 2 in SA.
  apply Rabs_le_inv in SA. apply Rabs_le_inv in AN. apply Rabs_le. assert (9.5 * U <= 1.1 / 10 ^ 15) by (unfold U; lra). lra.
Qed.
