(** * The round trip of the WGS84 conversions near the ground: a tight bound on the
    height (for C75 and C101) *)

From Coq Require Import ZArith Reals Lra Lia Bool List Psatz.
From Flocq Require Import Core BinarySingleNaN.
From Verif Require Import Outcome Arith ArithR ArithF Spec_Float Spec_Accuracy M_Common M_Ellipsoid Spec_Matrix Spec_Geo.
From Verif Require Import L_ArithF L_ArithR L_Flit L_PMatrix L_Rel L_Ellipsoid L_Halley L_ApxGd.
From Verif Require L_Pi L_Apx L_ApxMod L_ApxGeo L_PAccGeo L_PAccGd L_PEllipsoid L_PSunAngle L_PGeoTrip.
Open Scope R_scope.

(** ** The support function of the ellipse *)

Lemma support : forall W C s ct st, 0 < W -> 0 < C * C + W * (s * s) -> 0 < ct * ct + W * (st * st) -> 0 < C * ct + W * (s * st) ->
  let D := C * C + W * (s * s) in let E := ct * ct + W * (st * st) in
  0 <= sqrt E - (C * ct + W * (s * st)) / sqrt D <= W * ((C * st - s * ct) * (C * st - s * ct)) / (D * sqrt E).
Proof.
  intros W C s ct st W0 HD HE HT D E. fold D in HD. fold E in HE. set (T := C * ct + W * (s * st)) in *. set (q := C * st - s * ct).
  assert (ID : D * E - T * T = W * (q * q)) by (unfold D, E, T, q; ring).
  assert (SD : 0 < sqrt D) by (apply sqrt_lt_R0; exact HD). assert (SE : 0 < sqrt E) by (apply sqrt_lt_R0; exact HE).
  assert (DD : sqrt D * sqrt D = D) by (apply sqrt_sqrt; lra). assert (EE : sqrt E * sqrt E = E) by (apply sqrt_sqrt; lra).
  set (d := sqrt D) in *. set (e := sqrt E) in *. clearbody d e T q.
  assert (Q : 0 <= W * (q * q)) by (apply Rmult_le_pos; [lra|apply Rle_0_sqr]).
  assert (DE : D * E = d * e * (d * e)) by (rewrite <- DD, <- EE; ring).
  assert (P : 0 < d * e) by (apply Rmult_lt_0_compat; assumption).
  assert (TL : T <= d * e) by (apply Rnot_lt_le; intros L; assert (d * e * (d * e) < T * T) by (apply Rmult_le_0_lt_compat; lra); lra).
  replace (e - T / d) with ((d * e - T) / d) by (field; lra). split.
  - apply Rmult_le_pos; [lra|]. left. apply Rinv_0_lt_compat, SD.
  - apply (div_le _ d); [exact SD|]. replace (W * (q * q) / (D * e) * d) with (W * (q * q) / (d * e)) by (rewrite <- DD; field; lra).
    rewrite <- ID, DE. apply (Rmult_le_reg_r (d * e)); [exact P|].
    replace ((d * e * (d * e) - T * T) / (d * e) * (d * e)) with ((d * e - T) * (d * e + T)) by (field; lra).
    apply Rmult_le_compat_l; lra.
Qed.

(** ** A rounded [x^2 + w y^2], to three units of itself *)

Lemma rnd_t : forall t, Rabs (rnd t - t) <= U * Rabs t + bpow radix2 (-1074).
Proof.
  intros t. pose proof (rnd_rel t) as H. change (bpow radix2 (-52)) with (/ 4503599627370496) in H. pose proof (bpow_gt_0 radix2 (-1074)). unfold U. lra.
Qed.

Lemma tiny : forall m, bpow radix2 (-60) <= m -> bpow radix2 (-1074) <= U * (m * m) / 10 ^ 6.
Proof.
  intros m H. apply Rle_trans with (bpow radix2 (-53) * (bpow radix2 (-60) * bpow radix2 (-60)) * bpow radix2 (-20)).
  { rewrite <- !bpow_plus. apply bpow_le. lia. }
  change (bpow radix2 (-53)) with U. change (bpow radix2 (-20)) with (/ 1048576). pose proof (bpow_gt_0 radix2 (-60)).
  assert (bpow radix2 (-60) * bpow radix2 (-60) <= m * m) by (apply Rmult_le_compat; lra). pose proof U_pos.
  assert (U * (bpow radix2 (-60) * bpow radix2 (-60)) <= U * (m * m)) by (apply Rmult_le_compat_l; lra).
  assert (0 <= U * (m * m)) by (apply Rmult_le_pos; [lra|apply Rle_0_sqr]). lra.
Qed.

Lemma two : forall m t, bpow radix2 (-60) <= m <= 2 -> Rabs t <= 4.1 * (m * m) -> small t.
Proof.
  intros m t H T. apply (small_le _ 10); [lia|]. pose proof (bpow_gt_0 radix2 (-60)). assert (m * m <= 2 * 2) by (apply Rmult_le_compat; lra).
  change (bpow radix2 10) with 1024. lra.
Qed.

(** The last step: the sum of two squares, one of them weighted. *)
Lemma sum3 : forall p q X Y m, bpow radix2 (-60) <= m <= 2 -> fin p = true -> fin q = true -> 0 <= X -> 0 <= Y -> X + Y <= 1.01 * (m * m) -> 0.9 * (m * m) <= X + Y ->
  Rabs (B2R p - X) <= 1.001 * U * X + 3 * (U * (m * m) / 10 ^ 6) -> Rabs (B2R q - Y) <= 2.001 * U * Y + 3 * (U * (m * m) / 10 ^ 6) ->
  fin (Fadd p q) = true /\ Rabs (B2R (Fadd p q) - (X + Y)) <= 3.005 * U * (X + Y) /\
  fin (Fadd q p) = true /\ Rabs (B2R (Fadd q p) - (X + Y)) <= 3.005 * U * (X + Y).
Proof.
  intros p q X Y m Hm Fp Fq X0 Y0 HS HL EP EQ. pose proof U_pos as UP. pose proof (bpow_gt_0 radix2 (-60)) as B60.
  pose proof (tiny m (proj1 Hm)) as TT. set (M2 := m * m) in *. assert (M0 : 0 < M2) by (unfold M2; apply Rmult_lt_0_compat; lra).
  set (t := B2R p + B2R q).
  assert (UM : 0 <= U * M2 <= 0.000001 * M2) by (split; [apply Rmult_le_pos; lra|apply Rmult_le_compat_r; lra]).
  assert (UX : 0 <= U * X) by (apply Rmult_le_pos; lra). assert (UY : 0 <= U * Y) by (apply Rmult_le_pos; lra).
  assert (UXY : U * X + U * Y <= 1.01 * (U * M2)) by (replace (U * X + U * Y) with (U * (X + Y)) by ring; replace (1.01 * (U * M2)) with (U * (1.01 * M2)) by ring; apply Rmult_le_compat_l; lra).
  assert (UXL : 0.9 * (U * M2) <= U * X + U * Y) by (replace (U * X + U * Y) with (U * (X + Y)) by ring; replace (0.9 * (U * M2)) with (U * (0.9 * M2)) by ring; apply Rmult_le_compat_l; lra).
  apply Rabs_le_inv in EP. apply Rabs_le_inv in EQ.
  assert (TB : 0 <= t <= 1.00001 * (X + Y)) by (unfold t; lra).
  assert (SM : small t) by (apply (two m); [exact Hm|]; fold M2; rewrite Rabs_pos_eq; lra).
  pose proof (rnd_t t) as RT. rewrite (Rabs_pos_eq t) in RT by lra.
  assert (UT : U * t <= 1.00001 * (U * X + U * Y)) by (replace (1.00001 * (U * X + U * Y)) with (U * (1.00001 * (X + Y))) by ring; apply Rmult_le_compat_l; lra).
  assert (FIN : Rabs (rnd t - (X + Y)) <= 3.005 * U * (X + Y)).
  { apply Rabs_le_inv in RT. apply Rabs_le. unfold t in *. lra. }
  destruct (Fadd_ok p q Fp Fq SM) as [E1 F1]. destruct (Fadd_ok q p Fq Fp) as [E2 F2]; [rewrite Rplus_comm; exact SM|].
  rewrite Rplus_comm in E2. fold t in E1, E2. rewrite E1, E2. auto.
Qed.

Lemma square_F : forall x m, bpow radix2 (-60) <= m <= 2 -> fin x = true -> Rabs (B2R x) <= m * 1.001 ->
  fin (Fmul x x) = true /\ 0 <= B2R (Fmul x x) /\ Rabs (B2R (Fmul x x) - B2R x * B2R x) <= U * (B2R x * B2R x) + U * (m * m) / 10 ^ 6 /\ B2R x * B2R x <= 1.01 * (m * m).
Proof.
  intros x m Hm F B. pose proof (bpow_gt_0 radix2 (-60)) as B60. pose proof (tiny m (proj1 Hm)) as TT.
  assert (Q : Rabs (B2R x * B2R x) <= m * 1.001 * (m * 1.001)) by (apply abs_mul_bd; exact B).
  assert (0 < m * m) by (apply Rmult_lt_0_compat; lra). pose proof (Rle_0_sqr (B2R x)) as X0. unfold Rsqr in X0. rewrite Rabs_pos_eq in Q by exact X0.
  destruct (Fmul_ok x x F F) as [E FF]; [apply (two m); [exact Hm|rewrite Rabs_pos_eq by exact X0; lra]|].
  split; [exact FF|]. rewrite E. split; [apply L_PAccGd.rnd_ge_0; exact X0|].
  pose proof (rnd_t (B2R x * B2R x)) as R. rewrite (Rabs_pos_eq (B2R x * B2R x)) in R by exact X0. split; lra.
Qed.

(** The two ways the program groups the weighted square. *)
Lemma wsq_F : forall w x y m, bpow radix2 (-60) <= m <= 2 -> fin w = true -> 0.99 <= B2R w <= 1 -> fin x = true -> fin y = true ->
  Rabs (B2R x) <= m * 1.001 -> Rabs (B2R y) <= m * 1.001 -> let W := B2R w in let D := B2R x * B2R x + W * (B2R y * B2R y) in
  D <= 1.01 * (m * m) -> 0.9 * (m * m) <= D ->
  (fin (Fadd (Fmul x x) (Fmul (Fmul w y) y)) = true /\ Rabs (B2R (Fadd (Fmul x x) (Fmul (Fmul w y) y)) - D) <= 3.005 * U * D) /\
  (fin (Fadd (Fmul w (Fmul y y)) (Fmul x x)) = true /\ Rabs (B2R (Fadd (Fmul w (Fmul y y)) (Fmul x x)) - D) <= 3.005 * U * D).
Proof.
  intros w x y m Hm Fw HW Fx Fy Bx By W D HD HL. fold W in HW. pose proof U_pos as UP. pose proof (bpow_gt_0 radix2 (-60)) as B60. pose proof (tiny m (proj1 Hm)) as TT.
  destruct (square_F x m Hm Fx Bx) as (F1 & P1 & E1 & _). destruct (square_F y m Hm Fy By) as (F2 & P2 & E2 & S2).
  set (M2 := m * m) in *. assert (M0 : 0 < M2) by (unfold M2; apply Rmult_lt_0_compat; lra).
  set (X := B2R x * B2R x) in *. set (Y := B2R y * B2R y) in *. assert (X0 : 0 <= X) by apply Rle_0_sqr. assert (Y0 : 0 <= Y) by apply Rle_0_sqr.
  assert (UM : 0 <= U * M2 <= 0.000001 * M2) by (split; [apply Rmult_le_pos; lra|apply Rmult_le_compat_r; lra]).
  assert (UX : 0 <= U * X) by (apply Rmult_le_pos; lra). assert (UY : 0 <= U * Y) by (apply Rmult_le_pos; lra).
  assert (UYM : U * Y <= 1.01 * (U * M2)) by (replace (1.01 * (U * M2)) with (U * (1.01 * M2)) by ring; apply Rmult_le_compat_l; lra).
  assert (WY : 0 <= W * Y <= Y) by (split; [apply Rmult_le_pos; lra|]; rewrite <- (Rmult_1_l Y) at 2; apply Rmult_le_compat_r; lra).
  assert (UWY : 0 <= U * (W * Y) <= U * Y) by (split; [apply Rmult_le_pos; lra|apply Rmult_le_compat_l; lra]).
  (* (w y) y *)
  assert (A : fin (Fmul (Fmul w y) y) = true /\ Rabs (B2R (Fmul (Fmul w y) y) - W * Y) <= 2.001 * U * (W * Y) + 3 * (U * M2 / 10 ^ 6)).
  { set (ay := Rabs (B2R y)) in *. assert (AY : ay * ay = Y) by (unfold ay, Y; rewrite <- Rabs_mult; apply Rabs_pos_eq, Y0). assert (A0 : 0 <= ay) by apply Rabs_pos.
    assert (AW : Rabs (W * B2R y) = W * ay) by (rewrite Rabs_mult, (Rabs_pos_eq W) by lra; reflexivity).
    assert (WA : 0 <= W * ay <= ay) by (split; [apply Rmult_le_pos; lra|]; rewrite <- (Rmult_1_l ay) at 2; apply Rmult_le_compat_r; lra).
    destruct (Fmul_ok w y Fw Fy) as [E3 F3]; [fold W; apply (small_le _ 2); [lia|]; rewrite AW; change (bpow radix2 2) with 4; lra|]. fold W in E3.
    pose proof (rnd_t (W * B2R y)) as R3. rewrite AW in R3. set (wy := B2R (Fmul w y)) in *.
    assert (D3 : Rabs (wy * B2R y - W * Y) <= U * (W * Y) + bpow radix2 (-1074) * 3).
    { replace (wy * B2R y - W * Y) with ((wy - W * B2R y) * B2R y) by (unfold Y; ring). rewrite Rabs_mult. fold ay. rewrite E3.
      apply Rle_trans with ((U * (W * ay) + bpow radix2 (-1074)) * ay); [apply Rmult_le_compat_r; lra|].
      replace ((U * (W * ay) + bpow radix2 (-1074)) * ay) with (U * (W * (ay * ay)) + bpow radix2 (-1074) * ay) by ring. rewrite AY.
      pose proof (bpow_gt_0 radix2 (-1074)). assert (bpow radix2 (-1074) * ay <= bpow radix2 (-1074) * 3) by (apply Rmult_le_compat_l; lra). assert (0 <= U * (m * m)) by (apply Rmult_le_pos; [lra|apply Rle_0_sqr]). lra. }
    assert (TT3 : bpow radix2 (-1074) * 7 <= 7 * (U * M2 / 10 ^ 6)) by lra. 
    assert (TT4 : bpow radix2 (-1074) * 10 ^ 6 <= U * M2).
    { pose proof (tiny m (proj1 Hm)). fold M2 in H. lra. }
    assert (TT5 : bpow radix2 (-1074) * 5 <= 2.9 * (U * M2 / 10 ^ 6)).
    { clear -B60 Hm M0. unfold M2. apply Rle_trans with (bpow radix2 (-1071)).
      - replace (bpow radix2 (-1071)) with (bpow radix2 (-1074) * bpow radix2 3) by (rewrite <- bpow_plus; reflexivity). change (bpow radix2 3) with 8. pose proof (bpow_gt_0 radix2 (-1074)). lra.
      - apply Rle_trans with (bpow radix2 (-53) * (bpow radix2 (-60) * bpow radix2 (-60)) * bpow radix2 (-20)).
        { rewrite <- !bpow_plus. apply bpow_le. lia. }
        change (bpow radix2 (-53)) with U. change (bpow radix2 (-20)) with (/ 1048576).
        assert (bpow radix2 (-60) * bpow radix2 (-60) <= m * m) by (apply Rmult_le_compat; lra). pose proof U_pos.
        assert (U * (bpow radix2 (-60) * bpow radix2 (-60)) <= U * (m * m)) by (apply Rmult_le_compat_l; lra). assert (0 <= U * (m * m)) by (apply Rmult_le_pos; [lra|apply Rle_0_sqr]). lra. }
    apply Rabs_le_inv in D3.
    assert (SM : Rabs (wy * B2R y) <= 1.00001 * (W * Y) + 4 * bpow radix2 (-1074)).
    { apply Rabs_le. assert (U * (W * Y) <= 0.000001 * (W * Y)) by (apply Rmult_le_compat_r; lra). pose proof (bpow_gt_0 radix2 (-1074)). lra. }
    destruct (Fmul_ok (Fmul w y) y F3 Fy) as [E4 F4]; [fold wy; apply (two m); [exact Hm|fold M2; lra]|]. fold wy in E4.
    split; [exact F4|]. rewrite E4. pose proof (rnd_t (wy * B2R y)) as R4.
    assert (UU : U * Rabs (wy * B2R y) <= U * (1.00001 * (W * Y) + 4 * bpow radix2 (-1074))) by (apply Rmult_le_compat_l; lra).
    assert (UT : U * (4 * bpow radix2 (-1074)) <= 0.1 * bpow radix2 (-1074)) by (pose proof (bpow_gt_0 radix2 (-1074)); rewrite <- Rmult_assoc; apply Rmult_le_compat_r; lra).
    apply Rabs_le_inv in R4. apply Rabs_le. lra. }
  (* w (y y) *)
  assert (B : fin (Fmul w (Fmul y y)) = true /\ Rabs (B2R (Fmul w (Fmul y y)) - W * Y) <= 2.001 * U * (W * Y) + 3 * (U * M2 / 10 ^ 6)).
  { set (yy := B2R (Fmul y y)) in *. apply Rabs_le_inv in E2.
    assert (D3 : Rabs (W * yy - W * Y) <= U * (W * Y) + U * M2 / 10 ^ 6).
    { replace (W * yy - W * Y) with (W * (yy - Y)) by ring. rewrite Rabs_mult, (Rabs_pos_eq W) by lra.
      apply Rle_trans with (W * (U * Y + U * M2 / 10 ^ 6)); [apply Rmult_le_compat_l; [lra|apply Rabs_le; lra]|].
      assert (W * (U * M2 / 10 ^ 6) <= 1 * (U * M2 / 10 ^ 6)) by (apply Rmult_le_compat_r; lra). lra. }
    assert (S3 : 0 <= W * yy <= 1.00001 * (W * Y) + U * M2 / 10 ^ 6).
    { split; [apply Rmult_le_pos; lra|]. apply Rabs_le_inv in D3. assert (U * (W * Y) <= 0.000001 * (W * Y)) by (apply Rmult_le_compat_r; lra). lra. }
    destruct (Fmul_ok w (Fmul y y) Fw F2) as [E4 F4]; [fold W yy; apply (two m); [exact Hm|fold M2; rewrite Rabs_pos_eq; lra]|]. fold W yy in E4.
    split; [exact F4|]. rewrite E4. pose proof (rnd_t (W * yy)) as R4. rewrite (Rabs_pos_eq (W * yy)) in R4 by lra.
    assert (UU : U * (W * yy) <= U * (1.00001 * (W * Y) + U * M2 / 10 ^ 6)) by (apply Rmult_le_compat_l; lra).
    assert (UT : U * (U * M2 / 10 ^ 6) <= 0.1 * (U * M2 / 10 ^ 6)) by (apply Rmult_le_compat_r; lra).
    apply Rabs_le_inv in D3. apply Rabs_le_inv in R4. apply Rabs_le. lra. }
  destruct A as [FA EA]. destruct B as [FB EB].
  assert (E1' : Rabs (B2R (Fmul x x) - X) <= 1.001 * U * X + 3 * (U * M2 / 10 ^ 6)) by lra.
  unfold D in HD, HL |- *. split.
  - destruct (sum3 _ _ X (W * Y) m Hm F1 FA X0 (proj1 WY) HD HL E1' EA) as (R1 & R2 & _). split; assumption.
  - destruct (sum3 _ _ X (W * Y) m Hm F1 FB X0 (proj1 WY) HD HL E1' EB) as (_ & _ & R1 & R2). split; assumption.
Qed.

(** ** Geodetic to geocentric *)

Section Forward.
Variables w sp cp h : b64.
Hypothesis Fw : fin w = true.
Hypothesis HW : 0.9933 <= B2R w <= 0.99331.
Hypothesis Fs : fin sp = true.
Hypothesis Fc : fin cp = true.
Hypothesis Fh : fin h = true.
Hypothesis Hh : -10001 <= B2R h <= 10001.
Hypothesis SC : Rabs (B2R cp * B2R cp + B2R sp * B2R sp - 1) <= / 10 ^ 12.

Definition fD : R := B2R cp * B2R cp + B2R w * (B2R sp * B2R sp).
Definition fA : R := 6378137 / sqrt fD.
Definition fd : b64 := Fadd (Fmul cp cp) (Fmul (Fmul w sp) sp).
Definition fac : b64 := Fdiv (Flit 6378137 0) (Fsqrt fd).
Definition fr : b64 := Fmul (Fadd fac h) cp.
Definition fz : b64 := Fmul (Fadd (Fmul w fac) h) sp.
Definition fN : R := Rmax (Rabs (B2R cp)) (bpow radix2 (-57)).

Lemma fB : Rabs (B2R cp) <= 1.0001 /\ Rabs (B2R sp) <= 1.0001 /\ 0.99329 <= fD <= 1.00001.
Proof.
  pose proof (Rle_0_sqr (B2R cp)) as C0. pose proof (Rle_0_sqr (B2R sp)) as S0. unfold Rsqr in C0, S0. pose proof SC as H. apply Rabs_le_inv in H.
  assert (K : forall t, t * t <= 1.0001 -> Rabs t <= 1.0001) by (intros t T; apply Rabs_le; split; nra).
  split; [apply K; lra|]. split; [apply K; lra|]. unfold fD. set (C2 := B2R cp * B2R cp) in *. set (S2 := B2R sp * B2R sp) in *. clearbody C2 S2.
  pose proof HW as W. set (v := B2R w) in *. clearbody v. split; nra.
Qed.
Lemma fSD : 0.9966 <= sqrt fD <= 1.00001.
Proof.
  destruct fB as (_ & _ & D). split.
  - rewrite <- (sqrt_square 0.9966) by lra. apply sqrt_le_1; lra.
  - rewrite <- (sqrt_square 1.00001) by lra. apply sqrt_le_1; lra.
Qed.
Lemma fA_b : 6378073 <= fA <= 1.0035 * 6378137.
Proof.
  pose proof fSD as D. unfold fA. set (q := sqrt fD) in *. clearbody q. split.
  - apply (Rmult_le_reg_r q); [lra|]. unfold Rdiv. rewrite Rmult_assoc, Rinv_l by lra. lra.
  - apply (Rmult_le_reg_r q); [lra|]. unfold Rdiv. rewrite Rmult_assoc, Rinv_l by lra. lra.
Qed.

Lemma fN_b : bpow radix2 (-57) <= fN <= 1.001 /\ Rabs (B2R cp) <= fN.
Proof.
  destruct fB as (C & _). unfold fN. pose proof (Rmax_l (Rabs (B2R cp)) (bpow radix2 (-57))). pose proof (Rmax_r (Rabs (B2R cp)) (bpow radix2 (-57))).
  split; [|lra]. split; [lra|]. apply Rmax_lub; [lra|]. change (bpow radix2 (-57)) with (/ 144115188075855872). lra.
Qed.

Lemma forward : fin fd = true /\ 0 < B2R fd /\
  fin fr = true /\ Rabs (B2R fr - (fA + B2R h) * B2R cp) <= 5.6 * 6378137 * U * fN /\
  fin fz = true /\ Rabs (B2R fz - (B2R w * fA + B2R h) * B2R sp) <= 6.56 * 6378137 * U.
Proof.
  destruct fB as (CB & SB & DB). pose proof fSD as SD. pose proof fA_b as AB. destruct fN_b as [NB CN].
  assert (HN : bpow radix2 (-57) <= fN <= 1.001) by exact NB. assert (HR : 0.9 <= 1.001 <= 1024) by lra.
  pose proof U_pos as UP.
  assert (M00 : M fN 1.001 0 0 = 1) by (unfold M; cbn [pow]; ring). assert (M10 : M fN 1.001 1 0 = fN) by (unfold M; cbn [pow]; ring).
  destruct (wsq_F w cp sp 1) as [[Fd Ed] _]; try assumption; try lra.
  { change (bpow radix2 (-60)) with (/ 1152921504606846976). lra. }
  { fold fD. lra. } { fold fD. lra. }
  fold fD in Ed. fold fd in Fd, Ed.
  assert (DP : 0 < B2R fd) by (apply Rabs_le_inv in Ed; assert (U * fD <= 0.001 * fD) by (apply Rmult_le_compat_r; lra); lra).
  split; [exact Fd|]. split; [exact DP|].
  assert (H1 : er fN 1.001 fd fD 3.006 1.00001 0 0).
  { split; [exact Fd|]. rewrite M00, !Rmult_1_r. split; [|rewrite Rabs_pos_eq by lra; repeat split; (lra || lia)].
    eapply Rle_trans; [exact Ed|]. assert (U * fD <= U * 1.00001) by (apply Rmult_le_compat_l; lra). lra. }
  assert (H2 : er fN 1.001 (Fsqrt fd) (sqrt fD) 2.52 1.00001 0 0).
  { apply (er_sqrt fN 1.001 HN HR fd fD 3.006 1.00001 0 0 2.52 1.00001 0.9966 H1); try lra. cbn [Nat.add]. rewrite M00. lra. }
  assert (Fl : er fN 1.001 (Flit 6378137 0) 6378137 0 6378137 0 0).
  { destruct (Flit_int 6378137 ltac:(lia)) as [E F]. apply er_exact; [exact F|exact E|rewrite M00, Rabs_pos_eq; lra|lra|lia|lia]. }
  assert (H3 : er fN 1.001 fac fA (3.55 * 6378137) (1.0035 * 6378137) 0 0).
  { unfold fac, fA. apply (er_div fN 1.001 HN HR _ _ 0 6378137 0 0 _ _ 2.52 1.00001 0 0 _ _ 0.9966 Fl H2); try lra.
    - rewrite M00, Rabs_pos_eq; lra.
    - rewrite M00. fold fA. rewrite Rabs_pos_eq; lra. }
  assert (Hhh : er fN 1.001 h (B2R h) 0 10001 0 0) by (apply er_exact; [exact Fh|reflexivity|rewrite M00; apply Rabs_le; lra|lra|lia|lia]).
  assert (H4 : er fN 1.001 (Fadd fac h) (fA + B2R h) (4.562 * 6378137) (1.00507 * 6378137) 0 0).
  { apply (er_add fN 1.001 HN HR _ _ _ _ _ _ _ _ 0 0 (4.562 * 6378137) (1.00507 * 6378137) H3 Hhh); try lra. rewrite M00. apply Rabs_le. lra. }
  assert (Hc : er fN 1.001 cp (B2R cp) 0 1 1 0) by (apply er_exact; [exact Fc|reflexivity|rewrite M10; lra|lra|lia|lia]).
  assert (Hs : er fN 1.001 sp (B2R sp) 0 1.0001 0 0) by (apply er_exact; [exact Fs|reflexivity|rewrite M00; lra|lra|lia|lia]).
  assert (Hw : er fN 1.001 w (B2R w) 0 0.99331 0 0) by (apply er_exact; [exact Fw|reflexivity|rewrite M00; apply Rabs_le; lra|lra|lia|lia]).
  pose proof (er_mul fN 1.001 HN HR _ _ _ _ _ _ _ _ _ _ _ _ (5.58 * 6378137) (1.0051 * 6378137) H4 Hc ltac:(lia) ltac:(lia) ltac:(lra) ltac:(lra) ltac:(lra) ltac:(lra)) as H5. cbn [Nat.add] in H5. fold fr in H5.
  pose proof (er_mul fN 1.001 HN HR _ _ _ _ _ _ _ _ _ _ _ _ (4.54 * 6378137) (0.9968 * 6378137) Hw H3 ltac:(lia) ltac:(lia) ltac:(lra) ltac:(lra) ltac:(lra) ltac:(lra)) as H6. cbn [Nat.add] in H6.
  assert (WA : 0 <= B2R w * fA <= 0.9968 * 6378137).
  { split; [apply Rmult_le_pos; lra|]. apply Rle_trans with (0.99331 * (1.0035 * 6378137)); [apply Rmult_le_compat; lra|lra]. }
  assert (H7 : er fN 1.001 (Fadd (Fmul w fac) h) (B2R w * fA + B2R h) (5.54 * 6378137) (0.9984 * 6378137) 0 0).
  { apply (er_add fN 1.001 HN HR _ _ _ _ _ _ _ _ 0 0 (5.54 * 6378137) (0.9984 * 6378137) H6 Hhh); try lra. rewrite M00. apply Rabs_le. lra. }
  pose proof (er_mul fN 1.001 HN HR _ _ _ _ _ _ _ _ _ _ _ _ (6.55 * 6378137) (0.9986 * 6378137) H7 Hs ltac:(lia) ltac:(lia) ltac:(lra) ltac:(lra) ltac:(lra) ltac:(lra)) as H8. cbn [Nat.add] in H8. fold fz in H8.
  destruct H5 as (F5 & E5 & _). destruct H8 as (F8 & E8 & _). rewrite M10 in E5. rewrite M00 in E8.
  split; [exact F5|]. split; [|split; [exact F8|lra]].
  eapply Rle_trans; [exact E5|]. apply Rmult_le_compat_r; [pose proof (bpow_gt_0 radix2 (-57)); lra|lra].
Qed.
End Forward.

(** ** The distance from the axis *)

Lemma plane1 : forall a b c d e, 0 <= e -> (a - c) * (a - c) + (b - d) * (b - d) <= e * e -> sqrt (a * a + b * b) <= sqrt (c * c + d * d) + e.
Proof.
  intros a b c d e E0 H. pose proof (Rle_0_sqr c) as C0. pose proof (Rle_0_sqr d) as D0. unfold Rsqr in C0, D0.
  set (q := sqrt (c * c + d * d)). assert (Q0 : 0 <= q) by apply sqrt_pos. assert (QQ : q * q = c * c + d * d) by (apply sqrt_sqrt; lra).
  rewrite <- (sqrt_square (q + e)) by lra. apply sqrt_le_1; [pose proof (Rle_0_sqr a); pose proof (Rle_0_sqr b); unfold Rsqr in *; lra|apply Rle_0_sqr|].
  set (f := a - c) in *. set (g := b - d) in *. replace a with (c + f) by (unfold f; ring). replace b with (d + g) by (unfold g; ring). clearbody f g q.
  assert (CS : c * f + d * g <= q * e).
  { apply Rnot_lt_le. intros L. assert (0 <= q * e) by (apply Rmult_le_pos; assumption).
    assert (q * e * (q * e) < (c * f + d * g) * (c * f + d * g)) by (apply Rmult_le_0_lt_compat; lra).
    assert ((c * f + d * g) * (c * f + d * g) <= (c * c + d * d) * (f * f + g * g)) by (pose proof (Rle_0_sqr (c * g - d * f)); unfold Rsqr in *; lra).
    assert ((c * c + d * d) * (f * f + g * g) <= q * q * (e * e)) by (rewrite QQ; apply Rmult_le_compat_l; lra). lra. }
  lra.
Qed.
Lemma plane : forall a b c d e, 0 <= e -> (a - c) * (a - c) + (b - d) * (b - d) <= e * e -> Rabs (sqrt (a * a + b * b) - sqrt (c * c + d * d)) <= e.
Proof.
  intros a b c d e E0 H. pose proof (plane1 a b c d e E0 H). pose proof (plane1 c d a b e E0 ltac:(lra)). apply Rabs_le. lra.
Qed.

Lemma spread : forall r cl sl lo, fin r = true -> fin cl = true -> fin sl = true -> Rabs (B2R r) <= 10 ^ 7 ->
  Rabs (B2R cl - cos lo) <= 2 * U -> Rabs (B2R sl - sin lo) <= 2 * U ->
  let x := Fmul r cl in let y := Fmul r sl in
  fin x = true /\ fin y = true /\ Rabs (B2R x - B2R r * B2R cl) <= U * Rabs (B2R r * B2R cl) + bpow radix2 (-1074) /\
  Rabs (B2R y - B2R r * B2R sl) <= U * Rabs (B2R r * B2R sl) + bpow radix2 (-1074) /\
  Rabs (sqrt (B2R x * B2R x + B2R y * B2R y) - Rabs (B2R r)) <= 3.84 * U * Rabs (B2R r) + 2 * bpow radix2 (-1074).
Proof.
  intros r cl sl lo Fr Fc Fs Br Ec Es x y. pose proof U_pos as UP. pose proof (sc1 lo) as SC.
  pose proof (COS_bound lo) as CB. pose proof (SIN_bound lo) as SB.
  assert (BC : Rabs (B2R cl) <= 1.0001) by (apply Rabs_le_inv in Ec; apply Rabs_le; lra).
  assert (BS : Rabs (B2R sl) <= 1.0001) by (apply Rabs_le_inv in Es; apply Rabs_le; lra).
  assert (SM : forall t, Rabs t <= 1.0001 -> small (B2R r * t)).
  { intros t T. apply (small_le _ 30); [lia|]. change (bpow radix2 30) with 1073741824. apply Rle_trans with (10 ^ 7 * 1.0001); [|lra]. rewrite Rabs_mult. apply Rmult_le_compat; try apply Rabs_pos; assumption. }
  destruct (Fmul_ok r cl Fr Fc (SM _ BC)) as [EX FX]. destruct (Fmul_ok r sl Fr Fs (SM _ BS)) as [EY FY]. fold x in EX, FX. fold y in EY, FY.
  pose proof (rnd_t (B2R r * B2R cl)) as RX. pose proof (rnd_t (B2R r * B2R sl)) as RY. rewrite <- EX in RX. rewrite <- EY in RY.
  split; [exact FX|]. split; [exact FY|]. split; [exact RX|]. split; [exact RY|].
  set (X := B2R x) in *. set (Y := B2R y) in *. set (q := B2R r) in *. clearbody X Y q. clear EX FX EY FY Fr x y.
  set (t := bpow radix2 (-1074)) in *. assert (T0 : 0 < t) by apply bpow_gt_0. clearbody t.
  set (c := B2R cl) in *. set (s := B2R sl) in *. clearbody c s. clear cl sl Fc Fs SM.
  replace (Rabs q) with (sqrt (q * cos lo * (q * cos lo) + q * sin lo * (q * sin lo))) at 1.
  2:{ replace (q * cos lo * (q * cos lo) + q * sin lo * (q * sin lo)) with (q * q * (sin lo * sin lo + cos lo * cos lo)) by ring. rewrite SC, Rmult_1_r. apply sqrt_Rsqr_abs. }
  set (a := Rabs q) in *. assert (A0 : 0 <= a) by apply Rabs_pos. assert (UA : 0 <= U * a) by (apply Rmult_le_pos; lra).
  assert (C2 : Rabs c + Rabs s <= 1.415 /\ Rabs c * Rabs c + Rabs s * Rabs s <= 1.00001).
  { assert (Q : Rabs c * Rabs c + Rabs s * Rabs s <= 1.00001).
    { rewrite <- !Rabs_mult, !Rabs_pos_eq by apply Rle_0_sqr. set (k := cos lo) in *. set (l := sin lo) in *. clearbody k l. apply Rabs_le_inv in Ec. apply Rabs_le_inv in Es.
      replace (c * c + s * s) with ((l * l + k * k) + (c - k) * (c + k) + (s - l) * (s + l)) by ring. rewrite SC.
      assert (Rabs ((c - k) * (c + k)) <= 2 * U * 3) by (apply abs_mul_bd; apply Rabs_le; lra).
      assert (Rabs ((s - l) * (s + l)) <= 2 * U * 3) by (apply abs_mul_bd; apply Rabs_le; lra).
      apply Rabs_le_inv in H. apply Rabs_le_inv in H0. lra. }
    split; [|exact Q]. pose proof (Rabs_pos c). pose proof (Rabs_pos s). set (u := Rabs c) in *. set (v := Rabs s) in *. clearbody u v.
    apply Rnot_lt_le. intros L. assert (1.415 * 1.415 < (u + v) * (u + v)) by (apply Rmult_le_0_lt_compat; lra). pose proof (Rle_0_sqr (u - v)) as Z. unfold Rsqr in Z. lra. }
  destruct C2 as [C2 C3].
  assert (PX : Rabs (X - q * cos lo) <= U * a * (Rabs c + 2) + t).
  { replace (X - q * cos lo) with ((X - q * c) + q * (c - cos lo)) by ring. eapply Rle_trans; [apply Rabs_triang|].
    rewrite (Rabs_mult q (c - cos lo)). fold a. assert (a * Rabs (c - cos lo) <= a * (2 * U)) by (apply Rmult_le_compat_l; lra).
    rewrite Rabs_mult in RX. fold a in RX. lra. }
  assert (PY : Rabs (Y - q * sin lo) <= U * a * (Rabs s + 2) + t).
  { replace (Y - q * sin lo) with ((Y - q * s) + q * (s - sin lo)) by ring. eapply Rle_trans; [apply Rabs_triang|].
    rewrite (Rabs_mult q (s - sin lo)). fold a. assert (a * Rabs (s - sin lo) <= a * (2 * U)) by (apply Rmult_le_compat_l; lra).
    rewrite Rabs_mult in RY. fold a in RY. lra. }
  apply plane; [lra|].
  set (f := X - q * cos lo) in *. set (g := Y - q * sin lo) in *. clearbody f g. clear RX RY.
  pose proof (Rabs_pos c) as u0. pose proof (Rabs_pos s) as v0.
  set (u := Rabs c) in *. set (v := Rabs s) in *. clearbody u v.
  assert (F2 : f * f <= (U * a * (u + 2) + t) * (U * a * (u + 2) + t)).
  { rewrite <- (Rabs_pos_eq (f * f)) by apply Rle_0_sqr. apply abs_mul_bd; exact PX. }
  assert (G2 : g * g <= (U * a * (v + 2) + t) * (U * a * (v + 2) + t)).
  { rewrite <- (Rabs_pos_eq (g * g)) by apply Rle_0_sqr. apply abs_mul_bd; exact PY. }
  replace (3.84 * U * a) with (3.84 * (U * a)) by ring.
  set (k := U * a) in *. clearbody k. clear PX PY.
  assert (K1 : 0 <= k * k) by (apply Rmult_le_pos; lra). assert (K2 : 0 <= k * t) by (apply Rmult_le_pos; lra). assert (K3 : 0 <= t * t) by (apply Rmult_le_pos; lra).
  assert (S1 : (k * k) * ((u * u + v * v) + 4 * (u + v) + 8) <= (k * k) * 14.67) by (apply Rmult_le_compat_l; lra).
  assert (S2 : (k * t) * (2 * (u + v) + 8) <= (k * t) * 10.84) by (apply Rmult_le_compat_l; lra).
  lra.
Qed.

(** ** The height, given the direction *)

Lemma Rabs_le_sq : forall x y, 0 <= y -> x * x <= y * y -> Rabs x <= y.
Proof. intros x y Y H. apply Rabs_le. split; nra. Qed.
Ltac mulr_t H1 H2 k b H := epose proof (er_mul _ _ ltac:(eassumption) ltac:(eassumption) _ _ _ _ _ _ _ _ _ _ _ _ k b H1 H2 ltac:(lia) ltac:(lia) ltac:(lra) ltac:(lra) ltac:(lra) ltac:(lra)) as H; cbn [Nat.add] in H.

Lemma h_tight : forall a ec2 p z s c : b64, fin a = true -> B2R a = 6378137 -> fin ec2 = true -> 0.9933 <= B2R ec2 <= 0.99331 ->
  fin p = true -> fin z = true -> fin s = true -> fin c = true ->
  let P := B2R p in let Z := B2R z in let v := sqrt (B2R s * B2R s + B2R c * B2R c) in
  bpow radix2 (-57) <= v <= 1.9 -> P * P + Z * Z <= 1.0018 * 6378137 * (1.0018 * 6378137) ->
  let ct := B2R c / v in let st := B2R s / v in let H := P * ct + Z * st - 6378137 * sqrt (ct * ct + B2R ec2 * (st * st)) in
  Rabs H <= 0.002 * 6378137 ->
  fin (h_e a ec2 p z s c) = true /\ Rabs (B2R (h_e a ec2 p z s c) - H) <= 6.57 * 6378137 * U.
Proof.
  intros a ec2 p z s c Fa Ea Fe He Fp Fz Fs Fc P Z v Hv HPZ ct st H HH.
  assert (HN : bpow radix2 (-57) <= v <= 2) by lra. assert (HR : 0.9 <= 2 <= 1024) by lra. pose proof U_pos as UP.
  set (sr := B2R s) in *. set (cr := B2R c) in *. set (W := B2R ec2) in *.
  assert (V0 : 0 < v) by (pose proof (bpow_gt_0 radix2 (-57)); lra).
  pose proof (Rle_0_sqr sr) as S0. pose proof (Rle_0_sqr cr) as C0. unfold Rsqr in S0, C0.
  assert (VV : v * v = sr * sr + cr * cr) by (apply sqrt_sqrt; lra).
  assert (M00 : M v 2 0 0 = 1) by (unfold M; cbn [pow]; ring). assert (M10 : M v 2 1 0 = v) by (unfold M; cbn [pow]; ring). assert (M20 : M v 2 2 0 = v * v) by (unfold M; cbn [pow]; ring).
  assert (BS : Rabs sr <= v) by (apply Rabs_le; split; nra). assert (BC : Rabs cr <= v) by (apply Rabs_le; split; nra).
  assert (BP : Rabs P <= 1.0018 * 6378137) by (pose proof (Rle_0_sqr Z) as Z0; unfold Rsqr in Z0; clearbody P Z; apply Rabs_le; split; nra).
  assert (BZ : Rabs Z <= 1.0018 * 6378137) by (pose proof (Rle_0_sqr P) as Z0; unfold Rsqr in Z0; clearbody P Z; apply Rabs_le; split; nra).
  assert (Ha : er v 2 a 6378137 0 6378137 0 0) by (apply er_exact; [exact Fa|exact Ea|rewrite M00, Rabs_pos_eq; lra|lra|lia|lia]).
  assert (Hp : er v 2 p P 0 (1.0018 * 6378137) 0 0) by (apply er_exact; [exact Fp|reflexivity|rewrite M00; lra|lra|lia|lia]).
  assert (Hz : er v 2 z Z 0 (1.0018 * 6378137) 0 0) by (apply er_exact; [exact Fz|reflexivity|rewrite M00; lra|lra|lia|lia]).
  assert (Hs : er v 2 s sr 0 1 1 0) by (apply er_exact; [exact Fs|reflexivity|rewrite M10; lra|lra|lia|lia]).
  assert (Hc : er v 2 c cr 0 1 1 0) by (apply er_exact; [exact Fc|reflexivity|rewrite M10; lra|lra|lia|lia]).
  assert (WS : 0 <= W * (sr * sr) <= sr * sr) by (split; [apply Rmult_le_pos; lra|]; rewrite <- (Rmult_1_l (sr * sr)) at 2; apply Rmult_le_compat_r; lra).
  assert (WL : 0.9933 * (sr * sr) <= W * (sr * sr)) by (apply Rmult_le_compat_r; lra).
  assert (V2 : 0 < v * v) by (apply Rmult_lt_0_compat; lra).
  destruct (wsq_F ec2 c s v) as [_ [FD ED]]; try assumption; fold W sr cr; try lra.
  { split; [|lra]. apply Rle_trans with (2 := proj1 Hv). apply bpow_le. lia. }
  fold W sr cr in ED. set (E2 := cr * cr + W * (sr * sr)) in *.
  assert (E2B : 0.9933 * (v * v) <= E2 <= v * v) by (unfold E2; lra).
  mulr_t Hp Hc (1.0039 * 6378137) (1.0018 * 6378137) H1. mulr_t Hz Hs (1.0039 * 6378137) (1.0018 * 6378137) H2.
  assert (CS : Rabs (P * cr + Z * sr) <= 1.0018 * 6378137 * v).
  { apply Rabs_le_sq; [apply Rmult_le_pos; lra|]. apply Rle_trans with ((P * P + Z * Z) * (v * v)).
    - rewrite VV. pose proof (Rle_0_sqr (P * sr - Z * cr)) as Q. unfold Rsqr in Q. clearbody P Z sr cr. lra.
    - replace (1.0018 * 6378137 * v * (1.0018 * 6378137 * v)) with (1.0018 * 6378137 * (1.0018 * 6378137) * (v * v)) by ring. apply Rmult_le_compat_r; lra. }
  assert (H3 : er v 2 (Fadd (Fmul p c) (Fmul z s)) (P * cr + Z * sr) (3.012 * 6378137) (1.0018 * 6378137) 1 0).
  { apply (er_add v 2 HN HR _ _ _ _ _ _ _ _ 1 0 (3.012 * 6378137) (1.0018 * 6378137) H1 H2); try lra. }
  assert (H5 : er v 2 (Fadd (Fmul ec2 (Fmul s s)) (Fmul c c)) E2 3.006 1 2 0).
  { split; [exact FD|]. rewrite M20. split; [|rewrite Rabs_pos_eq by lra; repeat split; (lra || lia)].
    eapply Rle_trans; [exact ED|]. replace (3.005 * U * E2) with (3.005 * (U * E2)) by ring. assert (U * E2 <= U * (v * v)) by (apply Rmult_le_compat_l; lra).
    assert (0 <= U * (v * v)) by (apply Rmult_le_pos; lra). lra. }
  assert (H6 : er v 2 (Fsqrt (Fadd (Fmul ec2 (Fmul s s)) (Fmul c c))) (sqrt E2) 2.52 1 1 0).
  { apply (er_sqrt v 2 HN HR _ _ 3.006 1 1 0 2.52 1 0.9966 H5); try lra. cbn [Nat.add]. rewrite M20. lra. }
  mulr_t Ha H6 (3.523 * 6378137) 6378137 H7.
  mulr_t Hs Hs 1.002 1 H8. mulr_t Hc Hc 1.002 1 H9.
  assert (H10 : er v 2 (Fadd (Fmul s s) (Fmul c c)) (sr * sr + cr * cr) 3.005 1 2 0).
  { apply (er_add v 2 HN HR _ _ _ _ _ _ _ _ 2 0 3.005 1 H8 H9); try lra. rewrite M20, Rabs_pos_eq; lra. }
  assert (H11 : er v 2 (Fsqrt (Fadd (Fmul s s) (Fmul c c))) v 2.52 1 1 0).
  { apply (er_sqrt v 2 HN HR _ _ 3.005 1 1 0 2.52 1 0.9999 H10); try lra. cbn [Nat.add]. rewrite M20, VV. lra. }
  assert (EG : sqrt E2 = v * sqrt (ct * ct + W * (st * st))).
  { rewrite <- (sqrt_square v) at 1 by lra. rewrite <- sqrt_mult_alt by lra. f_equal. unfold E2, ct, st. field. lra. }
  assert (HE : (P * cr + Z * sr - 6378137 * sqrt E2) / v = H).
  { unfold H, ct, st. rewrite EG. fold ct st. unfold ct, st. field. lra. }
  assert (HV : P * cr + Z * sr - 6378137 * sqrt E2 = H * v) by (rewrite <- HE; field; lra).
  assert (H12 : er v 2 (Fsub (Fadd (Fmul p c) (Fmul z s)) (Fmul a (Fsqrt (Fadd (Fmul ec2 (Fmul s s)) (Fmul c c))))) (P * cr + Z * sr - 6378137 * sqrt E2) (6.538 * 6378137) (0.002 * 6378137) 1 0).
  { apply (er_sub v 2 HN HR _ _ _ _ _ _ _ _ 1 0 _ _ H3 H7); try lra. rewrite M10, HV, Rabs_mult, (Rabs_pos_eq v) by lra. apply Rmult_le_compat_r; lra. }
  assert (H13 : er v 2 (h_e a ec2 p z s c) H (6.565 * 6378137) (0.002 * 6378137) 0 0).
  { unfold h_e. rewrite <- HE. apply (er_div v 2 HN HR _ _ (6.538 * 6378137) (0.002 * 6378137) 0 0 _ _ 2.52 1 1 0 _ _ 0.9999 H12 H11); try lra.
    - rewrite M10, Rabs_pos_eq; lra.
    - rewrite HE, M00. lra. }
  destruct H13 as (F & E & _). rewrite M00 in E. split; [exact F|lra].
Qed.

(** ** The program's latitude and height, as a direction and the height along it *)

Definition Hd (W P Z t : R) : R := P * cos t + Z * sin t - 6378137 * sqrt (cos t * cos t + W * (sin t * sin t)).

Lemma ec2_b : forall lm c, conv_new (A := b64A lm) (WGS84 (A := b64A lm)) = Ok c ->
  fin (cv_ec2 (A := b64A lm) c) = true /\ 0.9933 <= B2R (cv_ec2 (A := b64A lm) c) <= 0.99331 /\
  B2R (cv_ec2 (A := b64A lm) c) = B2R (L_ApxGeo.geoW (A := b64A lm)) /\ fin (L_ApxGeo.geoW (A := b64A lm)) = true /\
  Rabs (B2R (cv_b (A := b64A lm) c) - 6378137 * sqrt (B2R (cv_ec2 (A := b64A lm) c))) <= 2 * 6378137 * U.
Proof.
  intros lm c H. pose proof (wgs84_good lm c H) as (_ & _ & _ & [Fe Ee] & _ & [Fb Eb] & _).
  destruct k_bounds as (BE & _). pose proof U_pos as UP.
  assert (K2 : 0.993302 <= kE * kE <= 0.993308) by (unfold kE, kf; split; lra).
  assert (E : B2R (cv_ec2 (A := b64A lm) c) = B2R (L_ApxGeo.geoW (A := b64A lm)) /\ fin (L_ApxGeo.geoW (A := b64A lm)) = true).
  { clear -H. unfold conv_new, WGS84 in H. cbn [el_a el_f] in H. b64A_ops.
    repeat match type of H with (if ?b then _ else _) = _ => replace b with false in H by (vm_compute; reflexivity); cbv iota in H end.
    apply (f_equal (fun o => match o with Ok x => x | Err _ => c end)) in H. cbv beta iota in H. rewrite <- H. clear H. cbn [cv_ec2].
    unfold L_ApxGeo.geoW. cbv zeta. b64A_ops. rewrite !B2R_SF, fin_SF. split; [f_equal; vm_compute; reflexivity|vm_compute; reflexivity]. }
  split; [exact Fe|]. apply Rabs_le_inv in Ee. split; [lra|]. split; [apply E|]. split; [apply E|].
  set (W := B2R (cv_ec2 (A := b64A lm) c)) in *. clearbody W. set (b := B2R (cv_b (A := b64A lm) c)) in *. clearbody b.
  assert (SW : Rabs (sqrt W - kE) <= U).
  { assert (S0 : 0.9 <= sqrt W) by (rewrite <- (sqrt_square 0.9) by lra; apply sqrt_le_1; lra). assert (SS : sqrt W * sqrt W = W) by (apply sqrt_sqrt; lra).
    set (q := sqrt W) in *. clearbody q. assert (Rabs ((q - kE) * (q + kE)) <= 0.5 * U) by (apply Rabs_le; replace ((q - kE) * (q + kE)) with (W - kE * kE) by (rewrite <- SS; ring); lra).
    rewrite Rabs_mult, (Rabs_pos_eq (q + kE)) in H0 by lra. pose proof (Rabs_pos (q - kE)). assert (Rabs (q - kE) * 1.8 <= Rabs (q - kE) * (q + kE)) by (apply Rmult_le_compat_l; lra). lra. }
  apply Rabs_le_inv in SW. apply Rabs_le_inv in Eb. apply Rabs_le. lra.
Qed.

Lemma branch : forall lm, good_libm lm -> forall c, conv_new (A := b64A lm) (WGS84 (A := b64A lm)) = Ok c -> forall (p2 az : b64) N S R0,
  0 <= N -> 0 <= S -> 0.99 <= R0 <= 1.01 -> N * N + S * S = R0 * R0 -> fin p2 = true -> 0 <= B2R p2 ->
  Rabs (B2R p2 - 6378137 * N * (6378137 * N)) <= 2.001 * U * (6378137 * N * (6378137 * N)) + bpow radix2 (-1000) ->
  fin az = true -> B2R az = 6378137 * S ->
  let w := gc2gd_phi_height (A := b64A lm) c p2 az in let W := B2R (cv_ec2 (A := b64A lm) c) in
  exists P t, Rabs (P - 6378137 * N) <= 2.1 * 6378137 * U * N /\ near (fst w) t (300 * U) /\ - (200 * U) <= t <= PI / 2 /\
  (P * P + B2R az * B2R az <= 1.0018 * 6378137 * (1.0018 * 6378137) -> Rabs (Hd W P (B2R az) t) <= 0.002 * 6378137 ->
   near (snd w) (Hd W P (B2R az) t) (6.57 * 6378137 * U)).
Proof.
  intros lm G c HC p2 az N S R0 N0 S0 HR NS Fp P0 Ep Fz Ez w W. pose proof (wgs84_good lm c HC) as GC. destruct (ec2_b lm c HC) as (Fe & HW & _ & _ & Bb). fold W in HW, Bb.
  pose proof U_pos as UP. assert (SR : S <= R0) by nra. assert (NR : N <= R0) by nra.
  unfold w, gc2gd_phi_height. b64A_ops. pose proof GC as ((Fa & Ka) & Kg & Kt & Ke2 & Ke & [Fb Eb] & [Fae Ee]). rewrite Bltb_correct by assumption.
  set (ae := B2R (cv_aeps2 (A := b64A lm) c)) in *. clearbody ae.
  assert (AE : 4.068 / 10 ^ 19 <= ae <= 4.0681 / 10 ^ 19).
  { apply Rabs_le_inv in Ee. assert (U * / 10 ^ 18 <= / 10 ^ 30) by lra. lra. }
  destruct (Rlt_bool_spec ae (B2R p2)) as [B|B].
  - assert (T1 : bpow radix2 (-1000) <= / 10 ^ 40).
    { apply Rle_trans with (bpow radix2 (-140)); [apply bpow_le; lia|]. change (bpow radix2 (-140)) with (/ IZR (2 ^ 140)). change (2 ^ 140)%Z with 1393796574908163946345982392040522594123776%Z. lra. }
    assert (NL : 0.99 / 10 ^ 16 <= N).
    { assert (NN : 0 <= N * N) by apply Rle_0_sqr. apply Rabs_le_inv in Ep.
      assert (UN : 0 <= U * (6378137 * N * (6378137 * N)) <= 0.000001 * (6378137 * N * (6378137 * N))) by (split; [apply Rmult_le_pos; lra|apply Rmult_le_compat_r; lra]).
      assert (0.99 / 10 ^ 16 * (0.99 / 10 ^ 16) <= N * N) by lra. apply Rnot_lt_le. intros L. assert (N * N < 0.99 / 10 ^ 16 * (0.99 / 10 ^ 16)) by (apply Rmult_le_0_lt_compat; lra). lra. }
    assert (B57 : bpow radix2 (-57) <= 7 / 10 ^ 18) by (change (bpow radix2 (-57)) with (/ 144115188075855872); lra).
    assert (HN : bpow radix2 (-57) <= N <= R0) by lra. assert (HR' : 0.9 <= R0 <= 1024) by lra.
    pose proof (L_PAccGd.p_er N R0 HN HR' p2 Fp P0 Ep) as Hp.
    assert (Hz : er N R0 az (6378137 * S) 0 6378137 0 1).
    { apply er_exact; [exact Fz|exact Ez| |lra|lia|lia]. rewrite Rabs_pos_eq by lra. unfold M. cbn [pow]. lra. }
    destruct (step_F N S R0 HN HR' S0 NS lm c (Fsqrt p2) az GC Hp Hz) as [Hs Hc].
    destruct (gc2gd_step (A := b64A lm) c (Fsqrt p2) az) as [s1 cc]. cbn [fst snd] in Hs, Hc |- *. cbv zeta.
    destruct (phi_F N S R0 HN HR' S0 NS _ _ Hs Hc) as [FD ED]. pose proof (atan_F N S R0 HN HR' S0 NS _ _ Hs Hc) as AF.
    destruct (sc_facts N S R0 HN HR' S0 NS (B2R s1) (B2R cc) (proj1 (proj2 Hs)) (proj1 (proj2 Hc))) as (_ & CA & VA & _).
    pose proof (rs1_M N S R0 HN HR' S0 NS) as RS. pose proof (rcc_M N S R0 HN HR' S0 NS) as RC.
    pose proof (M_pos N R0 HN HR' 2 6) as P26. pose proof (M_pos N R0 HN HR' 1 7) as P17.
    destruct Hp as (Fsq & Esq & _). pose proof (proj1 Hs) as Fs1. pose proof (proj1 Hc) as Fcc.
    assert (M10 : M N R0 1 0 = N) by (unfold M; cbn [pow]; ring). rewrite M10 in Esq.
    assert (M17 : N * 0.93 <= M N R0 1 7 <= N * 1.08).
    { unfold M. rewrite pow_1. split; (apply Rmult_le_compat_l; [lra|]).
      - apply Rle_trans with (0.99 ^ 7); [lra|apply pow_incr; lra].
      - apply Rle_trans with (1.01 ^ 7); [apply pow_incr; lra|lra]. }
    exists (B2R (Fsqrt p2)), (atan (B2R s1 / B2R cc)). split; [lra|].
    set (t := atan (B2R s1 / B2R cc)) in *. set (t0 := atan (rs1 N S / rcc N S)) in *.
    assert (T0 : 0 <= t0). { unfold t0. rewrite <- atan_0. assert (Q : 0 <= rs1 N S / rcc N S) by (apply Rmult_le_pos; [lra|left; apply Rinv_0_lt_compat; lra]).
      destruct Q as [Q|Q]; [left; apply atan_increasing, Q|rewrite <- Q; apply Rle_refl]. }
    assert (TP : t < PI / 2) by (unfold t; apply atan_bound).
    destruct (good_atan lm G _ FD) as [FA EA]. assert (E52 : bpow radix2 (-52) = 2 * U) by (change (bpow radix2 (-52)) with (/ 4503599627370496); unfold U; lra). rewrite E52 in EA.
    set (ph := lm_atan lm (Fdiv s1 cc)) in *. clearbody ph. apply Rabs_le_inv in EA. apply Rabs_le_inv in ED. apply Rabs_le_inv in AF.
    split; [split; [exact FA|apply Rabs_le; lra]|]. split; [lra|]. intros HPZ HH.
    destruct (polar_atan (B2R s1) (B2R cc) ltac:(lra)) as [PS PC]. fold t in PS, PC.
    set (v := sqrt (B2R s1 * B2R s1 + B2R cc * B2R cc)) in *.
    assert (VB : 0.959 * M N R0 1 7 <= v <= 1.02 * M N R0 1 7).
    { set (m := M N R0 1 7) in *. unfold v. assert (0 < m * m) by (apply Rmult_lt_0_compat; lra). split.
      - rewrite <- (sqrt_square (0.959 * m)) by lra. apply sqrt_le_1; lra.
      - rewrite <- (sqrt_square (1.02 * m)) by lra. apply sqrt_le_1; lra. }
    assert (V0 : 0 < v) by lra.
    assert (EC : B2R cc / v = cos t) by (rewrite PC at 1; field; lra). assert (ES : B2R s1 / v = sin t) by (rewrite PS at 1; field; lra).
    assert (Ea : B2R (el_a (A := b64A lm) (cv_el (A := b64A lm) c)) = 6378137) by (apply Rabs_le_inv in Ka; lra).
    pose proof (h_tight (el_a (A := b64A lm) (cv_el (A := b64A lm) c)) (cv_ec2 (A := b64A lm) c) (Fsqrt p2) az s1 cc Fa Ea Fe HW Fsq Fz Fs1 Fcc) as K.
    cbv zeta in K. fold v W in K. rewrite EC, ES in K. apply K; [lra|exact HPZ|exact HH].
  - cbn [fst snd]. exists (6378137 * N), (PI / 2). split; [rewrite Rminus_diag_eq, Rabs_R0 by reflexivity; apply Rmult_le_pos; lra|].
    destruct L_PAccGd.half_pi_F as [FH EH]. pose proof PI2_RGT_0 as PP.
    split; [split; [exact FH|eapply Rle_trans; [exact EH|unfold U; lra]]|]. split; [unfold PI2 in PP; lra|]. intros HPZ HH. unfold Hd in HH |- *. rewrite cos_PI2, sin_PI2 in HH |- *.
    replace (0 * 0 + W * (1 * 1)) with W in HH |- * by ring. rewrite Rmult_0_r, Rplus_0_l, Rmult_1_r in HH |- *.
    set (b := cv_b (A := b64A lm) c) in *. clearbody b. apply Rabs_le_inv in Bb. apply Rabs_le_inv in HH.
    assert (SZ : Rabs (B2R az - B2R b) <= 0.0021 * 6378137) by (apply Rabs_le; lra).
    destruct (Fsub_ok az b Fz Fb) as [ES FS].
    { apply (small_le _ 60); [lia|]. eapply Rle_trans; [exact SZ|]. change (bpow radix2 60) with (IZR (2 ^ 60)). change (2 ^ 60)%Z with 1152921504606846976%Z. lra. }
    split; [exact FS|]. rewrite ES. pose proof (rnd_U _ _ SZ ltac:(apply Rle_trans with (bpow radix2 0); [apply bpow_le; lia|change (bpow radix2 0) with 1; lra])) as RU.
    apply Rabs_le_inv in RU. apply Rabs_le. lra.
Qed.

(** ** Putting the two halves together, in the reals *)

Section Combine.
Variables W C s h : R.
Hypothesis HW : 0.9933 <= W <= 0.99331.
Hypothesis C0 : 0 <= C.
Hypothesis S0 : 0 <= s.
Hypothesis CS : Rabs (C * C + s * s - 1) <= / 10 ^ 15.
Hypothesis Hh : -10001 <= h <= 10001.
Let D : R := C * C + W * (s * s).
Let A : R := 6378137 / sqrt D.

Lemma D_b : 0.99329 <= D <= 1.000000000001 /\ C * C <= D /\ C * C + W * W * (s * s) <= D.
Proof.
  pose proof (Rle_0_sqr C) as C2. pose proof (Rle_0_sqr s) as S2. unfold Rsqr in C2, S2. pose proof CS as H. apply Rabs_le_inv in H.
  assert (WS : 0.9933 * (s * s) <= W * (s * s) <= 1 * (s * s)) by (split; apply Rmult_le_compat_r; lra).
  assert (WW : W * (W * (s * s)) <= 1 * (W * (s * s))) by (apply Rmult_le_compat_r; lra).
  unfold D. lra.
Qed.
Lemma A_b : 6378136 <= A <= 6410000 /\ A * A * D = 6378137 * 6378137 /\ A * D <= 6378138 /\ 0 <= A * C <= 6378137.
Proof.
  destruct D_b as (DB & DC & _). unfold A. set (q := sqrt D) in *. assert (Q : 0.9966 <= q <= 1.000000000001).
  { unfold q. split; [rewrite <- (sqrt_square 0.9966) by lra|rewrite <- (sqrt_square 1.000000000001) by lra]; apply sqrt_le_1; lra. }
  assert (QQ : q * q = D) by (apply sqrt_sqrt; lra). clearbody q.
  split; [split; (apply (Rmult_le_reg_r q); [lra|]; unfold Rdiv; rewrite Rmult_assoc, Rinv_l by lra; lra)|].
  split; [rewrite <- QQ; field; lra|]. split; [rewrite <- QQ; replace (6378137 / q * (q * q)) with (6378137 * q) by (field; lra); lra|].
  assert (CQ : C <= q) by nra. split; [apply Rmult_le_pos; [|lra]; apply Rmult_le_pos; [lra|]; left; apply Rinv_0_lt_compat; lra|].
  replace (6378137 / q * C) with (6378137 * C / q) by (field; lra). apply div_le; [lra|]. apply Rmult_le_compat_l; lra.
Qed.

(** The size of the position. *)
Lemma pos_size : let P := (A + h) * C in let Z := (W * A + h) * s in
  0 <= P <= 6378137 + 10002 /\ 0 <= Z /\ 6325000 * 6325000 <= P * P + Z * Z <= 6388139 * 6388139.
Proof.
  intros P Z. destruct D_b as (DB & DC & DW). destruct A_b as (AB & AD & ADD & AC). pose proof CS as H. apply Rabs_le_inv in H.
  pose proof (Rle_0_sqr C) as C2. pose proof (Rle_0_sqr s) as S2. unfold Rsqr in C2, S2.
  assert (K : forall t, 0 <= t -> t * t <= 1.000001 -> t <= 1.000001) by (intros t T0 T1; apply Rnot_lt_le; intros L; assert (1.000001 * 1.000001 < t * t) by (apply Rmult_le_0_lt_compat; lra); lra).
  assert (C1 : C <= 1.000001) by (apply K; lra). assert (S1 : s <= 1.000001) by (apply K; lra).
  assert (WA : 6335331 <= W * A) by (apply Rle_trans with (0.9933 * 6378136); [lra|apply Rmult_le_compat; lra]).
  assert (HC : Rabs (h * C) <= 10001 * 1.000001) by (apply abs_mul_bd; apply Rabs_le; lra). apply Rabs_le_inv in HC.
  assert (P0 : 6325330 * C <= P) by (unfold P; apply Rmult_le_compat_r; lra). assert (Z0 : 6325330 * s <= Z) by (unfold Z; apply Rmult_le_compat_r; lra).
  split; [split; [lra|unfold P; lra]|]. split; [lra|]. split.
  - assert (6325330 * C * (6325330 * C) <= P * P) by (apply Rmult_le_compat; lra).
    assert (6325330 * s * (6325330 * s) <= Z * Z) by (apply Rmult_le_compat; lra). lra.
  - replace (P * P + Z * Z) with (A * A * (C * C + W * W * (s * s)) + 2 * h * (A * D) + h * h * (C * C + s * s)) by (unfold P, Z, D; ring).
    assert (A * A * (C * C + W * W * (s * s)) <= A * A * D) by (apply Rmult_le_compat_l; [apply Rle_0_sqr|lra]).
    assert (0 <= A * D) by (apply Rmult_le_pos; lra).
    assert (HD : Rabs (h * (A * D)) <= 10001 * 6378138) by (apply abs_mul_bd; apply Rabs_le; lra). apply Rabs_le_inv in HD.
    assert (HH : Rabs (h * h) <= 10001 * 10001) by (apply abs_mul_bd; apply Rabs_le; lra). rewrite Rabs_pos_eq in HH by apply Rle_0_sqr.
    assert (h * h * (C * C + s * s) <= 10001 * 10001 * 1.000001) by (apply Rmult_le_compat; try apply Rle_0_sqr; lra). lra.
Qed.

Lemma combine : forall t P Z ep ez q, Rabs (P - (A + h) * C) <= ep -> Rabs (Z - (W * A + h) * s) <= ez ->
  Rabs (C * sin t - s * cos t) <= q -> 0 <= q <= / 10 ^ 9 -> 0 < C * cos t + W * (s * sin t) -> 0 < C * cos t + s * sin t ->
  Rabs (Hd W P Z t - h) <= ep * Rabs (cos t) + ez * Rabs (sin t) + 2 / 10 ^ 11.
Proof.
  intros t P Z ep ez q EP EZ EQ Hq HT HU. destruct D_b as (DB & DC & DW). destruct A_b as (AB & AD & ADD & AC).
  pose proof (sc1 t) as TT. set (ct := cos t) in *. set (st := sin t) in *.
  assert (E0 : 0.99 <= ct * ct + W * (st * st)).
  { pose proof (Rle_0_sqr ct) as X. pose proof (Rle_0_sqr st) as Y. unfold Rsqr in X, Y. assert (0.9933 * (st * st) <= W * (st * st)) by (apply Rmult_le_compat_r; lra). lra. }
  destruct (support W C s ct st) as [SL SU]; [lra|fold D; lra|lra|exact HT|]. cbv zeta in SL, SU. fold D in SL, SU.
  set (E := ct * ct + W * (st * st)) in *. assert (SE : 0.99 <= sqrt E) by (rewrite <- (sqrt_square 0.99) by lra; apply sqrt_le_1; lra).
  set (x := C * st - s * ct) in *. assert (Q2 : 0 <= x * x <= / 10 ^ 18).
  { split; [apply Rle_0_sqr|]. rewrite <- (Rabs_pos_eq (x * x)) by apply Rle_0_sqr. apply Rle_trans with (/ 10 ^ 9 * / 10 ^ 9); [apply abs_mul_bd; lra|lra]. }
  assert (SU2 : W * (x * x) / (D * sqrt E) <= 1.1 / 10 ^ 18).
  { assert (DE : 0.98 <= D * sqrt E) by (apply Rle_trans with (0.99329 * 0.99); [lra|apply Rmult_le_compat; lra]).
    apply div_le; [lra|]. assert (W * (x * x) <= 1 * / 10 ^ 18) by (apply Rmult_le_compat; lra). lra. }
  set (g := C * ct + s * st) in *.
  assert (GG : g * g = (C * C + s * s) - x * x).
  { unfold g, x. transitivity ((C * C + s * s) * (st * st + ct * ct) - (C * st - s * ct) * (C * st - s * ct)); [ring|]. rewrite TT. ring. }
  assert (G1 : Rabs (g - 1) <= 1.1 / 10 ^ 15).
  { pose proof CS as H. apply Rabs_le_inv in H. assert (Rabs ((g - 1) * (g + 1)) <= 1.1 / 10 ^ 15) by (replace ((g - 1) * (g + 1)) with (g * g - 1) by ring; apply Rabs_le; lra).
    rewrite Rabs_mult, (Rabs_pos_eq (g + 1)) in H0 by lra. pose proof (Rabs_pos (g - 1)). assert (Rabs (g - 1) * 1 <= Rabs (g - 1) * (g + 1)) by (apply Rmult_le_compat_l; lra). lra. }
  assert (HG : Rabs (h * (g - 1)) <= 10001 * (1.1 / 10 ^ 15)) by (apply abs_mul_bd; [apply Rabs_le; lra|exact G1]).
  assert (K : Hd W P Z t - h = (P - (A + h) * C) * ct + (Z - (W * A + h) * s) * st + h * (g - 1) - 6378137 * (sqrt E - (C * ct + W * (s * st)) / sqrt D)).
  { unfold Hd. fold ct st E. unfold A, g. assert (sqrt D <> 0) by (apply Rgt_not_eq, sqrt_lt_R0; lra). field. assumption. }
  rewrite K. set (k := sqrt E - (C * ct + W * (s * st)) / sqrt D) in *.
  assert (K1 : Rabs ((P - (A + h) * C) * ct) <= ep * Rabs ct) by (rewrite Rabs_mult; apply Rmult_le_compat_r; [apply Rabs_pos|exact EP]).
  assert (K2 : Rabs ((Z - (W * A + h) * s) * st) <= ez * Rabs st) by (rewrite Rabs_mult; apply Rmult_le_compat_r; [apply Rabs_pos|exact EZ]).
  apply Rabs_le_inv in K1. apply Rabs_le_inv in K2. apply Rabs_le_inv in HG. apply Rabs_le. lra.
Qed.
End Combine.

(** ** The round trip *)

Lemma two_U : bpow radix2 (-52) = 2 * U.
Proof. change (bpow radix2 (-52)) with (/ 4503599627370496). unfold U. lra. Qed.

(** What the forward conversion returns. *)
Lemma fwd_val : forall lm c lo la h v, conv_new (A := b64A lm) (WGS84 (A := b64A lm)) = Ok c ->
  geodetic_to_geocentric (A := b64A lm) c (MkGeod (A := b64A lm) lo la h) = Ok v ->
  let w := L_ApxGeo.geoW (A := b64A lm) in let r := fr w (lm_sin lm la) (lm_cos lm la) h in
  v = V3 (A := b64A lm) (Fmul r (lm_cos lm lo)) (Fmul r (lm_sin lm lo)) (fz w (lm_sin lm la) (lm_cos lm la) h).
Proof.
  intros lm c lo la h v HC V w r. rewrite (L_ApxGeo.geo_val (b64A lm) c lo la h (L_ApxGeo.conv_el _ _ _ HC)) in V. cbv zeta in V.
  match type of V with (if ?b then _ else _) = _ => destruct b; [|discriminate V] end.
  apply (f_equal (fun o => match o with Ok x => x | Err _ => v end)) in V. cbv beta iota in V. rewrite <- V. reflexivity.
Qed.

Lemma trig_sq : forall x y t, Rabs (x - cos t) <= 2 * U -> Rabs (y - sin t) <= 2 * U -> Rabs (x * x + y * y - 1) <= / 10 ^ 15.
Proof.
  intros x y t X Y. pose proof (sc1 t) as SC. pose proof (COS_bound t) as CB. pose proof (SIN_bound t) as SB. pose proof U_pos as UP.
  set (k := cos t) in *. set (l := sin t) in *. clearbody k l.
  replace (x * x + y * y - 1) with (2 * (k * (x - k) + l * (y - l)) + (x - k) * (x - k) + (y - l) * (y - l)) by (transitivity (x * x + y * y - (l * l + k * k)); [ring|rewrite SC; reflexivity]).
  assert (S1 : Rabs (k * (x - k) + l * (y - l)) <= 2 * U * 1.5).
  { apply Rle_trans with (Rabs k * Rabs (x - k) + Rabs l * Rabs (y - l)); [rewrite <- !Rabs_mult; apply Rabs_triang|].
    assert (KL : Rabs k + Rabs l <= 1.5).
    { pose proof (Rabs_pos k). pose proof (Rabs_pos l). assert (KK : Rabs k * Rabs k + Rabs l * Rabs l = 1) by (rewrite <- !Rabs_mult, !Rabs_pos_eq by apply Rle_0_sqr; lra).
      set (u := Rabs k) in *. set (m := Rabs l) in *. clearbody u m. apply Rnot_lt_le. intros L. assert (1.5 * 1.5 < (u + m) * (u + m)) by (apply Rmult_le_0_lt_compat; lra). pose proof (Rle_0_sqr (u - m)) as Z. unfold Rsqr in Z. lra. }
    assert (Rabs k * Rabs (x - k) <= Rabs k * (2 * U)) by (apply Rmult_le_compat_l; [apply Rabs_pos|exact X]).
    assert (Rabs l * Rabs (y - l) <= Rabs l * (2 * U)) by (apply Rmult_le_compat_l; [apply Rabs_pos|exact Y]).
    assert ((Rabs k + Rabs l) * (2 * U) <= 1.5 * (2 * U)) by (apply Rmult_le_compat_r; lra). lra. }
  assert (S2 : Rabs ((x - k) * (x - k)) <= 2 * U * (2 * U)) by (apply abs_mul_bd; exact X).
  assert (S3 : Rabs ((y - l) * (y - l)) <= 2 * U * (2 * U)) by (apply abs_mul_bd; exact Y).
  assert (UU : U * U <= U * 0.0001) by (apply Rmult_le_compat_l; lra). assert (6.1 * U <= / 10 ^ 15) by (unfold U; lra).
  apply Rabs_le_inv in S1. apply Rabs_le_inv in S2. apply Rabs_le_inv in S3. apply Rabs_le. lra.
Qed.

Lemma quad : forall c s, c * c + s * s = 1 -> 11.6 * Rabs c + 6.56 * Rabs s <= 13.33.
Proof.
  intros c s H. assert (Q : Rabs c * Rabs c + Rabs s * Rabs s = 1) by (rewrite <- !Rabs_mult, !Rabs_pos_eq by apply Rle_0_sqr; exact H).
  set (u := Rabs c) in *. set (v := Rabs s) in *. clearbody u v. apply Rnot_lt_le. intros L.
  assert (13.33 * 13.33 < (11.6 * u + 6.56 * v) * (11.6 * u + 6.56 * v)) by (apply Rmult_le_0_lt_compat; lra).
  pose proof (Rle_0_sqr (11.6 * v - 6.56 * u)) as Z. unfold Rsqr in Z. lra.
Qed.

Lemma ground_tight : forall lm, good_libm lm -> forall c lo la h v,
  conv_new (A := b64A lm) (WGS84 (A := b64A lm)) = Ok c -> fin lo = true -> fin la = true -> fin h = true ->
  - (PI / 2) <= B2R la <= PI / 2 -> -10000 <= B2R h <= 10000 ->
  geodetic_to_geocentric (A := b64A lm) c (MkGeod (A := b64A lm) lo la h) = Ok v ->
  near (phi (A := b64A lm) (geocentric_to_geodetic (A := b64A lm) c v)) (B2R la) (1.1 / 10 ^ 10) ->
  near (height (A := b64A lm) (geocentric_to_geodetic (A := b64A lm) c v)) (B2R h) (1.42 / 10 ^ 8).
Proof.
  intros lm G c lo la h v HC Flo Fla Fh Hla Hh V NP. pose proof U_pos as UP.
  pose proof (fwd_val lm c lo la h v HC V) as EV. cbv zeta in EV. destruct (ec2_b lm c HC) as (Fe & HW & EW & FW & _). rewrite EW in HW.
  set (w := L_ApxGeo.geoW (A := b64A lm)) in *. clearbody w.
  destruct (good_sin lm G la Fla) as [Fsp Esp]. destruct (good_cos lm G la Fla) as [Fcp Ecp].
  destruct (good_sin lm G lo Flo) as [Fsl Esl]. destruct (good_cos lm G lo Flo) as [Fcl Ecl]. rewrite two_U in *.
  set (sp := lm_sin lm la) in *. set (cp := lm_cos lm la) in *. set (sl := lm_sin lm lo) in *. set (cl := lm_cos lm lo) in *. clearbody sp cp sl cl.
  pose proof (trig_sq _ _ _ Ecp Esp) as SQ.
  assert (SQ' : Rabs (B2R cp * B2R cp + B2R sp * B2R sp - 1) <= / 10 ^ 12) by lra.
  destruct (forward w sp cp h FW HW Fsp Fcp Fh ltac:(lra) SQ') as (_ & _ & Fr & Er & Fz & Ez).
  destruct (fN_b w sp cp h HW ltac:(lra) SQ') as [FN _].
  set (r := fr w sp cp h) in *. set (z := fz w sp cp h) in *. clearbody r z.
  set (C := Rabs (B2R cp)). set (s := Rabs (B2R sp)). set (W := B2R w) in *.
  assert (CC : C * C = B2R cp * B2R cp) by (unfold C; rewrite <- Rabs_mult; apply Rabs_pos_eq, Rle_0_sqr).
  assert (SS : s * s = B2R sp * B2R sp) by (unfold s; rewrite <- Rabs_mult; apply Rabs_pos_eq, Rle_0_sqr).
  assert (C0 : 0 <= C) by apply Rabs_pos. assert (S0 : 0 <= s) by apply Rabs_pos.
  rewrite <- CC, <- SS in SQ. set (hr := B2R h) in *. assert (Hh' : -10001 <= hr <= 10001) by lra.
  assert (EA : fA w sp cp = 6378137 / sqrt (C * C + W * (s * s))) by (unfold fA, fD; rewrite CC, SS; reflexivity).
  rewrite EA in Er, Ez. pose proof (A_b W C s HW C0 SQ) as (AB & _). pose proof (pos_size W C s hr HW C0 S0 SQ Hh') as PS. cbv zeta in PS.
  set (Ar := 6378137 / sqrt (C * C + W * (s * s))) in *.
  assert (WA : 0 <= W * Ar + hr). { assert (0.9933 * 6378136 <= W * Ar) by (apply Rmult_le_compat; lra). lra. }
  (* the distance from the axis *)
  assert (RR : Rabs (Rabs (B2R r) - (Ar + hr) * C) <= 5.61 * 6378137 * U).
  { replace ((Ar + hr) * C) with (Rabs ((Ar + hr) * B2R cp)) by (rewrite Rabs_mult, (Rabs_pos_eq (Ar + hr)) by lra; reflexivity).
    eapply Rle_trans; [apply Rabs_triang_inv2|]. eapply Rle_trans; [exact Er|]. assert (U * fN cp <= U * 1.001) by (apply Rmult_le_compat_l; lra). lra. }
  assert (RB : Rabs (B2R r) <= 6388140) by (apply Rabs_le_inv in RR; lra).
  destruct (spread r cl sl (B2R lo) Fr Fcl Fsl ltac:(lra) Ecl Esl) as (Fx & Fy & _ & _ & SP).
  set (x := Fmul r cl) in *. set (y := Fmul r sl) in *. clearbody x y.
  set (P2 := B2R x * B2R x + B2R y * B2R y) in *. assert (P20 : 0 <= P2) by (unfold P2; pose proof (Rle_0_sqr (B2R x)); pose proof (Rle_0_sqr (B2R y)); unfold Rsqr in *; lra).
  set (N := sqrt P2 / 6378137). set (S := Rabs (B2R z) / 6378137).
  assert (EN : 6378137 * N = sqrt P2) by (unfold N; field). assert (ES : 6378137 * S = Rabs (B2R z)) by (unfold S; field).
  assert (N0 : 0 <= N) by (unfold N; pose proof (sqrt_pos P2); lra). assert (S00 : 0 <= S) by (unfold S; pose proof (Rabs_pos (B2R z)); lra).
  assert (T74 : 2 * bpow radix2 (-1074) <= 0.01 * U).
  { apply Rle_trans with (2 * bpow radix2 (-70)); [apply Rmult_le_compat_l; [lra|apply bpow_le; lia]|]. change (bpow radix2 (-70)) with (/ 1180591620717411303424). unfold U. lra. }
  assert (NB : Rabs (6378137 * N - (Ar + hr) * C) <= 9.47 * 6378137 * U).
  { rewrite EN. assert (U * Rabs (B2R r) <= U * 6388140) by (apply Rmult_le_compat_l; lra). apply Rabs_le_inv in SP. apply Rabs_le_inv in RR. apply Rabs_le. lra. }
  assert (ZB : Rabs (Rabs (B2R z) - (W * Ar + hr) * s) <= 6.56 * 6378137 * U).
  { replace ((W * Ar + hr) * s) with (Rabs ((W * Ar + hr) * B2R sp)) by (rewrite Rabs_mult, (Rabs_pos_eq (W * Ar + hr)) by lra; reflexivity).
    eapply Rle_trans; [apply Rabs_triang_inv2|]. exact Ez. }
  (* the size *)
  assert (SZ : forall a b p q, 0 <= p -> 0 <= q -> Rabs (a - p) <= 0.01 -> Rabs (b - q) <= 0.01 -> 6325000 * 6325000 <= p * p + q * q <= 6388139 * 6388139 ->
     6320000 * 6320000 <= a * a + b * b <= 6389000 * 6389000).
  { clear. intros a b p q P Q A B K. assert (PP : p <= 6388139) by (apply Rnot_lt_le; intros L; assert (6388139 * 6388139 < p * p) by (apply Rmult_le_0_lt_compat; lra); pose proof (Rle_0_sqr q) as Z; unfold Rsqr in Z; lra).
    assert (QQ : q <= 6388139) by (apply Rnot_lt_le; intros L; assert (6388139 * 6388139 < q * q) by (apply Rmult_le_0_lt_compat; lra); pose proof (Rle_0_sqr p) as Z; unfold Rsqr in Z; lra).
    apply Rabs_le_inv in A. apply Rabs_le_inv in B.
    assert (Rabs ((a - p) * (a + p)) <= 0.01 * 20000000) by (apply abs_mul_bd; apply Rabs_le; lra).
    assert (Rabs ((b - q) * (b + q)) <= 0.01 * 20000000) by (apply abs_mul_bd; apply Rabs_le; lra).
    apply Rabs_le_inv in H. apply Rabs_le_inv in H0. lra. }
  assert (P0 : 0 <= (Ar + hr) * C) by (apply Rmult_le_pos; lra). assert (Z0 : 0 <= (W * Ar + hr) * s) by (apply Rmult_le_pos; lra).
  assert (U001 : 20 * 6378137 * U <= 0.00001) by (unfold U; lra).
  assert (SZ1 : 6320000 * 6320000 <= 6378137 * N * (6378137 * N) + Rabs (B2R z) * Rabs (B2R z) <= 6389000 * 6389000) by (apply (SZ _ _ _ _ P0 Z0); [lra|lra|apply PS]).
  set (R0 := sqrt (N * N + S * S)).
  assert (NS : N * N + S * S = R0 * R0) by (unfold R0; rewrite sqrt_sqrt; [reflexivity|pose proof (Rle_0_sqr N); pose proof (Rle_0_sqr S); unfold Rsqr in *; lra]).
  assert (HR : 0.99 <= R0 <= 1.01).
  { rewrite <- ES in SZ1. unfold R0. split; [rewrite <- (sqrt_square 0.99) by lra|rewrite <- (sqrt_square 1.01) by lra]; apply sqrt_le_1; try lra; pose proof (Rle_0_sqr N); pose proof (Rle_0_sqr S); unfold Rsqr in *; lra. }
  assert (P16 : P2 <= 10 ^ 20). { rewrite <- (sqrt_sqrt P2) by exact P20. rewrite <- EN. pose proof (Rle_0_sqr (Rabs (B2R z))) as Q. unfold Rsqr in Q. lra. }
  destruct (L_PAccGd.p2_F x y Fx Fy P16) as (Fp & Pp & Ep). fold P2 in Ep. 
  assert (EP2 : 6378137 * N * (6378137 * N) = P2) by (rewrite EN; apply sqrt_sqrt, P20). rewrite <- EP2 in Ep.
  destruct (branch lm G c HC (Fadd (Fmul x x) (Fmul y y)) (Babs z) N S R0 N0 S00 HR NS Fp Pp Ep) as (P & t & HP & Hphi & Ht & Hhgt); [rewrite is_finite_Babs; exact Fz|rewrite B2R_Babs; symmetry; exact ES|].
  cbv zeta in Hphi, Hhgt. rewrite B2R_Babs in Hhgt. rewrite EW in Hhgt. fold W in Hhgt.
  (* the program's output *)
  rewrite EV in NP |- *. clear EV. unfold geocentric_to_geodetic in NP |- *. cbn [v0 v1 v2] in NP |- *. unfold sq in NP |- *. b64A_ops.
  destruct (gc2gd_phi_height (A := b64A lm) c (Fadd (Fmul x x) (Fmul y y)) (Babs z)) as [ph hh]. cbn [fst snd] in Hphi, Hhgt. cbn [phi height] in NP |- *.
  destruct Hphi as [Fph Eph]. apply Rabs_le_inv in Eph. destruct NP as [_ NP].
  assert (QA : Rabs (t - Rabs (B2R la)) <= 2.5 / 10 ^ 10).
  { assert (U500 : 500 * U <= / 10 ^ 12) by (unfold U; lra).
    assert (K : Rabs (B2R ph - B2R la) <= 1.1 / 10 ^ 10 \/ Rabs (- B2R ph - B2R la) <= 1.1 / 10 ^ 10).
    { match type of NP with context [if ?b then _ else _] => destruct b end; [right; rewrite <- B2R_Bopp; exact NP|left; exact NP]. }
    unfold Rabs at 2. destruct (Rcase_abs (B2R la)); destruct K as [K|K]; apply Rabs_le_inv in K; apply Rabs_le; lra. }
  assert (CA : Rabs (C - cos (B2R la)) <= 2 * U).
  { rewrite <- (Rabs_pos_eq (cos (B2R la))) by (apply cos_ge_0; lra). eapply Rle_trans; [apply Rabs_triang_inv2|]. exact Ecp. }
  assert (CA2 : cos (B2R la) = cos (Rabs (B2R la))) by (unfold Rabs; destruct (Rcase_abs _); [rewrite cos_neg|]; reflexivity).
  assert (SA : Rabs (s - sin (Rabs (B2R la))) <= 2 * U).
  { replace (sin (Rabs (B2R la))) with (Rabs (sin (B2R la))); [eapply Rle_trans; [apply Rabs_triang_inv2|]; exact Esp|].
    unfold Rabs at 2. destruct (Rcase_abs (B2R la)) as [L|L].
    - rewrite sin_neg. apply Rabs_left1. rewrite <- (Ropp_involutive (sin (B2R la))), <- sin_neg. assert (0 <= sin (- B2R la)) by (apply sin_ge_0; lra). lra.
    - apply Rabs_pos_eq, sin_ge_0; lra. }
  rewrite CA2 in CA. set (l := Rabs (B2R la)) in *. assert (L0 : 0 <= l) by apply Rabs_pos. clearbody l. clear CA2.
  pose proof (COS_bound t) as BC. pose proof (SIN_bound t) as BS. pose proof (sc1 t) as TT.
  assert (D1 : Rabs ((C - cos l) * sin t) <= 2 * U * 1) by (apply abs_mul_bd; [exact CA|apply Rabs_le; lra]).
  assert (D2 : Rabs ((s - sin l) * cos t) <= 2 * U * 1) by (apply abs_mul_bd; [exact SA|apply Rabs_le; lra]).
  assert (D3 : Rabs ((C - cos l) * cos t) <= 2 * U * 1) by (apply abs_mul_bd; [exact CA|apply Rabs_le; lra]).
  assert (D4 : Rabs ((s - sin l) * sin t) <= 2 * U * 1) by (apply abs_mul_bd; [exact SA|apply Rabs_le; lra]).
  apply Rabs_le_inv in D1. apply Rabs_le_inv in D2. apply Rabs_le_inv in D3. apply Rabs_le_inv in D4.
  assert (D5 : Rabs (sin (t - l)) <= 2.5 / 10 ^ 10).
  { pose proof (L_Apx.sin_lip (t - l) 0) as K. rewrite sin_0, !Rminus_0_r in K. lra. }
  assert (D6 : 0.99 <= cos (t - l)).
  { pose proof (L_Apx.cos_lip (t - l) 0) as K. rewrite cos_0, Rminus_0_r in K. apply Rabs_le_inv in K. lra. }
  apply Rabs_le_inv in D5. rewrite sin_minus in D5. rewrite cos_minus in D6.
  assert (HQ : Rabs (C * sin t - s * cos t) <= 2.6 / 10 ^ 10) by (apply Rabs_le; lra).
  assert (HG : 0.98 <= C * cos t + s * sin t) by lra.
  assert (S1 : s <= 1.001). { apply Rabs_le_inv in SA. pose proof (SIN_bound l). lra. }
  assert (HST : Rabs (s * sin t) <= 1.001 * 1) by (apply abs_mul_bd; apply Rabs_le; lra).
  assert (HT : 0 < C * cos t + W * (s * sin t)).
  { assert (WW : Rabs ((1 - W) * (s * sin t)) <= 0.007 * (1.001 * 1)) by (apply abs_mul_bd; [apply Rabs_le; lra|exact HST]). apply Rabs_le_inv in WW. lra. }
  assert (NL : N <= 1.01) by (pose proof (Rle_0_sqr S) as Q; unfold Rsqr in Q; apply Rnot_lt_le; intros L; assert (1.01 * 1.01 < N * N) by (apply Rmult_le_0_lt_compat; lra); assert (R0 * R0 <= 1.01 * 1.01) by (apply Rmult_le_compat; lra); lra).
  assert (UN : U * N <= U * 1.01) by (apply Rmult_le_compat_l; lra).
  assert (HPP : Rabs (P - (Ar + hr) * C) <= 11.6 * 6378137 * U) by (apply Rabs_le_inv in HP; apply Rabs_le_inv in NB; apply Rabs_le; lra).
  pose proof (combine W C s hr HW C0 SQ Hh' t P (Rabs (B2R z)) _ _ _ HPP ZB HQ ltac:(lra) HT ltac:(lra)) as CB.
  pose proof (quad (cos t) (sin t) ltac:(lra)) as QD.
  assert (CB2 : Rabs (Hd W P (Rabs (B2R z)) t - hr) <= 13.33 * 6378137 * U + 2 / 10 ^ 11).
  { eapply Rle_trans; [exact CB|]. apply Rplus_le_compat_r. replace (11.6 * 6378137 * U * Rabs (cos t) + 6.56 * 6378137 * U * Rabs (sin t)) with ((11.6 * Rabs (cos t) + 6.56 * Rabs (sin t)) * (6378137 * U)) by ring.
    replace (13.33 * 6378137 * U) with (13.33 * (6378137 * U)) by ring. apply Rmult_le_compat_r; lra. }
  destruct Hhgt as [FH EH].
  - pose proof (SZ P (Rabs (B2R z)) _ _ P0 Z0 ltac:(lra) ltac:(lra) (proj2 (proj2 PS))) as K. lra.
  - apply Rabs_le_inv in CB2. apply Rabs_le. lra.
  - split; [exact FH|]. assert (19.91 * 6378137 * U <= 1.41 / 10 ^ 8) by (unfold U; lra). apply Rabs_le_inv in CB2. apply Rabs_le_inv in EH. apply Rabs_le. lra.
Qed.
