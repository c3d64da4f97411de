(** * Proofs of the ellipsoid properties C44-C49 *)

From Coq Require Import ZArith Reals Lra Lia Bool.
From Flocq Require Import Core BinarySingleNaN.
From Verif Require Import Outcome Arith ArithR ArithF Spec_Float M_Common M_Ellipsoid.
From Verif Require Import L_ArithR L_ArithF L_Flit L_FromJulianF L_Sym L_PAngles L_Pi L_Halley L_Ellipsoid.
Open Scope R_scope.

(** C44, exact arithmetic: [new] succeeds exactly for 0 <= f < 1 and a >= 0. *)
Lemma C44_accepted_pf : forall a f,
  (exists c, conv_new (A := realA) (MkEll (A := realA) a f) = Ok c) <-> 0 <= f < 1 /\ 0 <= a.
Proof.
  intros a f. split.
  - intros [c H]. apply conv_new_ok_inv in H. tauto.
  - intros [Hf Ha]. exists (convR a f). apply conv_new_R; assumption.
Qed.

(** C44, exact arithmetic: the flattening is tested first, then the radius;
    the eccentricity test never fails. *)
Lemma C44_errors_pf : forall a f,
  (f < 0 \/ 1 <= f -> conv_new (A := realA) (MkEll (A := realA) a f) = Err InvalidFlattening) /\
  (0 <= f < 1 -> a < 0 -> conv_new (A := realA) (MkEll (A := realA) a f) = Err InvalidRadius) /\
  conv_new (A := realA) (MkEll (A := realA) a f) <> Err BadEccentricity /\
  conv_new (A := realA) (MkEll (A := realA) a f) <> Err BadCoordinates.
Proof.
  intros a f.
  assert (F1 : f < 0 \/ 1 <= f -> conv_new (A := realA) (MkEll (A := realA) a f) = Err InvalidFlattening).
  { intros H. unfold conv_new. cbn [el_a el_f]. realA_ops. rewrite !(Rlit_0 0), !(Rlit_0 1).
    destruct (Rlt_bool_spec f 0); [reflexivity|]. rewrite Rle_bool_true by lra. reflexivity. }
  assert (F2 : 0 <= f < 1 -> a < 0 -> conv_new (A := realA) (MkEll (A := realA) a f) = Err InvalidRadius).
  { intros H Ha. unfold conv_new. cbn [el_a el_f]. realA_ops. rewrite !(Rlit_0 0), !(Rlit_0 1).
    rewrite Rlt_bool_false, Rle_bool_false, Rlt_bool_true by lra. reflexivity. }
  split; [exact F1|]. split; [exact F2|].
  destruct (Rlt_le_dec f 0) as [L|L]; [rewrite F1 by auto; split; discriminate|].
  destruct (Rle_lt_dec 1 f) as [G|G]; [rewrite F1 by auto; split; discriminate|].
  destruct (Rlt_le_dec a 0) as [N|N]; [rewrite F2 by lra; split; discriminate|].
  rewrite conv_new_R by lra. split; discriminate.
Qed.

(** C44, exact arithmetic: the constants kept in the converter. *)
Lemma C44_constants_pf : forall a f c, conv_new (A := realA) (MkEll (A := realA) a f) = Ok c ->
  conv_ellipsoid (A := realA) c = MkEll (A := realA) a f /\
  cv_b (A := realA) c = a * (1 - f) /\
  cv_ec (A := realA) c = 1 - f /\ cv_ec2 (A := realA) c = (1 - f) ^ 2 /\
  cv_e2 (A := realA) c = 1 - (1 - f) ^ 2 /\ cv_e4t (A := realA) c = 3 / 2 * (1 - (1 - f) ^ 2) ^ 2 /\
  cv_aeps2 (A := realA) c = a ^ 2 / 10 ^ 32.
Proof.
  intros a f c H. apply conv_new_ok_inv in H. destruct H as (Hf & Ha & ->). unfold convR, conv_ellipsoid.
  cbn [cv_el cv_b cv_ec cv_ec2 cv_e2 cv_e4t cv_aeps2].
  split; [reflexivity|]. split; [reflexivity|]. split; [reflexivity|]. change (num realA) with R.
  split; [ring|]. split; [ring|]. split; [simpl; lra|]. unfold Rdiv. ring.
Qed.

(** C44, refuted: a zero radius is accepted, in binary64 whatever the libm, and
    the height of every point is then NaN; so is every NaN radius or flattening. *)
Lemma C44_zero_radius_refuted_pf : forall lm,
  (exists c, conv_new (A := b64A lm) (MkEll (A := b64A lm) (Flit 0 0) (Flit 0 0)) = Ok c /\
     is_nan (height (A := b64A lm) (geocentric_to_geodetic (A := b64A lm) c
       (V3 (A := b64A lm) (Flit 1 0) (Flit 0 0) (Flit 0 0)))) = true) /\
  (forall f, Bltb f (Flit 0 0) = false -> Bleb (Flit 1 0) f = false ->
     is_nan f = true -> exists c, conv_new (A := b64A lm) (MkEll (A := b64A lm) (Flit 1 0) f) = Ok c) /\
  (exists c, conv_new (A := b64A lm) (MkEll (A := b64A lm) B754_nan (Flit 0 0)) = Ok c).
Proof.
  intros lm. split; [|split].
  - eexists. split.
    + unfold conv_new. cbn [el_a el_f]. b64A_ops.
      change (Bltb (Flit 0 0) (Flit 0 0) || Bleb (Flit 1 0) (Flit 0 0)) with false.
      change (Bltb (Flit 0 0) (Flit 0 0)) with false. cbv iota.
      match goal with |- context [Bleb ?x (Flit 0 0)] => replace (Bleb x (Flit 0 0)) with false by (vm_compute; reflexivity) end.
      reflexivity.
    + vm_compute. reflexivity.
  - intros f _ _ N. destruct f; try discriminate. eexists.
    unfold conv_new. cbn [el_a el_f]. b64A_ops. 
    change (Bltb B754_nan (Flit 0 0) || Bleb (Flit 1 0) B754_nan) with false.
    change (Bltb (Flit 1 0) (Flit 0 0)) with false. cbv iota.
    match goal with |- context [Bleb ?x (Flit 0 0)] => replace (Bleb x (Flit 0 0)) with false by (vm_compute; reflexivity) end.
    reflexivity.
  - eexists.
    unfold conv_new. cbn [el_a el_f]. b64A_ops. 
    change (Bltb (Flit 0 0) (Flit 0 0) || Bleb (Flit 1 0) (Flit 0 0)) with false.
    change (Bltb B754_nan (Flit 0 0)) with false. cbv iota.
    match goal with |- context [Bleb ?x (Flit 0 0)] => replace (Bleb x (Flit 0 0)) with false by (vm_compute; reflexivity) end.
    reflexivity.
Qed.

(** C44, refuted at the other end: in binary64 the flattening 1 - 2^-52, which
    is below 1, is rejected as a bad eccentricity. *)
Lemma C44_flattening_near_one_refuted_pf : forall lm,
  let f := Fof (2 ^ 52 - 1) (-52) in
  B2R f = 1 - / 2 ^ 52 /\
  conv_new (A := b64A lm) (MkEll (A := b64A lm) (Flit 1 0) f) = Err BadEccentricity.
Proof.
  intros lm f. split.
  - rewrite B2R_SF. replace (B2SF f) with (SpecFloat.S754_finite false 9007199254740990 (-53)) by (vm_compute; reflexivity).
    cbn [SF2R cond_Zopp Z.opp]. unfold F2R. cbn [Fnum Fexp]. change (bpow radix2 (-53)) with (/ 9007199254740992).
    replace (2 ^ 52) with 4503599627370496 by ring. lra.
  - unfold conv_new. cbn [el_a el_f]. b64A_ops.
    replace (Bltb f (Flit 0 0) || Bleb (Flit 1 0) f) with false by (vm_compute; reflexivity).
    replace (Bltb (Flit 1 0) (Flit 0 0)) with false by (vm_compute; reflexivity). cbv iota.
    match goal with |- context [Bleb ?x (Flit 0 0)] => replace (Bleb x (Flit 0 0)) with true by (vm_compute; reflexivity) end.
    reflexivity.
Qed.

(** C44, binary64, what does hold: apart from NaN, an accepted flattening is in
    [0,1) and an accepted radius is not negative; and every such radius is
    accepted with any flattening in [0, 1 - 2^-24]. *)
Lemma C44_accepted_b64_pf : forall lm a f, is_nan a = false -> is_nan f = false ->
  ((exists c, conv_new (A := b64A lm) (MkEll (A := b64A lm) a f) = Ok c) ->
    fin f = true /\ 0 <= B2R f < 1 /\ Bleb (Flit 0 0) a = true) /\
  (fin f = true -> 0 <= B2R f <= 1 - / 2 ^ 24 -> Bleb (Flit 0 0) a = true ->
    exists c, conv_new (A := b64A lm) (MkEll (A := b64A lm) a f) = Ok c).
Proof.
  intros lm a f Na Nf. destruct lit_0 as [Z0 F0]. destruct lit_1 as [Z1 F1]. destruct lit_2 as [Z2 F2].
  assert (LT : forall x : b64, is_nan x = false -> Bltb x (Flit 0 0) = negb (Bleb (Flit 0 0) x)).
  { intros x N. destruct (fin x) eqn:Fx.
    - rewrite Bltb_correct, Bleb_correct by assumption. rewrite Z0. 
      destruct (Rlt_bool_spec (B2R x) 0), (Rle_bool_spec 0 (B2R x)); try reflexivity; lra.
    - destruct x as [|[|]| |]; try discriminate; vm_compute; reflexivity. }
  split.
  - intros [c H]. unfold conv_new in H. cbn [el_a el_f] in H. b64A_ops.
    destruct (Bltb f (Flit 0 0)) eqn:E1; [discriminate|]. destruct (Bleb (Flit 1 0) f) eqn:E2; [discriminate|]. cbn [orb] in H.
    destruct (Bltb a (Flit 0 0)) eqn:E3; [discriminate|]. clear H. rewrite LT in E3 by exact Na.
    assert (Ff : fin f = true). { destruct f as [|[|]| |]; try reflexivity; vm_compute in E1, E2; try discriminate. }
    split; [exact Ff|]. rewrite Bltb_correct, Z0 in E1 by assumption. rewrite Bleb_correct, Z1 in E2 by assumption.
    split; [|destruct (Bleb (Flit 0 0) a); [reflexivity|discriminate]].
    destruct (Rlt_bool_spec (B2R f) 0); [discriminate|]. destruct (Rle_bool_spec 1 (B2R f)); [discriminate|]. lra.
  - intros Ff Hf Ha. unfold conv_new. cbn [el_a el_f]. b64A_ops.
    rewrite (LT a Na), Ha. cbn [negb].
    assert (I24 : / 2 ^ 24 = / 16777216) by (f_equal; ring). rewrite I24 in Hf.
    rewrite Bltb_correct, Bleb_correct, Z0, Z1 by assumption. rewrite Rlt_bool_false, Rle_bool_false by lra. cbn [orb].
    destruct (Fsub_ok (Flit 2 0) f F2 Ff) as [S1 S2]; [rewrite Z2; apply small_big; abs_bound|]. rewrite Z2 in S1.
    set (y := Fsub (Flit 2 0) f) in *.
    assert (Y : 1 <= B2R y <= 2). { rewrite S1. split; [apply rnd_ge; [apply (format_IZR 1); lia|lra]|apply rnd_le; [apply (format_IZR 2); lia|lra]]. }
    assert (YE : Rabs (B2R y - (2 - B2R f)) <= / 2 ^ 52).
    { rewrite S1. pose proof (rnd_error (2 - B2R f) 1 ltac:(lia)) as Q. change (bpow radix2 1) with 2 in Q.
      specialize (Q ltac:(abs_bound)). change (bpow radix2 (1 - 53)) with (/ 4503599627370496) in Q.
      replace (2 ^ 52) with 4503599627370496 by ring. lra. }
    replace (/ 2 ^ 52) with (/ 4503599627370496) in YE by (f_equal; ring). apply Rabs_le_inv in YE.
    destruct (Fmul_ok y f S2 Ff) as [M1 M2]; [apply small_big; apply Rabs_le; nra|].
    set (e2 := Fmul y f) in *.
    assert (PB : 0 <= B2R y * B2R f <= 1 - / 562949953421312).
    { split; [nra|]. assert (B2R y * B2R f <= (2 - B2R f + / 4503599627370496) * B2R f) by (apply Rmult_le_compat_r; lra).
      assert ((1 - B2R f) * (1 - B2R f) >= / 16777216 * / 16777216) by nra. lra. }
    assert (EB : 0 <= B2R e2 <= 1 - / 1125899906842624).
    { rewrite M1. split; [apply rnd_ge; [apply (format_IZR 0); lia|lra]|].
      pose proof (rnd_error (B2R y * B2R f) 0 ltac:(lia)) as Q. change (bpow radix2 0) with 1 in Q.
      specialize (Q ltac:(abs_bound)). change (bpow radix2 (0 - 53)) with (/ 9007199254740992) in Q. apply Rabs_le_inv in Q. lra. }
    destruct (Fsub_ok (Flit 1 0) e2 F1 M2) as [D1 D2]; [rewrite Z1; apply small_big; abs_bound|]. rewrite Z1 in D1.
    rewrite Bleb_correct, Z0 by assumption.
    rewrite Rle_bool_false; [eexists; reflexivity|]. rewrite D1.
    apply Rlt_le_trans with (/ 1125899906842624); [lra|]. apply rnd_ge; [|lra].
    change (/ 1125899906842624) with (bpow radix2 (-50)). apply generic_format_bpow. unfold FLT_exp. lia.
Qed.

(** Rounding of the numbers with one bit too many between 1 and 2. *)
Lemma rnd_1_2 : forall k, (0 <= k < 2 ^ 53)%Z ->
  rnd (1 + IZR k / 9007199254740992) =
  1 + IZR (if (k mod 4 =? 1)%Z then k - 1 else if (k mod 4 =? 3)%Z then k + 1 else k) / 9007199254740992.
Proof.
  intros k Hk.
  assert (K0 : 0 <= IZR k) by (apply IZR_le; lia).
  assert (K1 : IZR k < 9007199254740992) by (apply IZR_lt; lia).
  set (x := 1 + IZR k / 9007199254740992).
  assert (X : 1 <= x < 2) by (unfold x; lra).
  assert (CE : cexp radix2 fx x = (-52)%Z).
  { unfold cexp. rewrite (mag_unique radix2 x 1); [reflexivity|].
    change (bpow radix2 (1 - 1)) with 1. change (bpow radix2 1) with 2. rewrite Rabs_pos_eq; lra. }
  unfold round, scaled_mantissa. rewrite CE. change (bpow radix2 (- -52)) with 4503599627370496.
  unfold F2R. cbn [Fnum Fexp]. change (bpow radix2 (-52)) with (/ 4503599627370496).
  set (q := (k / 2)%Z).
  destruct (Z.eq_dec (k mod 2) 0) as [E|E].
  - assert (Ek : k = (2 * q)%Z) by (unfold q; pose proof (Z.div_mod k 2); lia).
    assert (M1 : (k mod 4 =? 1)%Z = false) by (apply Z.eqb_neq; rewrite Ek; intros Q; pose proof (Z.div_mod (2 * q) 4); lia).
    assert (M3 : (k mod 4 =? 3)%Z = false) by (apply Z.eqb_neq; rewrite Ek; intros Q; pose proof (Z.div_mod (2 * q) 4); lia).
    rewrite M1, M3.
    replace (x * 4503599627370496) with (IZR (4503599627370496 + q)).
    2:{ unfold x. rewrite Ek, plus_IZR, mult_IZR. field. }
    rewrite (Zrnd_IZR ZnearestE). unfold x. rewrite Ek, plus_IZR, mult_IZR. field.
  - assert (Ek : k = (2 * q + 1)%Z) by (unfold q; pose proof (Z.div_mod k 2); pose proof (Z.mod_pos_bound k 2); lia).
    replace (x * 4503599627370496) with (IZR (4503599627370496 + q) + / 2).
    2:{ unfold x. rewrite Ek, !plus_IZR, mult_IZR. field. }
    unfold Znearest.
    assert (FL : Zfloor (IZR (4503599627370496 + q) + / 2) = (4503599627370496 + q)%Z).
    { apply Zfloor_imp. rewrite (plus_IZR _ 1). lra. }
    assert (CL : Zceil (IZR (4503599627370496 + q) + / 2) = (4503599627370496 + q + 1)%Z).
    { apply Zceil_imp. replace (4503599627370496 + q + 1 - 1)%Z with (4503599627370496 + q)%Z by ring.
      rewrite (plus_IZR _ 1). lra. }
    rewrite FL, CL, Rcompare_Eq by ring.
    assert (EV : Z.even (4503599627370496 + q) = Z.even q) by (rewrite Z.even_add; simpl; destruct (Z.even q); reflexivity).
    rewrite EV. destruct (Z.even q) eqn:Q; simpl negb; cbv iota.
    + apply Z.even_spec in Q. destruct Q as [r R].
      assert (M : (k mod 4)%Z = 1%Z) by (rewrite Ek, R; replace (2 * (2 * r) + 1)%Z with (1 + r * 4)%Z by ring; rewrite Z.mod_add; [reflexivity|lia]).
      rewrite M. simpl (1 =? 1)%Z. cbv iota. rewrite Ek. rewrite plus_IZR. replace (2 * q + 1 - 1)%Z with (2 * q)%Z by ring. rewrite mult_IZR. field.
    + assert (O : Z.odd q = true) by (rewrite <- Z.negb_even, Q; reflexivity). apply Z.odd_spec in O. destruct O as [r R].
      assert (M : (k mod 4)%Z = 3%Z) by (rewrite Ek, R; replace (2 * (2 * r + 1) + 1)%Z with (3 + r * 4)%Z by ring; rewrite Z.mod_add; [reflexivity|lia]).
      rewrite M. simpl (3 =? 1)%Z. simpl (3 =? 3)%Z. cbv iota. rewrite Ek. rewrite !plus_IZR, mult_IZR. field.
Qed.

(** Rounding reaches 1 from the middle of the last interval below 1. *)
Lemma rnd_to_1 : forall x, 1 <= rnd x <-> 1 - / 18014398509481984 <= x.
Proof.
  intros x.
  assert (T : rnd (1 - / 18014398509481984) = 1).
  { set (y := 1 - / 18014398509481984).
    assert (CE : cexp radix2 fx y = (-53)%Z).
    { unfold cexp. rewrite (mag_unique radix2 y 0); [reflexivity|].
      change (bpow radix2 (0 - 1)) with (/ 2). change (bpow radix2 0) with 1. unfold y. rewrite Rabs_pos_eq; lra. }
    unfold round, scaled_mantissa. rewrite CE. change (bpow radix2 (- -53)) with 9007199254740992.
    unfold F2R. cbn [Fnum Fexp]. change (bpow radix2 (-53)) with (/ 9007199254740992).
    replace (y * 9007199254740992) with (9007199254740991 + / 2) by (unfold y; field).
    unfold Znearest.
    assert (FL : Zfloor (9007199254740991 + / 2) = 9007199254740991%Z) by (apply Zfloor_imp; simpl (9007199254740991 + 1)%Z; lra).
    assert (CL : Zceil (9007199254740991 + / 2) = 9007199254740992%Z) by (apply Zceil_imp; simpl (9007199254740992 - 1)%Z; lra).
    rewrite FL, CL, Rcompare_Eq by ring. simpl negb. cbv iota. field. }
  assert (F0 : format (1 - / 9007199254740992)).
  { replace (1 - / 9007199254740992) with (F2R (Float radix2 9007199254740991 (-53))).
    - apply generic_format_FLT. exists (Float radix2 9007199254740991 (-53)); [reflexivity| |]; simpl; lia.
    - unfold F2R. cbn [Fnum Fexp]. change (bpow radix2 (-53)) with (/ 9007199254740992). field. }
  split.
  - intros H. destruct (Rle_or_lt (1 - / 18014398509481984) x) as [L|L]; [exact L|exfalso].
    destruct (Rle_or_lt x (1 - / 9007199254740992)) as [L2|L2].
    + pose proof (rnd_le x _ F0 L2). lra.
    + destruct (round_N_pt radix2 fx (fun n => negb (Z.even n)) x) as [_ N].
      specialize (N _ F0). rewrite (Rabs_pos_eq (rnd x - x)), (Rabs_left1 (1 - / 9007199254740992 - x)) in N by lra. lra.
  - intros H. rewrite <- T. apply round_le; [typeclasses eauto|typeclasses eauto|exact H].
Qed.

(** C44, binary64.  Exactly which flattenings in [0, 1) are refused as a bad
    eccentricity: f = 1 - k/2^53 with k even and k <= 2^26, or with k = 3 modulo 4
    and k (k + 1) <= 3 * 2^52.  So 1 - 2^-53, the largest number below 1, is accepted
    although 1 - 2^-52 is refused. *)
Lemma C44_band_b64_pf : forall lm a f, fin f = true -> 0 <= B2R f < 1 -> Bleb (Flit 0 0) a = true ->
  let ell := MkEll (A := b64A lm) a f in
  (conv_new (A := b64A lm) ell = Err BadEccentricity \/ exists c, conv_new (A := b64A lm) ell = Ok c) /\
  (conv_new (A := b64A lm) ell = Err BadEccentricity <->
   exists k, (1 <= k)%Z /\ B2R f = 1 - IZR k / 2 ^ 53 /\
     ((k mod 2 = 0 /\ k <= 2 ^ 26) \/ (k mod 4 = 3 /\ k * (k + 1) <= 3 * 2 ^ 52))%Z).
Proof.
  intros lm a f Ff Hf Ha ell. destruct lit_0 as [Z0 F0]. destruct lit_1 as [Z1 F1]. destruct lit_2 as [Z2 F2].
  assert (LTa : Bltb a (Flit 0 0) = false).
  { destruct (fin a) eqn:Fa.
    - rewrite Bleb_correct in Ha by assumption. rewrite Bltb_correct by assumption.
      destruct (Rle_bool_spec (B2R (Flit 0 0)) (B2R a)); [|discriminate]. apply Rlt_bool_false. assumption.
    - destruct a as [|[|]| |]; try discriminate; vm_compute in Ha; try discriminate; vm_compute; reflexivity. }
  assert (P53 : 2 ^ 53 = 9007199254740992) by ring. rewrite P53.
  destruct (Fsub_ok (Flit 2 0) f F2 Ff) as [S1 S2]; [rewrite Z2; apply small_big; abs_bound|]. rewrite Z2 in S1.
  set (y := Fsub (Flit 2 0) f) in *.
  assert (Y : 1 <= B2R y <= 2). { rewrite S1. split; [apply rnd_ge; [apply (format_IZR 1); lia|lra]|apply rnd_le; [apply (format_IZR 2); lia|lra]]. }
  destruct (Fmul_ok y f S2 Ff) as [M1 M2]; [apply small_big; apply Rabs_le; nra|].
  set (e2 := Fmul y f) in *.
  assert (EB : 0 <= B2R e2 <= 2).
  { rewrite M1. split; [apply rnd_ge; [apply (format_IZR 0); lia|nra]|apply rnd_le; [apply (format_IZR 2); lia|nra]]. }
  destruct (Fsub_ok (Flit 1 0) e2 F1 M2) as [D1 D2]; [rewrite Z1; apply small_big; abs_bound|]. rewrite Z1 in D1.
  set (ec2 := Fsub (Flit 1 0) e2) in *.
  assert (CN : conv_new (A := b64A lm) ell =
    if Rle_bool 1 (B2R e2) then Err BadEccentricity else
    Ok (MkConv (A := b64A lm) ell (Fmul (Fmul a a) (Flit 1 (-32))) e2 (Fmul (Fmul e2 e2) (Flit 15 (-1))) ec2 (Fsqrt ec2) (Fmul a (Fsqrt ec2)))).
  { unfold ell, conv_new. cbn [el_a el_f]. b64A_ops. rewrite LTa.
    rewrite Bltb_correct, Bleb_correct, Z0, Z1 by assumption. rewrite Rlt_bool_false, Rle_bool_false by lra. cbn [orb].
    fold y. fold e2. fold ec2. rewrite Bleb_correct, Z0 by assumption. rewrite D1.
    destruct (Rle_bool_spec 1 (B2R e2)) as [L|L].
    - rewrite Rle_bool_true; [reflexivity|]. apply rnd_le; [apply (format_IZR 0); lia|lra].
    - rewrite Rle_bool_false; [reflexivity|]. 
      assert (G : B2R e2 < 1 - / 18014398509481984).
      { destruct (Rle_or_lt (1 - / 18014398509481984) (B2R e2)) as [L2|L2]; [|exact L2].
        apply rnd_to_1 in L2. rewrite round_generic in L2 by (typeclasses eauto || apply generic_format_B2R). lra. }
      apply Rlt_le_trans with (bpow radix2 (-54)); [apply bpow_gt_0|]. apply rnd_ge.
      + apply generic_format_bpow. unfold FLT_exp. lia.
      + change (bpow radix2 (-54)) with (/ 18014398509481984). lra. }
  split. { rewrite CN. destruct (Rle_bool 1 (B2R e2)); [left; reflexivity|right; eexists; reflexivity]. }
  assert (IFF : conv_new (A := b64A lm) ell = Err BadEccentricity <-> 1 - / 18014398509481984 <= B2R y * B2R f).
  { rewrite CN. rewrite <- rnd_to_1, <- M1. destruct (Rle_bool_spec 1 (B2R e2)) as [L|L].
    - split; [intros _; exact L|reflexivity].
    - split; [discriminate|intros; lra]. }
  rewrite IFF. clear IFF CN.
  assert (KEY : forall k, (1 <= k < 2 ^ 53)%Z -> B2R f = 1 - IZR k / 9007199254740992 ->
    (1 - / 18014398509481984 <= B2R y * B2R f <->
     ((k mod 2 = 0 /\ k <= 2 ^ 26) \/ (k mod 4 = 3 /\ k * (k + 1) <= 3 * 2 ^ 52))%Z)).
  { intros k Hk E. rewrite S1, E. replace (2 - (1 - IZR k / 9007199254740992)) with (1 + IZR k / 9007199254740992) by ring.
    rewrite rnd_1_2 by lia.
    set (k' := (if (k mod 4 =? 1)%Z then k - 1 else if (k mod 4 =? 3)%Z then k + 1 else k)%Z).
    assert (Q : 1 - / 18014398509481984 <= (1 + IZR k' / 9007199254740992) * (1 - IZR k / 9007199254740992) <->
      (- 2 ^ 52 <= (k' - k) * 2 ^ 53 - k' * k)%Z).
    { split.
      - intros H. apply le_IZR. rewrite opp_IZR, minus_IZR, !mult_IZR, minus_IZR.
        change (IZR (2 ^ 52)) with 4503599627370496. change (IZR (2 ^ 53)) with 9007199254740992. nra.
      - intros H. apply IZR_le in H. rewrite opp_IZR, minus_IZR, !mult_IZR, minus_IZR in H.
        change (IZR (2 ^ 52)) with 4503599627370496 in H. change (IZR (2 ^ 53)) with 9007199254740992 in H. nra. }
    rewrite Q. clear Q. subst k'. pose proof (Z.div_mod k 4 ltac:(lia)) as D4. pose proof (Z.mod_pos_bound k 4 ltac:(lia)) as B4.
    pose proof (Z.div_mod k 2 ltac:(lia)) as D2'. pose proof (Z.mod_pos_bound k 2 ltac:(lia)) as B2'.
    destruct (Z.eqb_spec (k mod 4) 1) as [C1|C1]; [|destruct (Z.eqb_spec (k mod 4) 3) as [C3|C3]].
    - split; [intros H; exfalso|intros H; exfalso; lia]. nia.
    - split; [intros H; right; split; [exact C3|]; lia|]. intros [H|H]; lia.
    - split; [intros H; left; split; [lia|]; nia|]. intros [H|H]; [nia|lia]. }
  split.
  - intros H.
    assert (HALF : / 2 <= B2R f).
    { destruct (Rle_or_lt (/ 2) (B2R f)) as [L|L]; [exact L|exfalso]. 
      assert (YE : Rabs (B2R y - (2 - B2R f)) <= / 4503599627370496).
      { rewrite S1. pose proof (rnd_error (2 - B2R f) 1 ltac:(lia)) as Q. change (bpow radix2 1) with 2 in Q.
        specialize (Q ltac:(abs_bound)). change (bpow radix2 (1 - 53)) with (/ 4503599627370496) in Q. lra. }
      apply Rabs_le_inv in YE. 
      assert (B2R y * B2R f <= (2 - B2R f + / 4503599627370496) * B2R f) by (apply Rmult_le_compat_r; lra). nra. }
    assert (EX : exists m, B2R f = IZR m / 9007199254740992).
    { pose proof (generic_format_B2R 53 1024 f) as G. unfold generic_format, scaled_mantissa in G.
      assert (CE : cexp radix2 fx (B2R f) = (-53)%Z).
      { unfold cexp. rewrite (mag_unique radix2 (B2R f) 0); [reflexivity|].
        change (bpow radix2 (0 - 1)) with (/ 2). change (bpow radix2 0) with 1. rewrite Rabs_pos_eq; lra. }
      change (SpecFloat.fexp 53 1024) with fx in G. rewrite CE in G. unfold F2R in G. cbn [Fnum Fexp] in G.
      change (bpow radix2 (-53)) with (/ 9007199254740992) in G. eexists. rewrite G at 1. unfold Rdiv. reflexivity. }
    destruct EX as [m Em].
    assert (Hm : (2 ^ 52 <= m < 2 ^ 53)%Z).
    { split; [apply le_IZR; change (IZR (2 ^ 52)) with 4503599627370496; lra|apply lt_IZR; change (IZR (2 ^ 53)) with 9007199254740992; lra]. }
    assert (Ek : B2R f = 1 - IZR (2 ^ 53 - m) / 9007199254740992).
    { rewrite Em, minus_IZR. change (IZR (2 ^ 53)) with 9007199254740992. field. }
    exists (2 ^ 53 - m)%Z. split; [lia|]. split; [exact Ek|]. apply KEY; [lia|exact Ek|exact H].
  - intros (k & K1 & Ek & C).
    assert (Hk : (1 <= k < 2 ^ 53)%Z) by nia.
    apply (KEY k Hk Ek). exact C.
Qed.

(** C44, binary64: the largest number below 1 is accepted as a flattening. *)
Lemma C44_band_edge_b64_pf : forall lm,
  let f := Fof (2 ^ 53 - 1) (-53) in
  B2R f = 1 - / 2 ^ 53 /\
  exists c, conv_new (A := b64A lm) (MkEll (A := b64A lm) (Flit 1 0) f) = Ok c.
Proof.
  intros lm f.
  assert (E : B2R f = 1 - / 2 ^ 53). 
  { replace (B2R f) with (9007199254740991 * / 9007199254740992) by reflexivity. replace (2 ^ 53) with 9007199254740992 by ring. field. }
  split; [exact E|].
  assert (Ff : fin f = true) by (vm_compute; reflexivity).
  assert (H1 : Bleb (Flit 0 0) (Flit 1 0) = true) by (vm_compute; reflexivity).
  assert (P : 2 ^ 53 = 9007199254740992) by ring.
  destruct (C44_band_b64_pf lm (Flit 1 0) f Ff) as [[B|B] [C _]]; [rewrite E, P; lra|exact H1| |exact B].
  apply C in B. destruct B as (k & _ & Ek & D). rewrite E in Ek.
  assert (K : k = 1%Z). { apply eq_IZR. rewrite P in Ek. lra. }
  subst k. exfalso. destruct D as [[D _]|[D _]]; vm_compute in D; discriminate.
Qed.

(** C44 on WGS84: accepted, with the polar radius 6356752.3142 m to a tenth of
    a millimetre. *)
Example C44_example_pf : exists c, conv_new (A := realA) (WGS84 (A := realA)) = Ok c /\
  6356752.3142 < cv_b (A := realA) c < 6356752.3143.
Proof.
  unfold WGS84. realA_ops. exists (convR (Rlit 6378137 0) (Rlit 1 0 / Rlit 298257223563 (-9))).
  assert (F : Rlit 1 0 / Rlit 298257223563 (-9) = 1000000000 / 298257223563).
  { unfold Rlit. change (Z.pow_pos 10 9) with 1000000000%Z. change (1 * 10 ^ 0)%Z with 1%Z. field. }
  rewrite F. split; [apply conv_new_R; [lra|rewrite Rlit_0; lra]|]. unfold convR. cbn [cv_b]. rewrite Rlit_0. lra.
Qed.

(** C45.  For every accepted ellipsoid of positive radius, exact arithmetic: the
    point at height 0 is on the ellipsoid of semi-axes a, a, a(1-f); there the
    gradient of the ellipsoid's equation is a positive multiple of [zenith],
    which is a unit vector; and the point at height h is the one at height 0
    plus h times [zenith]. *)
Lemma C45_normal_pf : forall a f c l ph h, conv_new (A := realA) (MkEll (A := realA) a f) = Ok c -> 0 < a ->
  exists x0 y0 z0 : R,
  geodetic_to_geocentric (A := realA) c (MkGeod (A := realA) l ph 0) = Ok (V3 (A := realA) x0 y0 z0) /\
  (x0 ^ 2 + y0 ^ 2) / a ^ 2 + z0 ^ 2 / (a * (1 - f)) ^ 2 = 1 /\
  exists zx zy zz k : R, zenith (A := realA) (MkGeod (A := realA) l ph h) = V3 (A := realA) zx zy zz /\
  zx ^ 2 + zy ^ 2 + zz ^ 2 = 1 /\
  0 < k /\ x0 / a ^ 2 = k * zx /\ y0 / a ^ 2 = k * zy /\ z0 / (a * (1 - f)) ^ 2 = k * zz /\
  geodetic_to_geocentric (A := realA) c (MkGeod (A := realA) l ph h) =
    Ok (V3 (A := realA) (x0 + h * zx) (y0 + h * zy) (z0 + h * zz)).
Proof.
  intros a f c l ph h H Ha. apply conv_new_ok_inv in H. destruct H as (Hf & _ & ->).
  rewrite !to_gc_R by exact Hf. cbv zeta. set (u := uu f (sin ph) (cos ph)).
  assert (U : 0 < u) by (apply uu_pos; [exact Hf|apply sc1]).
  pose proof (uu_sq f (sin ph) (cos ph) Hf (sc1 ph)) as Ud. fold u in Ud. unfold dd in Ud.
  pose proof (sc1 ph) as S1. pose proof (sc1 l) as L1.
  do 3 eexists. split; [reflexivity|]. split.
  - transitivity (u * u * (cos ph * cos ph * (sin l * sin l + cos l * cos l) + (1 - f) * (1 - f) * (sin ph * sin ph))).
    + simpl. field. split; lra.
    + rewrite L1, Rmult_1_r. exact Ud.
  - unfold zenith. cbn [phi elong]. realA_ops. exists (cos ph * cos l), (cos ph * sin l), (sin ph), (u / a).
    split; [reflexivity|]. split.
    { transitivity (cos ph * cos ph * (sin l * sin l + cos l * cos l) + sin ph * sin ph); [simpl; ring|]. rewrite L1. lra. }
    split; [apply Rdiv_lt_0_compat; assumption|].
    split; [simpl; field; lra|]. split; [simpl; field; lra|]. split; [simpl; field; split; lra|].
    f_equal. f_equal; ring.
Qed.

(** C45 on the WGS84 ellipsoid: the point on the equator at longitude 0 and
    height 100 is (6378237, 0, 0). *)
Example C45_example_pf : forall c, conv_new (A := realA) (MkEll (A := realA) 6378137 (1 / 298.257223563)) = Ok c ->
  geodetic_to_geocentric (A := realA) c (MkGeod (A := realA) 0 0 100) = Ok (V3 (A := realA) 6378237 0 0).
Proof.
  intros c H. apply conv_new_ok_inv in H. destruct H as (Hf & _ & ->). rewrite to_gc_R by exact Hf. cbv zeta.
  rewrite sin_0, cos_0. unfold uu, dd. replace (1 * 1 + _) with 1 by ring. rewrite sqrt_1. f_equal. f_equal; lra.
Qed.

(** C46.  For a converter returned by [new], exact arithmetic: never an error. *)
Lemma C46_never_fails_pf : forall el c g, conv_new (A := realA) el = Ok c ->
  exists x, geodetic_to_geocentric (A := realA) c g = Ok x.
Proof.
  intros [a f] c [l ph h] H. apply conv_new_ok_inv in H. destruct H as (Hf & _ & ->).
  rewrite to_gc_R by exact Hf. eexists. reflexivity.
Qed.

(** C46 does depend on [new]: with flattening 1 (which [new] rejects) a pole gives an error. *)
Example C46_example_pf : exists c : EllipsoidConverter realA,
  geodetic_to_geocentric (A := realA) c (MkGeod (A := realA) 0 (PI / 2) 0) = Err BadCoordinates.
Proof.
  exists (MkConv (A := realA) (MkEll (A := realA) 1 1) 0 0 0 0 0 0). unfold geodetic_to_geocentric.
  cbn [cv_el el_a el_f phi elong height]. realA_ops. rlit_in_goal. rewrite sin_PI2, cos_PI2.
  rewrite Rlt_bool_false by lra. reflexivity.
Qed.

(** C47, exact arithmetic, every accepted ellipsoid of positive radius, every
    height above the centres of curvature: longitude comes back exactly, away
    from the axis. *)
Lemma C47_longitude_pf : forall a f c l ph h x, conv_new (A := realA) (MkEll (A := realA) a f) = Ok c -> 0 < a ->
  - (PI / 2) < ph < PI / 2 -> - PI < l <= PI -> - (a * (1 - f) ^ 2) < h ->
  geodetic_to_geocentric (A := realA) c (MkGeod (A := realA) l ph h) = Ok x ->
  elong (A := realA) (geocentric_to_geodetic (A := realA) c x) = l.
Proof.
  intros a f c l ph h x H Ha Hph Hl Hh Hx. apply conv_new_ok_inv in H. destruct H as (Hf & _ & ->).
  replace ((1 - f) ^ 2) with ((1 - f) * (1 - f)) in Hh by (simpl; ring).
  destruct (rt_R a f l ph h Ha Hf ltac:(lra) Hl Hh) as (Hq & Hp & Hz & x' & E & P2 & RR).
  rewrite E in Hx. injection Hx as <-. rewrite RR. cbn [elong].
  rewrite Rlt_bool_true; [reflexivity|].
  apply Rmult_lt_0_compat; [|apply cos_gt_0; unfold Rabs; destruct (Rcase_abs ph); lra].
  assert (1 <= uu f (sin (Rabs ph)) (cos (Rabs ph))) by (apply uu_ge1; [exact Hf|apply sc1]).
  assert ((1 - f) * (1 - f) <= 1) by nra. nra.
Qed.

Lemma rt_exact : forall a f l ph h x, 0 < a -> 0 <= f < 1 ->
  - (PI / 2) < ph < PI / 2 -> - PI < l <= PI -> - (a * ((1 - f) * (1 - f))) < h ->
  0 <= s1_of a f (Rabs ph) h /\ 0 < cc_of a f (Rabs ph) h /\ s1_of a f (Rabs ph) h * cos (Rabs ph) - cc_of a f (Rabs ph) h * sin (Rabs ph) = 0 ->
  geodetic_to_geocentric (A := realA) (convR a f) (MkGeod (A := realA) l ph h) = Ok x ->
  a ^ 2 / 10 ^ 32 < v0 (A := realA) x ^ 2 + v1 (A := realA) x ^ 2 ->
  geocentric_to_geodetic (A := realA) (convR a f) x = MkGeod (A := realA) l ph h.
Proof.
  intros a f l ph h x Ha Hf Hph Hl Hh (S1 & CC & N) Hx FAR.
  destruct (rt_R a f l ph h Ha Hf ltac:(lra) Hl Hh) as (Hq & Hp & Hz & x' & E & P2 & RR).
  rewrite E in Hx. injection Hx as <-. rewrite RR.
  set (q := Rabs ph) in *. set (p := (a * uu f (sin q) (cos q) + h) * cos q) in *.
  assert (Hq' : 0 <= q < PI / 2) by (split; [lra|unfold q, Rabs; destruct (Rcase_abs ph); lra]).
  assert (PP : a * a * / 10 ^ 32 < p * p).
  { rewrite <- P2. change (num realA) with R in *. unfold Rdiv in FAR. simpl in FAR. simpl. lra. }
  assert (P0 : 0 < p).
  { assert (0 <= a * a * / 10 ^ 32) by (apply Rmult_le_pos; [nra|apply Rlt_le, Rinv_0_lt_compat, pow_lt; lra]). nra. }
  pose proof (exact_case a f q h Ha Hf Hq' P0 PP S1 CC N) as EC. fold p in EC. rewrite EC. cbn [fst snd]. rewrite Rlt_bool_true by exact P0.
  f_equal. unfold q, Rabs. destruct (Rlt_bool_spec ph 0), (Rcase_abs ph); lra.
Qed.

(** C47, exact arithmetic: exact inverse on the surface of every accepted
    ellipsoid, except closer to the axis than a / 10^16. *)
Lemma C47_surface_pf : forall a f c l ph x, conv_new (A := realA) (MkEll (A := realA) a f) = Ok c -> 0 < a ->
  - (PI / 2) < ph < PI / 2 -> - PI < l <= PI ->
  geodetic_to_geocentric (A := realA) c (MkGeod (A := realA) l ph 0) = Ok x ->
  a ^ 2 / 10 ^ 32 < v0 (A := realA) x ^ 2 + v1 (A := realA) x ^ 2 ->
  geocentric_to_geodetic (A := realA) c x = MkGeod (A := realA) l ph 0.
Proof.
  intros a f c l ph x H Ha Hph Hl Hx FAR. apply conv_new_ok_inv in H. destruct H as (Hf & _ & ->).
  apply (rt_exact a f l ph 0 x Ha Hf Hph Hl); try assumption.
  - assert (0 < a * ((1 - f) * (1 - f))) by (repeat apply Rmult_lt_0_compat; lra). lra.
  - apply surface_case; [assumption..|]. split; [apply Rabs_pos|unfold Rabs; destruct (Rcase_abs ph); lra].
Qed.

(** C47, exact arithmetic: exact inverse for a sphere, at every height above
    its centre. *)
Lemma C47_sphere_pf : forall a c l ph h x, conv_new (A := realA) (MkEll (A := realA) a 0) = Ok c -> 0 < a ->
  - (PI / 2) < ph < PI / 2 -> - PI < l <= PI -> - a < h ->
  geodetic_to_geocentric (A := realA) c (MkGeod (A := realA) l ph h) = Ok x ->
  a ^ 2 / 10 ^ 32 < v0 (A := realA) x ^ 2 + v1 (A := realA) x ^ 2 ->
  geocentric_to_geodetic (A := realA) c x = MkGeod (A := realA) l ph h.
Proof.
  intros a c l ph h x H Ha Hph Hl Hh Hx FAR. apply conv_new_ok_inv in H. destruct H as (Hf & _ & ->).
  apply (rt_exact a 0 l ph h x Ha Hf Hph Hl); try assumption; [lra|].
  apply sphere_case; [assumption| |assumption]. split; [apply Rabs_pos|unfold Rabs; destruct (Rcase_abs ph); lra].
Qed.

(** C47, exact arithmetic: exact inverse on the equatorial plane of every
    accepted ellipsoid, at every height above the centre of curvature. *)
Lemma C47_equator_pf : forall a f c l h x, conv_new (A := realA) (MkEll (A := realA) a f) = Ok c -> 0 < a ->
  - PI < l <= PI -> - (a * (1 - f) ^ 2) < h ->
  geodetic_to_geocentric (A := realA) c (MkGeod (A := realA) l 0 h) = Ok x ->
  a ^ 2 / 10 ^ 32 < v0 (A := realA) x ^ 2 + v1 (A := realA) x ^ 2 ->
  geocentric_to_geodetic (A := realA) c x = MkGeod (A := realA) l 0 h.
Proof.
  intros a f c l h x H Ha Hl Hh Hx FAR. apply conv_new_ok_inv in H. destruct H as (Hf & _ & ->).
  replace ((1 - f) ^ 2) with ((1 - f) * (1 - f)) in Hh by (simpl; ring). pose proof PI_RGT_0.
  apply (rt_exact a f l 0 h x Ha Hf ltac:(lra) Hl); try assumption.
  rewrite Rabs_R0. apply equator_case; assumption.
Qed.

(** C47, exact arithmetic: at the poles of every accepted ellipsoid, at every
    height above the centre of curvature, latitude and height come back exactly
    (and longitude 0). *)
Lemma C47_poles_pf : forall a f c l ph h x, conv_new (A := realA) (MkEll (A := realA) a f) = Ok c -> 0 < a ->
  ph = PI / 2 \/ ph = - (PI / 2) -> - PI < l <= PI -> - (a * (1 - f) ^ 2) < h ->
  geodetic_to_geocentric (A := realA) c (MkGeod (A := realA) l ph h) = Ok x ->
  geocentric_to_geodetic (A := realA) c x = MkGeod (A := realA) 0 ph h.
Proof.
  intros a f c l ph h x H Ha Hph Hl Hh Hx. apply conv_new_ok_inv in H. destruct H as (Hf & _ & ->).
  replace ((1 - f) ^ 2) with ((1 - f) * (1 - f)) in Hh by (simpl; ring). pose proof PI_RGT_0.
  destruct (rt_R a f l ph h Ha Hf ltac:(lra) Hl Hh) as (Hq & Hp & Hz & x' & E & P2 & RR).
  rewrite E in Hx. injection Hx as <-. rewrite RR. clear RR E P2 Hp Hz Hq.
  assert (Q : Rabs ph = PI / 2) by (destruct Hph as [-> | ->]; [|rewrite Rabs_Ropp]; apply Rabs_pos_eq; lra).
  rewrite Q. rewrite (pole_case a f h Ha Hf). cbn [fst snd]. rewrite cos_PI2, Rmult_0_r.
  rewrite Rlt_bool_false by lra. f_equal. destruct Hph as [-> | ->]; [rewrite Rlt_bool_false|rewrite Rlt_bool_true]; lra.
Qed.

Lemma halley_profile : forall n, -0.1 <= n -> 0 <= Rabs n ^ 3 / (1 + n) ^ 4 <= 0.12 /\ 0 <= n ^ 2 / (1 + n) ^ 3 <= 0.15.
Proof.
  intros n Hn. set (m := 1 + n). assert (M : 0.9 <= m) by (unfold m; lra).
  assert (m3 : 0 < m ^ 3) by (apply pow_lt; lra). assert (m4 : 0 < m ^ 4) by (apply pow_lt; lra).
  assert (E : n = m - 1) by (unfold m; ring). clearbody m. subst n.
  split; (split; [apply Rmult_le_pos; [try apply pow2_ge_0; apply pow_le, Rabs_pos|apply Rlt_le, Rinv_0_lt_compat; assumption]|]).
  - apply Rmult_le_reg_r with (m ^ 4); [exact m4|]. unfold Rdiv. rewrite Rmult_assoc, Rinv_l, Rmult_1_r by lra.
    destruct (Rle_lt_dec 1 m) as [P|P].
    + rewrite Rabs_pos_eq by lra.
      (* 0.12 m^4 - (m-1)^3 : square completion around m = 4 *)
      assert (Q : 0 <= (m - 4) * (m - 4) * (27 / 256 * (m * m) - 5 / 32 * m + 1 / 16)).
      { apply Rmult_le_pos; [apply Rle_0_sqr|]. pose proof (Rle_0_sqr (m - 20 / 27)). unfold Rsqr in *. lra. }
      assert (0 <= m ^ 4) by lra. 
      replace ((m - 4) * (m - 4) * (27 / 256 * (m * m) - 5 / 32 * m + 1 / 16)) with (27 / 256 * m ^ 4 - (m - 1) ^ 3) in Q by (simpl; field).
      lra.
    + rewrite Rabs_left by lra. assert ((- (m - 1)) ^ 3 <= 0.1 ^ 3) by (apply pow_incr; lra). assert (0.9 ^ 4 <= m ^ 4) by (apply pow_incr; lra). lra.
  - apply Rmult_le_reg_r with (m ^ 3); [exact m3|]. unfold Rdiv. rewrite Rmult_assoc, Rinv_l, Rmult_1_r by lra.
    assert (Q : 0 <= (m - 3) * (m - 3) * (4 / 27 * m - 1 / 9)) by (apply Rmult_le_pos; [apply Rle_0_sqr|lra]).
    replace ((m - 3) * (m - 3) * (4 / 27 * m - 1 / 9)) with (4 / 27 * m ^ 3 - (m - 1) ^ 2) in Q by (simpl; field). lra.
Qed.

(** C47, exact arithmetic, flattening at most 0.006 (the Earth's is 0.0034), any
    height above -a/10, any latitude: latitude comes back to within
    5 f^4 (|h|/a)^3 / (1 + h/a)^4 + 125 f^5 (h/a)^2 / (1 + h/a)^3 + 2e-16 radian,
    and height to within the square of that times 1.01 a + |h|. *)
Lemma C47_tolerance_pf : forall a f c l ph h x, conv_new (A := realA) (MkEll (A := realA) a f) = Ok c -> 0 < a ->
  f <= 0.006 -> - (PI / 2) <= ph <= PI / 2 -> - PI < l <= PI -> - (a / 10) <= h ->
  geodetic_to_geocentric (A := realA) c (MkGeod (A := realA) l ph h) = Ok x ->
  let g := geocentric_to_geodetic (A := realA) c x in
  let tol := 5 * f ^ 4 * Rabs (h / a) ^ 3 / (1 + h / a) ^ 4 + 125 * f ^ 5 * (h / a) ^ 2 / (1 + h / a) ^ 3 + 2 / 10 ^ 16 in
  Rabs (phi (A := realA) g - ph) <= tol /\
  Rabs (height (A := realA) g - h) <= (Rabs h + 1.01 * a) * tol ^ 2.
Proof.
  intros a f c l ph h x H Ha Hf6 Hph Hl Hh Hx g tol. apply conv_new_ok_inv in H. destruct H as (Hf & _ & E0).
  unfold g. rewrite E0 in *. clear g E0.
  assert (Hh' : - (a * ((1 - f) * (1 - f))) < h).
  { assert (0.9 <= (1 - f) * (1 - f)) by nra. assert (a * 0.9 <= a * ((1 - f) * (1 - f))) by (apply Rmult_le_compat_l; lra). lra. }
  destruct (rt_R a f l ph h Ha Hf ltac:(lra) Hl Hh') as (Hq & Hp & Hz & x' & E & P2 & RR).
  rewrite E in Hx. injection Hx as <-. rewrite RR. cbn [phi height]. clear RR E P2 Hp Hz.
  destruct (near_case a f (Rabs ph) h Ha ltac:(lra) Hq ltac:(lra)) as [N1 N2]. cbv zeta in N1, N2. fold tol in N1, N2.
  set (r := gc2gd_phi_height _ _ _) in *. split; [|exact N2].
  destruct (Rlt_bool_spec ph 0) as [L|L].
  - rewrite (Rabs_left ph L) in N1. replace (- fst r - ph) with (- (fst r - - ph)) by ring. rewrite Rabs_Ropp. exact N1.
  - rewrite (Rabs_pos_eq ph L) in N1. exact N1.
Qed.

(** C47, exact arithmetic, WGS84 between 10 km below and 10 km above the
    ellipsoid: 4e-16 radian (3 nanometres) in latitude and 10^-23 m in height. *)
Lemma C47_wgs84_pf : forall c l ph h x, conv_new (A := realA) (MkEll (A := realA) 6378137 (1 / 298.257223563)) = Ok c ->
  - (PI / 2) <= ph <= PI / 2 -> - PI < l <= PI -> -10000 <= h <= 10000 ->
  geodetic_to_geocentric (A := realA) c (MkGeod (A := realA) l ph h) = Ok x ->
  let g := geocentric_to_geodetic (A := realA) c x in
  Rabs (phi (A := realA) g - ph) <= 4 / 10 ^ 16 /\ Rabs (height (A := realA) g - h) <= / 10 ^ 23.
Proof.
  intros c l ph h x H Hph Hl Hh Hx g.
  destruct (C47_tolerance_pf _ _ c l ph h x H ltac:(lra) ltac:(lra) Hph Hl ltac:(lra) Hx) as [B1 B2].
  cbv zeta in B1, B2. fold g in B1, B2. 
  set (f := 1 / 298.257223563) in *. set (n := h / 6378137) in *.
  assert (Hn : -0.00157 <= n <= 0.00157) by (unfold n; lra).
  assert (Hf : 0 <= f <= 0.003353) by (unfold f; lra).
  set (t := 5 * f ^ 4 * Rabs n ^ 3 / (1 + n) ^ 4 + 125 * f ^ 5 * n ^ 2 / (1 + n) ^ 3 + 2 / 10 ^ 16) in *.
  assert (T : 0 <= t <= 4 / 10 ^ 16).
  { unfold t. assert (Hm : 0 <= Rabs n <= 0.00157) by (split; [apply Rabs_pos|apply Rabs_le; lra]).
    assert (F4 : 0 <= f ^ 4 <= 0.003353 ^ 4) by (split; [apply pow_le; lra|apply pow_incr; lra]).
    assert (F5 : 0 <= f ^ 5 <= 0.003353 ^ 5) by (split; [apply pow_le; lra|apply pow_incr; lra]).
    assert (N3 : 0 <= Rabs n ^ 3 <= 0.00157 ^ 3) by (split; [apply pow_le; lra|apply pow_incr; lra]).
    assert (N2 : 0 <= n ^ 2 <= 0.00157 ^ 2) by (split; [apply pow2_ge_0|rewrite <- (pow2_abs n); apply pow_incr; lra]).
    assert (D3 : 0.99 <= (1 + n) ^ 3) by (assert (0.99843 ^ 3 <= (1 + n) ^ 3) by (apply pow_incr; lra); lra).
    assert (D4 : 0.99 <= (1 + n) ^ 4) by (assert (0.99843 ^ 4 <= (1 + n) ^ 4) by (apply pow_incr; lra); lra).
    assert (I3 : 0 < / (1 + n) ^ 3 <= 1.02).
    { split; [apply Rinv_0_lt_compat; lra|]. apply Rle_trans with (/ 0.99); [apply Rinv_le_contravar; lra|lra]. }
    assert (I4 : 0 < / (1 + n) ^ 4 <= 1.02).
    { split; [apply Rinv_0_lt_compat; lra|]. apply Rle_trans with (/ 0.99); [apply Rinv_le_contravar; lra|lra]. }
    assert (P1 : 0 <= 5 * f ^ 4 * Rabs n ^ 3 / (1 + n) ^ 4 <= 5 * 0.003353 ^ 4 * 0.00157 ^ 3 * 1.02).
    { unfold Rdiv. split; [apply Rmult_le_pos; [apply Rmult_le_pos|]; lra|]. apply Rmult_le_compat; [apply Rmult_le_pos; lra|lra| |lra]. apply Rmult_le_compat; lra. }
    assert (P2 : 0 <= 125 * f ^ 5 * n ^ 2 / (1 + n) ^ 3 <= 125 * 0.003353 ^ 5 * 0.00157 ^ 2 * 1.02).
    { unfold Rdiv. split; [apply Rmult_le_pos; [apply Rmult_le_pos|]; lra|]. apply Rmult_le_compat; [apply Rmult_le_pos; lra|lra| |lra]. apply Rmult_le_compat; lra. }
    split; lra. }
  clearbody t. split; [lra|].
  eapply Rle_trans; [exact B2|].
  assert (T2 : t ^ 2 <= (4 / 10 ^ 16) ^ 2) by (apply pow_incr; lra).
  assert (HB : 0 <= Rabs h + 1.01 * 6378137 <= 6500000) by (pose proof (Rabs_pos h); assert (Rabs h <= 10000) by (apply Rabs_le; lra); lra).
  apply Rle_trans with (6500000 * (4 / 10 ^ 16) ^ 2).
  - apply Rmult_le_compat; [lra|apply pow2_ge_0|lra|exact T2].
  - lra.
Qed.

(** C47, exact arithmetic, WGS84, every height from 600 km below the ellipsoid
    to infinity: 10^-10 radian in latitude (0.64 mm on the ground), and in height
    10^-20 of the distance. *)
Lemma C47_wgs84_everywhere_pf : forall c l ph h x, conv_new (A := realA) (MkEll (A := realA) 6378137 (1 / 298.257223563)) = Ok c ->
  - (PI / 2) <= ph <= PI / 2 -> - PI < l <= PI -> -600000 <= h ->
  geodetic_to_geocentric (A := realA) c (MkGeod (A := realA) l ph h) = Ok x ->
  let g := geocentric_to_geodetic (A := realA) c x in
  Rabs (phi (A := realA) g - ph) <= / 10 ^ 10 /\ Rabs (height (A := realA) g - h) <= (Rabs h + 1.01 * 6378137) / 10 ^ 20.
Proof.
  intros c l ph h x H Hph Hl Hh Hx g.
  destruct (C47_tolerance_pf _ _ c l ph h x H ltac:(lra) ltac:(lra) Hph Hl ltac:(lra) Hx) as [B1 B2].
  cbv zeta in B1, B2. fold g in B1, B2.
  set (n := h / 6378137) in *. assert (Hn : -0.1 <= n) by (unfold n; lra).
  set (t := 5 * (1 / 298.257223563) ^ 4 * Rabs n ^ 3 / (1 + n) ^ 4 + 125 * (1 / 298.257223563) ^ 5 * n ^ 2 / (1 + n) ^ 3 + 2 / 10 ^ 16) in *.
  assert (T : 0 <= t <= / 10 ^ 10).
  { destruct (halley_profile n Hn) as [X Y]. unfold t. 
    replace (5 * (1 / 298.257223563) ^ 4 * Rabs n ^ 3 / (1 + n) ^ 4) with (5 * (1 / 298.257223563) ^ 4 * (Rabs n ^ 3 / (1 + n) ^ 4)) by (field; lra).
    replace (125 * (1 / 298.257223563) ^ 5 * n ^ 2 / (1 + n) ^ 3) with (125 * (1 / 298.257223563) ^ 5 * (n ^ 2 / (1 + n) ^ 3)) by (field; lra).
    set (X' := Rabs n ^ 3 / (1 + n) ^ 4) in *. set (Y' := n ^ 2 / (1 + n) ^ 3) in *. clearbody X' Y'. split; lra. }
  clearbody t. split; [lra|].
  eapply Rle_trans; [exact B2|]. unfold Rdiv. apply Rmult_le_compat_l; [pose proof (Rabs_pos h); lra|].
  apply Rle_trans with ((/ 10 ^ 10) ^ 2); [apply pow_incr; lra|lra].
Qed.

(** C47 at a concrete place: 45 degrees south, 30 degrees west, on a sphere of
    radius 2 at height 1. *)
Example C47_example_pf : forall c, conv_new (A := realA) (MkEll (A := realA) 2 0) = Ok c -> exists x,
  geodetic_to_geocentric (A := realA) c (MkGeod (A := realA) (- (PI / 6)) (- (PI / 4)) 1) = Ok x /\
  geocentric_to_geodetic (A := realA) c x = MkGeod (A := realA) (- (PI / 6)) (- (PI / 4)) 1.
Proof.
  intros c H. destruct (C46_never_fails_pf _ c (MkGeod (A := realA) (- (PI / 6)) (- (PI / 4)) 1) H) as [x E].
  exists x. split; [exact E|]. pose proof PI_RGT_0 as P.
  apply (C47_sphere_pf 2 c (- (PI / 6)) (- (PI / 4)) 1 x H); try lra; [exact E|].
  pose proof H as H'. apply conv_new_ok_inv in H'. destruct H' as (Hf & _ & ->).
  destruct (rt_R 2 0 (- (PI / 6)) (- (PI / 4)) 1 ltac:(lra) Hf ltac:(lra) ltac:(lra) ltac:(lra)) as (Hq & Hp & Hz & x' & E' & P2 & _).
  rewrite E' in E. injection E as <-. change (num realA) with R in *.
  assert (Q : Rabs (- (PI / 4)) = PI / 4) by (rewrite Rabs_Ropp; apply Rabs_pos_eq; lra). rewrite Q in P2.
  assert (1 <= uu 0 (sin (PI / 4)) (cos (PI / 4))) by (apply uu_ge1; [exact Hf|apply sc1]).
  set (u := uu 0 (sin (PI / 4)) (cos (PI / 4))) in *.
  assert (C : cos (PI / 4) * cos (PI / 4) = / 2).
  { rewrite cos_PI4. assert (sqrt 2 * sqrt 2 = 2) by (apply sqrt_sqrt; lra). assert (0 < sqrt 2) by (apply sqrt_lt_R0; lra).
    transitivity (1 / (sqrt 2 * sqrt 2)); [field; lra|rewrite H1; lra]. }
  replace (v0 (A := realA) x' ^ 2 + v1 (A := realA) x' ^ 2) with ((2 * u + 1) * (2 * u + 1) * (cos (PI / 4) * cos (PI / 4))).
  - rewrite C. apply Rlt_le_trans with 1; [simpl; lra|nra].
  - symmetry. transitivity ((2 * u + 1) * cos (PI / 4) * ((2 * u + 1) * cos (PI / 4))); [|ring]. rewrite <- P2. simpl. ring.
Qed.

(** C48, binary64, whatever the libm and the converter: negating z negates the
    latitude bit for bit, and leaves longitude and height as they are; for z = 0
    (either sign) or NaN nothing at all changes. *)
Lemma C48_reflection_b64_pf : forall lm (c : EllipsoidConverter (b64A lm)) (x y z : b64),
  let g := geocentric_to_geodetic (A := b64A lm) c (V3 (A := b64A lm) x y z) in
  let g' := geocentric_to_geodetic (A := b64A lm) c (V3 (A := b64A lm) x y (Bopp z)) in
  elong (A := b64A lm) g' = elong (A := b64A lm) g /\ height (A := b64A lm) g' = height (A := b64A lm) g /\
  match z with
  | B754_zero _ | B754_nan => phi (A := b64A lm) g' = phi (A := b64A lm) g
  | _ => phi (A := b64A lm) g' = Bopp (phi (A := b64A lm) g)
  end.
Proof.
  intros lm c x y z g g'. unfold g, g', geocentric_to_geodetic. cbn [v0 v1 v2]. b64A_ops.
  assert (AB : Babs (Bopp z) = Babs z) by (destruct z; reflexivity). rewrite AB.
  destruct (gc2gd_phi_height c (Fadd (sq (A := b64A lm) x) (sq (A := b64A lm) y)) (Babs z)) as [ph h].
  cbn [elong phi height]. split; [reflexivity|]. split; [reflexivity|].
  assert (OO : forall t : b64, Bopp (Bopp t) = t) by (intros t; apply Bopp_involutive).
  assert (PS : forall m e H, Bltb (B754_finite false m e H) (Flit 0 0) = false /\ Bltb (B754_finite true m e H) (Flit 0 0) = true).
  { intros m e H. destruct lit_0 as [Z0 F0].
    split; rewrite Bltb_correct by (reflexivity || exact F0); rewrite Z0.
    - apply Rlt_bool_false. apply F2R_ge_0. simpl. lia.
    - apply Rlt_bool_true. apply F2R_lt_0. simpl. lia. }
  destruct z as [s|s| |s m e H].
  - destruct s; reflexivity.
  - destruct s; cbn [Bopp negb].
    + change (Bltb (B754_infinity false) (Flit 0 0)) with false. change (Bltb (B754_infinity true) (Flit 0 0)) with true. cbv iota.
      rewrite OO. reflexivity.
    + change (Bltb (B754_infinity false) (Flit 0 0)) with false. change (Bltb (B754_infinity true) (Flit 0 0)) with true. cbv iota. reflexivity.
  - reflexivity.
  - destruct s; cbn [Bopp negb]; rewrite !(proj1 (PS m e H)), !(proj2 (PS m e H)); cbv iota; rewrite ?OO; reflexivity.
Qed.

(** C48, exact arithmetic: the same. *)
Lemma C48_reflection_pf : forall (c : EllipsoidConverter realA) (x y z : R), z <> 0 ->
  let g := geocentric_to_geodetic (A := realA) c (V3 (A := realA) x y z) in
  geocentric_to_geodetic (A := realA) c (V3 (A := realA) x y (- z)) =
    MkGeod (A := realA) (elong (A := realA) g) (- phi (A := realA) g) (height (A := realA) g).
Proof.
  intros c x y z Hz g. unfold g. rewrite !to_gd_R. cbv zeta. cbn [elong phi height]. rewrite Rabs_Ropp. f_equal.
  change (num realA) with R.
  destruct (Rlt_bool_spec z 0), (Rlt_bool_spec (- z) 0); ring || lra.
Qed.

Lemma turns : forall (j : Z) w, cos (w - 2 * PI * IZR j) = cos w /\ sin (w - 2 * PI * IZR j) = sin w.
Proof.
  intros j w. split.
    - transitivity (cos (w - 2 * PI * IZR j + 2 * IZR j * PI)); [|f_equal; ring]. symmetry.
      destruct (Z_le_gt_dec 0 j) as [L|G].
      + rewrite <- (Z2Nat.id j L), <- INR_IZR_INZ. apply cos_period.
      + assert (L : (0 <= - j)%Z) by lia. 
        transitivity (cos (w - 2 * PI * IZR j + 2 * IZR j * PI + 2 * INR (Z.to_nat (- j)) * PI)); [symmetry; apply cos_period|].
        f_equal. rewrite INR_IZR_INZ, Z2Nat.id by exact L. rewrite opp_IZR. ring.
    - transitivity (sin (w - 2 * PI * IZR j + 2 * IZR j * PI)); [|f_equal; ring]. symmetry.
      destruct (Z_le_gt_dec 0 j) as [L|G].
      + rewrite <- (Z2Nat.id j L), <- INR_IZR_INZ. apply sin_period.
      + assert (L : (0 <= - j)%Z) by lia. 
        transitivity (sin (w - 2 * PI * IZR j + 2 * IZR j * PI + 2 * INR (Z.to_nat (- j)) * PI)); [symmetry; apply sin_period|].
        f_equal. rewrite INR_IZR_INZ, Z2Nat.id by exact L. rewrite opp_IZR. ring.
Qed.

(** C48, exact arithmetic: turning about the polar axis by any angle changes
    neither latitude nor height, and (off the axis) adds the angle to the
    longitude, up to a whole number of turns. *)
Lemma C48_rotation_pf : forall (c : EllipsoidConverter realA) (x y z t : R),
  let g := geocentric_to_geodetic (A := realA) c (V3 (A := realA) x y z) in
  let g' := geocentric_to_geodetic (A := realA) c
     (V3 (A := realA) (x * cos t - y * sin t) (x * sin t + y * cos t) z) in
  phi (A := realA) g' = phi (A := realA) g /\ height (A := realA) g' = height (A := realA) g /\
  (x ^ 2 + y ^ 2 <> 0 -> exists k : Z, elong (A := realA) g' = elong (A := realA) g + t + 2 * PI * IZR k).
Proof.
  intros c x y z t g g'. unfold g, g'. rewrite !to_gd_R. cbv zeta. cbn [elong phi height].
  assert (P2 : (x * cos t - y * sin t) * (x * cos t - y * sin t) + (x * sin t + y * cos t) * (x * sin t + y * cos t) = x * x + y * y).
  { transitivity ((x * x + y * y) * (sin t * sin t + cos t * cos t)); [ring|rewrite sc1; ring]. }
  rewrite P2. split; [reflexivity|]. split; [reflexivity|].
  intros N. assert (PP : 0 < x * x + y * y).
  { pose proof (Rle_0_sqr x). pose proof (Rle_0_sqr y). unfold Rsqr in *. simpl in N. rewrite !Rmult_1_r in N. lra. }
  rewrite Rlt_bool_true by exact PP.
  set (r := sqrt (x * x + y * y)). assert (R0 : 0 < r) by (apply sqrt_lt_R0; exact PP).
  assert (R2 : r * r = x * x + y * y) by (apply sqrt_sqrt; lra).
  destruct (L_Frames.cos_atan2 x y r R0 R2) as [C S].
  destruct (L_Frames.cos_atan2 (x * cos t - y * sin t) (x * sin t + y * cos t) r R0 ltac:(rewrite P2; exact R2)) as [C' S'].
  set (al := Ratan2 y x) in *. set (be := Ratan2 (x * sin t + y * cos t) (x * cos t - y * sin t)) in *.
  (* reduce al + t to a principal value *)
  set (k := Zfloor ((al + t - be) / (2 * PI) + / 2)).
  pose proof PI_RGT_0 as P. pose proof (Zfloor_lb ((al + t - be) / (2 * PI) + / 2)) as B1. pose proof (Zfloor_ub ((al + t - be) / (2 * PI) + / 2)) as B2. fold k in B1, B2.
  assert (X : (al + t - be) = (al + t - be) / (2 * PI) * (2 * PI)) by (field; lra).
  set (v := (al + t - be) / (2 * PI)) in *. clearbody v.
  exists (- k)%Z. rewrite opp_IZR.
  replace (al + t + 2 * PI * - IZR k) with ((al + t) - 2 * PI * IZR k) by ring.
  destruct (turns k (al + t)) as [TC TS].
  apply same_point_same_angle.
  - assert (Z : be - (al + t - 2 * PI * IZR k) = 2 * PI * (IZR k - v)) by lra. rewrite Z.
    assert (Y : -1 < IZR k - v < 1) by lra. clear -Y P. split; nra.
  - rewrite TC, C', cos_plus, C, S. field. lra.
  - rewrite TS, S', sin_plus, C, S. field. lra.
Qed.

(** C48, exact arithmetic: latitude in [-pi/2, pi/2], longitude in (-pi, pi],
    and off the axis x = p cos(longitude), y = p sin(longitude) with p > 0. *)
Lemma C48_range_pf : forall (c : EllipsoidConverter realA) (x y z : R),
  let g := geocentric_to_geodetic (A := realA) c (V3 (A := realA) x y z) in
  - (PI / 2) <= phi (A := realA) g <= PI / 2 /\ - PI < elong (A := realA) g <= PI /\
  (x ^ 2 + y ^ 2 <> 0 -> exists p, 0 < p /\ x = p * cos (elong (A := realA) g) /\ y = p * sin (elong (A := realA) g)).
Proof.
  intros c x y z g. unfold g. rewrite to_gd_R. cbv zeta. cbn [elong phi height]. pose proof PI_RGT_0 as P.
  assert (B : - (PI / 2) <= fst (gc2gd_phi_height (A := realA) c (x * x + y * y) (Rabs z)) <= PI / 2).
  { unfold gc2gd_phi_height. realA_ops. rewrite !(Rlit_0 2).
    destruct (Rlt_bool (cv_aeps2 c) (x * x + y * y)); [|cbn [fst]; lra].
    destruct (gc2gd_step c (sqrt (x * x + y * y)) (Rabs z)) as [s1 cc]. cbn [fst].
    pose proof (atan_bound (s1 / cc)). lra. }
  split; [destruct (Rlt_bool z 0); lra|]. split.
  - destruct (Rlt_bool 0 (x * x + y * y)); [apply Ratan2_range|lra].
  - intros N. assert (PP : 0 < x * x + y * y).
    { pose proof (Rle_0_sqr x). pose proof (Rle_0_sqr y). unfold Rsqr in *. simpl in N. rewrite !Rmult_1_r in N. lra. }
    rewrite Rlt_bool_true by exact PP.
    set (r := sqrt (x * x + y * y)). assert (R0 : 0 < r) by (apply sqrt_lt_R0; exact PP).
    assert (R2 : r * r = x * x + y * y) by (apply sqrt_sqrt; lra).
    destruct (L_Frames.cos_atan2 x y r R0 R2) as [C S]. exists r. split; [exact R0|].
    rewrite C, S. split; field; lra.
Qed.

(** C48 on a concrete point of the unit sphere, south of the equator on the
    far meridian: (-1/2, 0, -sqrt 3 / 2) has longitude pi and latitude -pi/3. *)
Example C48_example_pf : forall c, conv_new (A := realA) (MkEll (A := realA) 1 0) = Ok c ->
  geocentric_to_geodetic (A := realA) c (V3 (A := realA) (- (1 / 2)) 0 (- (sqrt 3 / 2))) = MkGeod (A := realA) PI (- (PI / 3)) 0.
Proof.
  intros c H. pose proof PI_RGT_0 as P.
  destruct (C46_never_fails_pf _ c (MkGeod (A := realA) PI (- (PI / 3)) 0) H) as [x E].
  pose proof E as E0.
  pose proof H as H'. apply conv_new_ok_inv in H'. destruct H' as (Hf & _ & Ec).
  rewrite Ec, to_gc_R in E0 by exact Hf. cbv zeta in E0.
  assert (X : x = V3 (A := realA) (- (1 / 2)) 0 (- (sqrt 3 / 2))).
  { injection E0 as <-. unfold uu, dd. rewrite sin_neg, cos_neg, sin_PI, cos_PI, sin_PI3, cos_PI3.
    assert (Q : sqrt 3 * sqrt 3 = 3) by (apply sqrt_sqrt; lra).
    replace (1 / 2 * (1 / 2) + (1 - 0) * (1 - 0) * (- (sqrt 3 / 2) * - (sqrt 3 / 2))) with 1 by lra.
    rewrite sqrt_1. f_equal; lra. }
  rewrite <- X. apply (C47_surface_pf 1 0 c PI (- (PI / 3)) x H); try lra; [exact E|].
  rewrite X. cbn [v0 v1]. simpl. lra.
Qed.

(** ** Degrees *)

Lemma rem_euclid_R : forall x y, 0 < y -> 0 <= rem_euclid (A := realA) x y < y /\
  exists k : Z, x = rem_euclid (A := realA) x y + y * IZR k.
Proof.
  intros x y Hy. unfold rem_euclid. realA_ops. rlit_in_goal.
  destruct (Rrem_bounds x y Hy) as [B _]. rewrite (Rabs_pos_eq y) by lra.
  destruct (Rlt_bool_spec (Rrem x y) 0).
  - split; [lra|]. exists (Ztrunc (x / y) - 1)%Z. rewrite minus_IZR. unfold Rrem. ring.
  - split; [lra|]. exists (Ztrunc (x / y))%Z. unfold Rrem. ring.
Qed.

(** C49, exact arithmetic: [Geodetic360::from] never panics; longitude in
    [-180, 180), latitude in [-90, 90), a whole number of turns (half turns for
    latitude) from the input; the height is kept. *)
Lemma C49_range_pf : forall p l ph h, exists lo la : R,
  geodetic_to_360 (A := realA) p (MkGeod (A := realA) l ph h) = Val (MkG360 (A := realA) lo la h) /\
  -180 <= lo < 180 /\ -90 <= la < 90 /\
  (exists k : Z, l = lo * (PI / 180) + 2 * PI * IZR k) /\
  (exists k : Z, ph = la * (PI / 180) + PI * IZR k).
Proof.
  intros p l ph h. pose proof PI_RGT_0 as P.
  assert (LO : exists lo : R, lon_360 (A := realA) l = lo /\ -180 <= lo < 180 /\ exists k : Z, l = lo * (PI / 180) + 2 * PI * IZR k).
  { unfold lon_360, DEGREE. realA_ops. rewrite !(Rlit_0 180), !(Rlit_0 360).
    destruct (rem_euclid_R (l / (PI / 180) + 180) 360 ltac:(lra)) as [B [k K]].
    eexists. split; [reflexivity|]. change (num realA) with R in *. split; [lra|]. exists k.
    set (r := rem_euclid (A := realA) (l / (PI / 180) + 180) 360) in *. change (num realA) with R in *.
    assert (l / (PI / 180) = r - 180 + 360 * IZR k) by lra.
    transitivity (l / (PI / 180) * (PI / 180)); [field; lra|]. rewrite H. field. }
  assert (LA : exists la : R, lat_360 (A := realA) ph = la /\ -90 <= la < 90 /\ exists k : Z, ph = la * (PI / 180) + PI * IZR k).
  { unfold lat_360, DEGREE. realA_ops. rewrite !(Rlit_0 180), !(Rlit_0 90).
    destruct (rem_euclid_R (ph / (PI / 180) + 90) 180 ltac:(lra)) as [B [k K]].
    eexists. split; [reflexivity|]. change (num realA) with R in *. split; [lra|]. exists k.
    set (r := rem_euclid (A := realA) (ph / (PI / 180) + 90) 180) in *. change (num realA) with R in *.
    assert (ph / (PI / 180) = r - 90 + 180 * IZR k) by lra.
    transitivity (ph / (PI / 180) * (PI / 180)); [field; lra|]. rewrite H. field. }
  destruct LO as (lo & E1 & B1 & K1). destruct LA as (la & E2 & B2 & K2). exists lo, la.
  split; [|auto]. unfold geodetic_to_360. cbn [elong phi height]. rewrite E1, E2. realA_ops. rewrite !(Rlit_0 180), !(Rlit_0 90).
  rewrite !Rle_bool_true by lra. destruct p; reflexivity.
Qed.

(** C49, exact arithmetic: for -pi/2 <= phi < pi/2 (all latitudes but the north
    pole), converting back denotes the same point: the same latitude, and the same
    geocentric position on every ellipsoid. *)
Lemma C49_same_point_pf : forall p l ph h d, - (PI / 2) <= ph < PI / 2 ->
  geodetic_to_360 (A := realA) p (MkGeod (A := realA) l ph h) = Val d ->
  phi (A := realA) (geodetic_of_360 (A := realA) d) = ph /\
  (exists k : Z, elong (A := realA) (geodetic_of_360 (A := realA) d) = l + 2 * PI * IZR k) /\
  forall c, geodetic_to_geocentric (A := realA) c (geodetic_of_360 (A := realA) d) =
            geodetic_to_geocentric (A := realA) c (MkGeod (A := realA) l ph h).
Proof.
  intros p l ph h d Hph H. pose proof PI_RGT_0 as P.
  destruct (C49_range_pf p l ph h) as (lo & la & E & Blo & Bla & [k K] & [j J]). rewrite E in H. injection H as <-.
  unfold geodetic_of_360. cbn [lon lat height360]. unfold DEGREE. realA_ops. rewrite !(Rlit_0 180).
  assert (j = 0)%Z.
  { assert (PI * IZR j < PI * 1 /\ PI * (-1) < PI * IZR j) as [A1 A2] by (split; nra).
    apply Rmult_lt_reg_l in A1, A2; try lra. apply (lt_IZR _ 1) in A1. apply (lt_IZR (-1)) in A2. lia. }
  subst j. rewrite Rmult_0_r, Rplus_0_r in J. rewrite <- J. cbn [phi elong].
  split; [reflexivity|]. split; [exists (- k)%Z; rewrite opp_IZR, K; ring|].
  intros c. unfold geodetic_to_geocentric. cbn [phi elong height]. realA_ops.
  assert (CS : cos l = cos (lo * (PI / 180)) /\ sin l = sin (lo * (PI / 180))).
  { destruct (turns k l) as [T1 T2]. rewrite <- T1, <- T2. 
    replace (l - 2 * PI * IZR k) with (lo * (PI / 180)) by lra. split; reflexivity. }
  destruct CS as [-> ->]. reflexivity.
Qed.

(** C49, refuted at the north pole: latitude pi/2 becomes -90 degrees, and the
    geocentric position of the result is the south pole; in exact arithmetic and in
    binary64 alike. *)
Lemma C49_north_pole_refuted_pf :
  (forall p h, geodetic_to_360 (A := realA) p (MkGeod (A := realA) 0 (PI / 2) h) = Val (MkG360 (A := realA) 0 (-90) h)) /\
  (exists c d x y, conv_new (A := realA) (MkEll (A := realA) 1 0) = Ok c /\
     geodetic_to_360 (A := realA) Debug (MkGeod (A := realA) 0 (PI / 2) 0) = Val d /\
     geodetic_to_geocentric (A := realA) c (MkGeod (A := realA) 0 (PI / 2) 0) = Ok x /\
     geodetic_to_geocentric (A := realA) c (geodetic_of_360 (A := realA) d) = Ok y /\
     v2 (A := realA) x = 1 /\ v2 (A := realA) y = -1) /\
  (forall lm, lat_360 (A := b64A lm) (Fdiv (c_pi (b64A lm)) (Flit 2 0)) = Flit (-90) 0).
Proof.
  pose proof PI_RGT_0 as P.
  assert (G : forall p h, geodetic_to_360 (A := realA) p (MkGeod (A := realA) 0 (PI / 2) h) = Val (MkG360 (A := realA) 0 (-90) h)).
  { intros p h. destruct (C49_range_pf p 0 (PI / 2) h) as (lo & la & E & Blo & Bla & [k K] & [j J]). rewrite E.
    assert (J1 : 90 = la + 180 * IZR j). { apply Rmult_eq_reg_r with (PI / 180); [|lra]. lra. }
    assert (K1 : 0 = lo + 360 * IZR k). { apply Rmult_eq_reg_r with (PI / 180); [|lra]. lra. }
    assert (j = 1)%Z. { assert (0 < IZR j < 2) as [A1 A2] by lra. apply lt_IZR in A1, A2. lia. }
    assert (k = 0)%Z. { assert (-1 < IZR k < 1) as [A1 A2] by lra. apply (lt_IZR (-1)) in A1. apply (lt_IZR _ 1) in A2. lia. }
    subst j k. do 2 f_equal; lra. }
  split; [exact G|]. split.
  - exists (convR 1 0), (MkG360 (A := realA) 0 (-90) 0).
    unfold geodetic_of_360. cbn [lon lat height360]. unfold DEGREE. realA_ops. rewrite !(Rlit_0 180).
    rewrite !to_gc_R by lra. cbv zeta.
    eexists. eexists. split; [apply conv_new_R; lra|]. split; [apply G|]. split; [reflexivity|]. split; [reflexivity|]. cbn [v2].
    replace (-90 * (PI / 180)) with (- (PI / 2)) by field. rewrite sin_neg, cos_neg, sin_PI2, cos_PI2.
    unfold uu, dd. replace (0 * 0 + (1 - 0) * (1 - 0) * (1 * 1)) with 1 by ring.
    replace (0 * 0 + (1 - 0) * (1 - 0) * (- (1) * - (1))) with 1 by ring. rewrite sqrt_1. split; lra.
  - intros lm. apply B2SF_inj. vm_compute. reflexivity.
Qed.

Lemma pi_F : fin (Flit 314159265358979323846264338327950288 (-35)) = true /\ 3 < B2R (Flit 314159265358979323846264338327950288 (-35)) < 4.
Proof.
  assert (B : 3.1 < Rlit 314159265358979323846264338327950288 (-35) < 3.9).
  { unfold Rlit. change (Z.pow_pos 10 35) with 100000000000000000000000000000000000%Z. lra. }
  destruct (Flit_neg 314159265358979323846264338327950288 35) as [E F].
  - apply small_big. apply Rabs_le. lra.
  - split; [exact F|]. rewrite E.
    pose proof (rnd_error (Rlit 314159265358979323846264338327950288 (-35)) 2 ltac:(lia)) as Q.
    change (bpow radix2 2) with 4 in Q. specialize (Q ltac:(apply Rabs_le; lra)).
    change (bpow radix2 (2 - 53)) with (/ 2251799813685248) in Q. apply Rabs_le_inv in Q. lra.
Qed.

Definition degF : b64 := Fdiv (Flit 314159265358979323846264338327950288 (-35)) (Flit 180 0).

Lemma deg_F : fin degF = true /\ / 64 <= B2R degF <= / 32.
Proof.
  destruct pi_F as [F B]. destruct (Flit_int 180 ltac:(lia)) as [E1 F1].
  destruct (Fdiv_ok _ (Flit 180 0) F) as [D1 D2].
  - rewrite E1. lra.
  - rewrite E1. apply small_big. apply Rabs_le. lra.
  - fold degF in D1, D2. split; [exact D2|]. rewrite D1, E1. split.
    + apply rnd_ge; [|lra]. change (/ 64) with (bpow radix2 (-6)). apply generic_format_bpow. unfold FLT_exp. lia.
    + apply rnd_le; [|lra]. change (/ 32) with (bpow radix2 (-5)). apply generic_format_bpow. unfold FLT_exp. lia.
Qed.

Lemma wrap_F : forall lm (x : b64) (H : Z), (0 < H <= 1000)%Z -> fin x = true -> Rabs (B2R x) <= bpow radix2 1000 ->
  let y := Fsub (rem_euclid (A := b64A lm) (Fadd (Fdiv x degF) (Flit H 0)) (Flit (2 * H) 0)) (Flit H 0) in
  fin y = true /\ - IZR H <= B2R y <= IZR H.
Proof.
  intros lm x H HH Fx Bx y. destruct deg_F as [Fd Bd].
  destruct (Flit_int H ltac:(lia)) as [EH FH]. destruct (Flit_int (2 * H) ltac:(lia)) as [E2 F2].
  assert (HR : 0 < IZR H <= 1000) by (split; [apply (IZR_lt 0)|apply IZR_le]; lia).
  assert (E2' : B2R (Flit (2 * H) 0) = 2 * IZR H) by (rewrite E2, mult_IZR; reflexivity). clear E2.
  destruct (Fdiv_ok x degF Fx ltac:(lra)) as [D1 D2].
  { apply (small_le _ 1006); [lia|]. unfold Rdiv. rewrite Rabs_mult, Rabs_inv, (Rabs_pos_eq (B2R degF)) by lra.
    replace (bpow radix2 1006) with (bpow radix2 1000 * bpow radix2 6) by (rewrite <- bpow_plus; reflexivity). apply Rmult_le_compat; [apply Rabs_pos|apply Rlt_le, Rinv_0_lt_compat; lra|exact Bx|].
    change (bpow radix2 6) with 64. replace 64 with (/ / 64) by field. apply Rinv_le_contravar; lra. }
  assert (D3 : Rabs (B2R (Fdiv x degF)) <= bpow radix2 1006).
  { rewrite D1. apply rnd_abs_le; [apply generic_format_bpow; unfold FLT_exp; lia|].
    unfold Rdiv. rewrite Rabs_mult, Rabs_inv, (Rabs_pos_eq (B2R degF)) by lra.
    replace (bpow radix2 1006) with (bpow radix2 1000 * bpow radix2 6) by (rewrite <- bpow_plus; reflexivity). apply Rmult_le_compat; [apply Rabs_pos|apply Rlt_le, Rinv_0_lt_compat; lra|exact Bx|].
    change (bpow radix2 6) with 64. replace 64 with (/ / 64) by field. apply Rinv_le_contravar; lra. }
  destruct (Fadd_ok (Fdiv x degF) (Flit H 0) D2 FH) as [S1 S2].
  { apply (small_le _ 1007); [lia|]. eapply Rle_trans; [apply Rabs_triang|]. rewrite EH, (Rabs_pos_eq (IZR H)) by lra.
    replace (bpow radix2 1007) with (bpow radix2 1006 + bpow radix2 1006) by (replace 1007%Z with (1 + 1006)%Z by lia; rewrite bpow_plus; change (bpow radix2 1) with 2; ring).
    apply Rplus_le_compat; [exact D3|]. apply Rle_trans with (bpow radix2 10); [change (bpow radix2 10) with 1024; lra|apply bpow_le; lia]. }
  set (s := Fadd (Fdiv x degF) (Flit H 0)) in *. clearbody s. clear S1 D1 D2 D3.
  unfold y, rem_euclid. b64A_ops.
  destruct (Frem_full s (Flit (2 * H) 0) S2 F2 ltac:(lra)) as (R1 & R2 & _).
  destruct (Rrem_bounds (B2R s) (2 * IZR H) ltac:(lra)) as [RB _]. rewrite E2' in R1. rewrite <- R1 in RB.
  set (r := Frem s (Flit (2 * H) 0)) in *. clearbody r.
  destruct lit_0 as [Z0 F0].
  assert (RR : exists r', (if Bltb r (Flit 0 0) then Fadd r (Babs (Flit (2 * H) 0)) else r) = r' /\ fin r' = true /\ 0 <= B2R r' <= 2 * IZR H).
  { rewrite Bltb_correct, Z0 by assumption. destruct (Rlt_bool_spec (B2R r) 0) as [L|L].
    - eexists. split; [reflexivity|].
      assert (FA : fin (Babs (Flit (2 * H) 0)) = true) by (rewrite is_finite_Babs; exact F2).
      assert (BA : B2R (Babs (Flit (2 * H) 0)) = 2 * IZR H) by (rewrite B2R_Babs, E2'; apply Rabs_pos_eq; lra).
      destruct (Fadd_ok r _ R2 FA) as [A1 A2]; [rewrite BA; apply small_big; apply Rabs_le; lra|].
      split; [exact A2|]. rewrite A1, BA. split.
      + apply rnd_ge; [apply (format_IZR 0); lia|lra].
      + apply rnd_le; [|lra]. rewrite <- mult_IZR. apply format_IZR. lia.
    - eexists. split; [reflexivity|]. split; [exact R2|]. lra. }
  destruct RR as (r' & -> & FR & BR).
  destruct (Fsub_ok r' (Flit H 0) FR FH) as [A1 A2]; [rewrite EH; apply small_big; apply Rabs_le; lra|].
  split; [exact A2|]. rewrite A1, EH. split.
  - apply rnd_ge; [|lra]. rewrite <- opp_IZR. apply format_IZR. lia.
  - apply rnd_le; [|lra]. apply format_IZR. lia.
Qed.

(** C49, binary64: for finite angles up to 2^1000 in size the result is in range
    (with 180 and 90 included) and the debug assertions hold. *)
Lemma C49_range_b64_pf : forall lm p (l ph h : b64), fin l = true -> fin ph = true ->
  Rabs (B2R l) <= bpow radix2 1000 -> Rabs (B2R ph) <= bpow radix2 1000 ->
  exists lo la : b64, geodetic_to_360 (A := b64A lm) p (MkGeod (A := b64A lm) l ph h) = Val (MkG360 (A := b64A lm) lo la h) /\
  fin lo = true /\ fin la = true /\ -180 <= B2R lo <= 180 /\ -90 <= B2R la <= 90.
Proof.
  intros lm p l ph h Fl Fp Bl Bp.
  destruct (wrap_F lm l 180 ltac:(lia) Fl Bl) as [F1 B1]. destruct (wrap_F lm ph 90 ltac:(lia) Fp Bp) as [F2 B2].
  unfold geodetic_to_360. cbn [elong phi height]. 
  change (lon_360 (A := b64A lm) l) with (Fsub (rem_euclid (A := b64A lm) (Fadd (Fdiv l degF) (Flit 180 0)) (Flit (2 * 180) 0)) (Flit 180 0)).
  change (lat_360 (A := b64A lm) ph) with (Fsub (rem_euclid (A := b64A lm) (Fadd (Fdiv ph degF) (Flit 90 0)) (Flit (2 * 90) 0)) (Flit 90 0)).
  set (lo := Fsub _ (Flit 180 0)) in *. set (la := Fsub _ (Flit 90 0)) in *. clearbody lo la. exists lo, la.
  destruct (Flit_int 180 ltac:(lia)) as [E1 G1]. destruct (Flit_int 90 ltac:(lia)) as [E2 G2].
  assert (N1 : B2R (Bopp (Flit 180 0)) = -180 /\ fin (Bopp (Flit 180 0)) = true) by (rewrite B2R_Bopp, is_finite_Bopp, E1; auto).
  assert (N2 : B2R (Bopp (Flit 90 0)) = -90 /\ fin (Bopp (Flit 90 0)) = true) by (rewrite B2R_Bopp, is_finite_Bopp, E2; auto).
  b64A_ops. split; [|repeat split; assumption || lra].
  rewrite (Bleb_correct 53 1024 _ _ (proj2 N1) F1), (Bleb_correct 53 1024 _ _ F1 G1).
  rewrite (Bleb_correct 53 1024 _ _ (proj2 N2) F2), (Bleb_correct 53 1024 _ _ F2 G2).
  rewrite (proj1 N1), (proj1 N2), E1, E2. rewrite !Rle_bool_true by lra. destruct p; reflexivity.
Qed.

(** C49, binary64: the upper end 180 is reached (just past the far meridian);
    NaN and infinite angles panic in a debug build. *)
Lemma C49_edges_b64_pf : forall lm,
  lon_360 (A := b64A lm) (Fof (- 7074237752028441) (-51)) = Flit 180 0 /\
  (forall l ph h : b64, fin l && fin ph = false -> geodetic_to_360 (A := b64A lm) Debug (MkGeod (A := b64A lm) l ph h) = Panic).
Proof.
  intros lm. split; [apply B2SF_inj; vm_compute; reflexivity|].
  assert (NB : forall d (x : b64) (H K : b64), fin x = false -> fin H = true -> fin d = true -> is_nan (Fsub (rem_euclid (A := b64A lm) (Fadd (Fdiv x d) H) K) H) = true).
  { intros d x H K Fx FH Fd. 
    assert (E : fin (Fadd (Fdiv x d) H) = false).
    { destruct x as [|sx| |]; try discriminate; [|destruct d; reflexivity].
      destruct d as [sd|sd| |sd md ed pd]; try discriminate; destruct H as [sh|sh| |sh mh eh ph']; try discriminate; destruct sx; reflexivity. }
    set (s := Fadd (Fdiv x d) H) in *. clearbody s.
    assert (RN : Frem s K = B754_nan) by (destruct s as [|ss| |]; try discriminate; [destruct ss|]; destruct K; reflexivity).
    unfold rem_euclid. b64A_ops. rewrite RN. change (Bltb B754_nan (Flit 0 0)) with false. cbv iota. destruct H; reflexivity. }
  assert (LN : forall x y : b64, is_nan y = true -> Bleb x y = false).
  { intros x y N. destruct y; try discriminate. destruct x as [|[|]| |[|] ? ? ?]; reflexivity. }
  intros l ph h F. unfold geodetic_to_360. cbn [elong phi height].
  change (lon_360 (A := b64A lm) l) with (Fsub (rem_euclid (A := b64A lm) (Fadd (Fdiv l degF) (Flit 180 0)) (Flit 360 0)) (Flit 180 0)).
  change (lat_360 (A := b64A lm) ph) with (Fsub (rem_euclid (A := b64A lm) (Fadd (Fdiv ph degF) (Flit 90 0)) (Flit 180 0)) (Flit 90 0)).
  destruct deg_F as [Fd _]. destruct (Flit_int 180 ltac:(lia)) as [_ G1]. destruct (Flit_int 90 ltac:(lia)) as [_ G2].
  set (lo := Fsub _ (Flit 180 0)). set (la := Fsub _ (Flit 90 0)).
  assert (C : is_nan lo = true \/ is_nan la = true).
  { apply andb_false_iff in F. destruct F as [F|F]; [left|right]; apply NB; assumption. }
  clearbody lo la. b64A_ops. destruct C as [C|C].
  - rewrite (LN _ lo C). reflexivity.
  - rewrite (LN _ la C). rewrite !andb_false_r. reflexivity.
Qed.

(** C49 on a concrete position: 200 degrees east, 45 degrees north is
    160 degrees west, 45 degrees north. *)
Example C49_example_pf :
  geodetic_to_360 (A := realA) Debug (MkGeod (A := realA) (10 * PI / 9) (PI / 4) 7) = Val (MkG360 (A := realA) (-160) 45 7).
Proof.
  pose proof PI_RGT_0 as P.
  destruct (C49_range_pf Debug (10 * PI / 9) (PI / 4) 7) as (lo & la & E & Blo & Bla & [k K] & [j J]). rewrite E.
  assert (J1 : 45 = la + 180 * IZR j). { apply Rmult_eq_reg_r with (PI / 180); [|lra]. lra. }
  assert (K1 : 200 = lo + 360 * IZR k). { apply Rmult_eq_reg_r with (PI / 180); [|lra]. lra. }
  assert (j = 0)%Z. { assert (-1 < IZR j < 1) as [A1 A2] by lra. apply (lt_IZR (-1)) in A1. apply (lt_IZR _ 1) in A2. lia. }
  assert (k = 1)%Z. { assert (0 < IZR k < 2) as [A1 A2] by lra. apply lt_IZR in A1, A2. lia. }
  subst j k. do 2 f_equal; lra.
Qed.
