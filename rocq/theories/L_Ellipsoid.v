(** * Lemmas on the ellipsoid conversions, exact arithmetic *)

From Coq Require Import ZArith Reals Lra Lia Bool.
From Flocq Require Import Core.
From Verif Require Import Outcome Arith ArithR M_Common M_Ellipsoid.
From Verif Require Import L_ArithR L_Frames L_Halley L_Halley2.
Open Scope R_scope.

(** The converter of an accepted ellipsoid. *)
Definition convR (a f : R) : EllipsoidConverter realA :=
  MkConv (A := realA) (MkEll (A := realA) a f) (a * a * (/ 10 ^ 32)) ((2 - f) * f) ((2 - f) * f * ((2 - f) * f) * 1.5)
    ((1 - f) * (1 - f)) (1 - f) (a * (1 - f)).

Lemma conv_new_R : forall a f, 0 <= f < 1 -> 0 <= a ->
  conv_new (A := realA) (MkEll (A := realA) a f) = Ok (convR a f).
Proof.
  intros a f Hf Ha. unfold conv_new. cbn [el_a el_f]. realA_ops. rlit_in_goal.
  rewrite Rlt_bool_false, Rle_bool_false, Rlt_bool_false by lra. cbn [orb].
  assert (E : 1 - (2 - f) * f = (1 - f) * (1 - f)) by ring. rewrite E.
  rewrite Rle_bool_false by nra. rewrite sqrt_square by lra.
  unfold convR. do 2 f_equal; lra.
Qed.

Lemma conv_new_ok_inv : forall a f c, conv_new (A := realA) (MkEll (A := realA) a f) = Ok c ->
  0 <= f < 1 /\ 0 <= a /\ c = convR a f.
Proof.
  intros a f c H. 
  assert (B : 0 <= f < 1 /\ 0 <= a).
  { unfold conv_new in H. cbn [el_a el_f] in H. realA_ops. rewrite !(Rlit_0 0), !(Rlit_0 1) in H.
    destruct (Rlt_bool_spec f 0); [discriminate|]. cbn [orb] in H.
    destruct (Rle_bool_spec 1 f); [discriminate|].
    destruct (Rlt_bool_spec a 0); [discriminate|]. lra. }
  destruct B as [B1 B2]. split; [exact B1|]. split; [exact B2|].
  rewrite (conv_new_R a f B1 B2) in H. injection H as ->. reflexivity.
Qed.

(** The denominator of the prime vertical radius. *)
Definition dd (f sp cp : R) : R := cp * cp + (1 - f) * (1 - f) * (sp * sp).
Definition uu (f sp cp : R) : R := / sqrt (dd f sp cp).

Lemma dd_pos : forall f sp cp, 0 <= f < 1 -> sp * sp + cp * cp = 1 -> 0 < dd f sp cp.
Proof.
  intros f sp cp Hf H. unfold dd. assert (0 < (1 - f) * (1 - f)) by nra.
  pose proof (Rle_0_sqr cp). pose proof (Rle_0_sqr sp). unfold Rsqr in *.
  destruct (Rle_lt_or_eq_dec 0 (cp * cp) H1) as [L|E]; [nra|]. assert (sp * sp = 1) by lra. rewrite H3. lra.
Qed.
Lemma uu_pos : forall f sp cp, 0 <= f < 1 -> sp * sp + cp * cp = 1 -> 0 < uu f sp cp.
Proof. intros. unfold uu. apply Rinv_0_lt_compat, sqrt_lt_R0, dd_pos; assumption. Qed.
Lemma uu_sq : forall f sp cp, 0 <= f < 1 -> sp * sp + cp * cp = 1 -> uu f sp cp * uu f sp cp * dd f sp cp = 1.
Proof.
  intros f sp cp Hf H. unfold uu. pose proof (dd_pos f sp cp Hf H) as D.
  rewrite <- (sqrt_sqrt (dd f sp cp)) at 3 by lra. field. apply Rgt_not_eq, sqrt_lt_R0, D.
Qed.

Lemma sc1 : forall x, sin x * sin x + cos x * cos x = 1.
Proof. intros x. exact (sin2_cos2 x). Qed.

Lemma to_gc_R : forall a f l ph h, 0 <= f < 1 ->
  geodetic_to_geocentric (A := realA) (convR a f) (MkGeod (A := realA) l ph h) =
  let u := uu f (sin ph) (cos ph) in
  Ok (V3 (A := realA) ((a * u + h) * cos ph * cos l) ((a * u + h) * cos ph * sin l)
    (((1 - f) * (1 - f) * (a * u) + h) * sin ph)).
Proof.
  intros a f l ph h Hf. unfold geodetic_to_geocentric, convR. cbn [cv_el el_a el_f phi elong height].
  realA_ops. rlit_in_goal.
  assert (E : cos ph * cos ph + (1 - f) * (1 - f) * sin ph * sin ph = dd f (sin ph) (cos ph)) by (unfold dd; ring).
  rewrite E. rewrite Rlt_bool_true by (apply dd_pos; [exact Hf|apply sc1]). reflexivity.
Qed.

Lemma step_R : forall a f p z, 0 < a -> 0 <= f < 1 ->
  let w := 1 - f in let e := (2 - f) * f in
  let a0 := sqrt ((w * (p / a)) * (w * (p / a)) + z / a * (z / a)) in
  gc2gd_step (A := realA) (convR a f) p z = (hs1 w e (p / a) (z / a) a0, hcc w e (p / a) (z / a) a0).
Proof.
  intros a f p z Ha Hf w e a0. unfold gc2gd_step, convR. cbn [cv_el el_a el_f cv_e2 cv_ec cv_e4t]. realA_ops.
  fold w e. fold a0.
  assert (E : w * (p / a) * (w * (p / a)) + z / a * (z / a) = a0 * a0).
  { unfold a0. rewrite sqrt_sqrt; [reflexivity|]. 
    pose proof (Rle_0_sqr (w * (p / a))). pose proof (Rle_0_sqr (z / a)). unfold Rsqr in *. lra. }
  rewrite E. unfold hs1, hcc, hd0, hf0, hb0. f_equal; ring.
Qed.

(** ** Longitude *)

Lemma Ratan2_range : forall y x, - PI < Ratan2 y x <= PI.
Proof.
  intros y x. unfold Ratan2. pose proof PI_RGT_0 as P. pose proof (atan_bound (y / x)) as B.
  destruct (Rlt_bool_spec 0 x) as [Hx|Hx]; [lra|].
  destruct (Rlt_bool_spec x 0) as [Hx'|Hx'].
  - destruct (Rle_bool_spec 0 y) as [Hy|Hy].
    + split; [lra|]. assert (atan (y / x) <= 0); [|lra].
      assert (Q : y / x <= 0). { unfold Rdiv. assert (/ x < 0) by (apply Rinv_lt_0_compat; exact Hx'). nra. }
      rewrite <- atan_0. destruct (Rle_lt_or_eq_dec _ _ Q) as [L|E]; [left; apply atan_increasing; exact L|rewrite E; right; reflexivity].
    + split; [|lra]. assert (0 < atan (y / x)); [|lra].
      assert (Q : 0 < y / x). { unfold Rdiv. assert (/ x < 0) by (apply Rinv_lt_0_compat; exact Hx'). nra. }
      rewrite <- atan_0. apply atan_increasing. exact Q.
  - destruct (Rlt_bool_spec 0 y); [lra|]. destruct (Rlt_bool_spec y 0); lra.
Qed.

Lemma same_point_same_angle : forall s t, - (2 * PI) < s - t < 2 * PI -> cos s = cos t -> sin s = sin t -> s = t.
Proof.
  intros s t B C S.
  assert (X : cos (s - t) = 1) by (rewrite cos_minus, C, S; pose proof (sc1 t); lra).
  assert (Y : sin ((s - t) / 2) = 0).
  { assert (K : cos (s - t) = 1 - 2 * sin ((s - t) / 2) * sin ((s - t) / 2)) by (rewrite <- cos_2a_sin; f_equal; lra).
    assert (sin ((s - t) / 2) * sin ((s - t) / 2) = 0) by lra. apply Rmult_integral in H. tauto. }
  destruct (Rtotal_order ((s - t) / 2) 0) as [L|[E|G]]; [|lra|].
  - assert (sin ((s - t) / 2) < 0) by (apply sin_lt_0_var; lra). lra.
  - assert (0 < sin ((s - t) / 2)) by (apply sin_gt_0; lra). lra.
Qed.

Lemma Ratan2_polar : forall r l, 0 < r -> - PI < l <= PI -> Ratan2 (r * sin l) (r * cos l) = l.
Proof.
  intros r l Hr Hl. 
  assert (E : r * r = r * cos l * (r * cos l) + r * sin l * (r * sin l)).
  { transitivity (r * r * (sin l * sin l + cos l * cos l)); [rewrite sc1; ring|ring]. }
  destruct (cos_atan2 (r * cos l) (r * sin l) r Hr E) as [C S].
  apply same_point_same_angle.
  - pose proof (Ratan2_range (r * sin l) (r * cos l)). lra.
  - rewrite C. field. lra.
  - rewrite S. field. lra.
Qed.

(** ** From geocentric *)

Lemma to_gd_R : forall c x y z, geocentric_to_geodetic (A := realA) c (V3 (A := realA) x y z) =
  let p2 := x * x + y * y in
  let r := gc2gd_phi_height (A := realA) c p2 (Rabs z) in
  MkGeod (A := realA) (if Rlt_bool 0 p2 then Ratan2 y x else 0) (if Rlt_bool z 0 then - fst r else fst r) (snd r).
Proof.
  intros c x y z. unfold geocentric_to_geodetic. cbn [v0 v1 v2]. unfold sq. realA_ops. rlit_in_goal. cbv zeta.
  destruct (gc2gd_phi_height c (x * x + y * y) (Rabs z)) as [ph h]. reflexivity.
Qed.

(** The result of the step, from any (s1, cc) with cc > 0 in the right half plane
    of the true direction. *)
Lemma core : forall a f ph h, 0 < a -> 0 <= f < 1 -> 0 <= ph < PI / 2 ->
  let sp := sin ph in let cp := cos ph in let w := 1 - f in let e := (2 - f) * f in let u := uu f sp cp in
  let p := (a * u + h) * cp in let z := (w * w * (a * u) + h) * sp in
  let pn := (u + h / a) * cp in let s0 := (w * w * u + h / a) * sp in
  let a0 := sqrt ((w * pn) * (w * pn) + s0 * s0) in
  let s1 := hs1 w e pn s0 a0 in let cc := hcc w e pn s0 a0 in
  0 < p -> a * a * / 10 ^ 32 < p * p -> 0 <= s1 -> 0 < cc -> 0 < s1 * sp + cc * cp ->
  let r := gc2gd_phi_height (A := realA) (convR a f) (p * p) z in
  let t := (s1 * cp - cc * sp) / (s1 * sp + cc * cp) in
  fst r - ph = atan t /\ Rabs (snd r - h) <= (Rabs h + a * u) * (t * t).
Proof.
  intros a f ph h Ha Hf Hph sp cp w e u p z pn s0 a0 s1 cc Hp He S1 CC M r t.
  assert (H1 : sp * sp + cp * cp = 1) by apply sc1.
  assert (U : 0 < u) by (apply uu_pos; assumption).
  assert (Ud : u * u * (cp * cp + w * w * (sp * sp)) = 1) by (apply (uu_sq f sp cp); assumption).
  assert (Hsp : 0 <= sp) by (apply sin_ge_0; lra).
  assert (Hcp : 0 < cp) by (apply cos_gt_0; lra).
  assert (PN : p / a = pn) by (unfold p, pn; field; lra).
  assert (S0 : z / a = s0) by (unfold z, s0; field; lra).
  set (n := sqrt (s1 * s1 + cc * cc)).
  assert (N2 : n * n = s1 * s1 + cc * cc) by (apply sqrt_sqrt; nra).
  assert (N0 : 0 < n) by (apply sqrt_lt_R0; nra).
  assert (RE : r = (atan (s1 / cc), (p * cc + z * s1 - a * sqrt (w * w * (s1 * s1) + cc * cc)) / n)).
  { unfold r, gc2gd_phi_height. change (cv_aeps2 (convR a f)) with (a * a * / 10 ^ 32). realA_ops.
    rewrite Rlt_bool_true by exact He. rewrite sqrt_square by lra.
    rewrite (step_R a f p z Ha Hf). cbv zeta. rewrite PN, S0. fold w e. fold a0. fold s1 cc.
    unfold convR. cbn [cv_el el_a cv_ec2]. reflexivity. }
  assert (TB : Rabs ((s1 * cp - cc * sp) / n) <= Rabs t).
  { unfold t, Rdiv. rewrite !Rabs_mult. apply Rmult_le_compat_l; [apply Rabs_pos|].
    rewrite !Rabs_inv, (Rabs_pos_eq n), (Rabs_pos_eq (s1 * sp + cc * cp)) by lra.
    apply Rinv_le_contravar; [exact M|].
    assert ((s1 * sp + cc * cp) * (s1 * sp + cc * cp) <= n * n); [|nra].
    rewrite N2. replace (s1 * s1 + cc * cc) with ((s1 * s1 + cc * cc) * (sp * sp + cp * cp)) by (rewrite H1; ring).
    pose proof (Rle_0_sqr (s1 * cp - cc * sp)). unfold Rsqr in *. lra. }
  rewrite RE. cbn [fst snd]. split.
  - rewrite (atan_diff ph s1 cc) by (assumption || lra). reflexivity.
  - set (s := s1 / n). set (c := cc / n).
    assert (Es : s1 = n * s) by (unfold s; field; lra). assert (Ec : cc = n * c) by (unfold c; field; lra).
    assert (I0 : 0 < / n) by (apply Rinv_0_lt_compat; lra).
    assert (s_0 : 0 <= s) by (unfold s; apply Rmult_le_pos; lra).
    assert (c_0 : 0 < c) by (unfold c; apply Rmult_lt_0_compat; lra).
    assert (s_1 : s * s + c * c = 1).
    { transitivity ((s1 * s1 + cc * cc) / (n * n)); [unfold s, c; field; lra|]. rewrite <- N2. field. lra. }
    assert (HE : (p * cc + z * s1 - a * sqrt (w * w * (s1 * s1) + cc * cc)) / n - h =
       a * ((u + h / a) * cp * c + (w * w * u + h / a) * sp * s - sqrt (w * w * (s * s) + c * c) - h / a)).
    { replace (w * w * (s1 * s1) + cc * cc) with ((n * n) * (w * w * (s * s) + c * c)) by (rewrite Es, Ec; ring).
      rewrite sqrt_mult_alt by nra. rewrite sqrt_square by lra. rewrite Ec, Es at 1. unfold p, z. field. lra. }
    rewrite HE, Rabs_mult, (Rabs_pos_eq a) by lra.
    pose proof (height_error w sp cp u (h / a) s c ltac:(unfold w; lra) Ud U s_1 ltac:(lra) ltac:(lra) Hsp s_0) as HH.
    assert (SX : s * cp - c * sp = (s1 * cp - cc * sp) / n) by (unfold s, c; field; lra).
    specialize (HH ltac:(assert (0 < cp * c) by (apply Rmult_lt_0_compat; lra); assert (0 <= sp * s) by (apply Rmult_le_pos; lra); lra) H1). rewrite SX in HH.
    eapply Rle_trans; [apply Rmult_le_compat_l; [lra|exact HH]|].
    replace (a * ((Rabs (h / a) + u) * ((s1 * cp - cc * sp) / n * ((s1 * cp - cc * sp) / n))))
      with ((Rabs h + a * u) * ((s1 * cp - cc * sp) / n * ((s1 * cp - cc * sp) / n))).
    + apply Rmult_le_compat_l; [pose proof (Rabs_pos h); assert (0 < a * u) by (apply Rmult_lt_0_compat; lra); lra|].
      rewrite <- (Rabs_pos_eq ((s1 * cp - cc * sp) / n * ((s1 * cp - cc * sp) / n))) by apply Rle_0_sqr.
      rewrite <- (Rabs_pos_eq (t * t)) by apply Rle_0_sqr. rewrite !Rabs_mult. apply Rmult_le_compat; auto using Rabs_pos.
    + unfold Rdiv at 3. rewrite Rabs_mult, Rabs_inv, (Rabs_pos_eq a) by lra. field. split; lra.
Qed.

Lemma atan_abs_le : forall x, Rabs (atan x) <= Rabs x.
Proof.
  assert (P : forall x, 0 < x -> atan x <= x).
  { intros x Hx.
    destruct (MVT_cor2 atan (fun y => / (1 + y ^ 2)) 0 x Hx) as (c & E & _).
    - intros c _. apply derivable_pt_lim_atan.
    - rewrite atan_0 in E. pose proof (pow2_ge_0 c).
      assert (/ (1 + c ^ 2) <= / 1) by (apply Rinv_le_contravar; lra). rewrite Rinv_1 in *. nra. }
  intros x. destruct (Rtotal_order x 0) as [L|[E|G]].
  - assert (atan x < 0) by (rewrite <- atan_0; apply atan_increasing; exact L).
    rewrite !Rabs_left by lra. rewrite <- atan_opp. apply P. lra.
  - subst x. rewrite atan_0. lra.
  - assert (0 < atan x) by (rewrite <- atan_0; apply atan_increasing; exact G).
    rewrite !Rabs_pos_eq by lra. apply P. exact G.
Qed.

Lemma sin_lower : forall x, 0 <= x <= 1 -> 5 / 6 * x <= sin x.
Proof.
  intros x Hx. destruct (pre_sin_bound x 0 ltac:(lra) ltac:(lra)) as [L _].
  unfold sin_approx, sin_term in L. cbn in L. 
  assert (x * x * x <= x) by (assert (x * x <= 1 * 1) by (apply Rmult_le_compat; lra); nra). lra.
Qed.

Lemma uu_abs : forall f ph, uu f (sin (Rabs ph)) (cos (Rabs ph)) = uu f (sin ph) (cos ph).
Proof.
  intros f ph. unfold Rabs. destruct (Rcase_abs ph); [|reflexivity]. unfold uu, dd. rewrite sin_neg, cos_neg. do 2 f_equal. ring.
Qed.
Lemma uu_ge1 : forall f sp cp, 0 <= f < 1 -> sp * sp + cp * cp = 1 -> 1 <= uu f sp cp.
Proof.
  intros f sp cp Hf H. pose proof (uu_pos f sp cp Hf H) as P. pose proof (uu_sq f sp cp Hf H) as S.
  assert (D : dd f sp cp <= 1). { unfold dd. assert ((1 - f) * (1 - f) <= 1) by nra. pose proof (Rle_0_sqr sp). unfold Rsqr in *. nra. }
  pose proof (dd_pos f sp cp Hf H). apply Rnot_lt_le. intros L. assert (uu f sp cp * uu f sp cp < 1) by nra. nra.
Qed.

(** There and back, in terms of the unsigned latitude. *)
Lemma rt_R : forall a f l ph h, 0 < a -> 0 <= f < 1 -> - (PI / 2) <= ph <= PI / 2 -> - PI < l <= PI -> - (a * ((1 - f) * (1 - f))) < h ->
  let q := Rabs ph in let u := uu f (sin q) (cos q) in
  let p := (a * u + h) * cos q in let z := ((1 - f) * (1 - f) * (a * u) + h) * sin q in
  let r := gc2gd_phi_height (A := realA) (convR a f) (p * p) z in
  0 <= q <= PI / 2 /\ 0 <= p /\ 0 <= z /\
  exists x, geodetic_to_geocentric (A := realA) (convR a f) (MkGeod (A := realA) l ph h) = Ok x /\
  v0 (A := realA) x * v0 (A := realA) x + v1 (A := realA) x * v1 (A := realA) x = p * p /\
  geocentric_to_geodetic (A := realA) (convR a f) x =
    MkGeod (A := realA) (if Rlt_bool 0 p then l else 0) (if Rlt_bool ph 0 then - fst r else fst r) (snd r).
Proof.
  intros a f l ph h Ha Hf Hph Hl Hh q u p z r.
  assert (Hq : 0 <= q <= PI / 2). { unfold q. split; [apply Rabs_pos|apply Rabs_le; lra]. }
  assert (U1 : 1 <= u) by (apply uu_ge1; [exact Hf|apply sc1]).
  assert (cq : 0 <= cos q) by (apply cos_ge_0; lra). assert (sq : 0 <= sin q) by (apply sin_ge_0; lra).
  assert (W : 0 < (1 - f) * (1 - f) <= 1) by nra.
  assert (B0 : 0 < (1 - f) * (1 - f) * (a * u) + h).
  { assert (a * ((1 - f) * (1 - f)) * 1 <= a * ((1 - f) * (1 - f)) * u) by (apply Rmult_le_compat_l; nra). lra. }
  assert (A0 : 0 < a * u + h).
  { assert ((1 - f) * (1 - f) * (a * u) <= 1 * (a * u)) by (apply Rmult_le_compat_r; nra). lra. }
  assert (Hp : 0 <= p) by (unfold p; apply Rmult_le_pos; lra).
  assert (Hz : 0 <= z) by (unfold z; apply Rmult_le_pos; lra).
  split; [exact Hq|]. split; [exact Hp|]. split; [exact Hz|].
  rewrite (to_gc_R a f l ph h Hf). cbv zeta. rewrite <- uu_abs. fold q. fold u.
  assert (CQ : cos ph = cos q) by (unfold q, Rabs; destruct (Rcase_abs ph); [rewrite cos_neg|]; reflexivity).
  rewrite CQ. fold p. eexists. split; [reflexivity|]. rewrite to_gd_R. cbn [v0 v1].
  assert (P2 : p * cos l * (p * cos l) + p * sin l * (p * sin l) = p * p).
  { transitivity (p * p * (sin l * sin l + cos l * cos l)); [ring|rewrite sc1; ring]. }
  change (num realA) with R. rewrite P2. split; [reflexivity|].
  assert (ZA : Rabs (((1 - f) * (1 - f) * (a * u) + h) * sin ph) = z).
  { rewrite Rabs_mult, (Rabs_pos_eq ((1 - f) * (1 - f) * (a * u) + h)) by lra. unfold z. f_equal.
    unfold q. unfold Rabs at 2. destruct (Rcase_abs ph).
    - rewrite sin_neg. rewrite Rabs_left1; [reflexivity|]. assert (0 <= sin (- ph)) by (apply sin_ge_0; lra). rewrite sin_neg in *. lra.
    - apply Rabs_pos_eq. apply sin_ge_0; lra. }
  rewrite ZA. fold r. cbv zeta. f_equal.
  - destruct (Rlt_bool_spec 0 p) as [L|L].
    + rewrite Rlt_bool_true by nra. apply Ratan2_polar; assumption.
    + assert (p = 0) by lra. rewrite H. rewrite Rlt_bool_false by lra. reflexivity.
  - destruct (Rlt_bool_spec ph 0) as [L|L].
    + rewrite Rlt_bool_true; [reflexivity|].
      assert (0 < sin (- ph)) by (apply sin_gt_0; lra). rewrite sin_neg in H. nra.
    + rewrite Rlt_bool_false; [reflexivity|]. apply Rmult_le_pos; [lra|apply sin_ge_0; lra].
Qed.

(** The hypotheses of L_Halley. *)
Lemma geo_of : forall a f q h, 0 < a -> 0 <= f < 1 -> 0 <= q < PI / 2 ->
  let w := 1 - f in let u := uu f (sin q) (cos q) in
  let pn := (u + h / a) * cos q in let s0 := (w * w * u + h / a) * sin q in
  geo w ((2 - f) * f) (sin q) (cos q) u (h / a) (sqrt ((w * pn) * (w * pn) + s0 * s0)).
Proof.
  intros a f q h Ha Hf Hq w u pn s0. constructor.
  - unfold w; lra.
  - unfold w; ring.
  - apply sc1.
  - apply sin_ge_0; lra.
  - apply cos_gt_0; lra.
  - apply uu_pos; [exact Hf|apply sc1].
  - apply (uu_sq f (sin q) (cos q) Hf (sc1 q)).
  - apply sqrt_pos.
  - apply sqrt_sqrt. apply Rplus_le_le_0_compat; apply Rle_0_sqr.
Qed.

(** ** Exact cases *)

Definition s1_of (a f q h : R) : R :=
  let w := 1 - f in let e := (2 - f) * f in let u := uu f (sin q) (cos q) in
  let pn := (u + h / a) * cos q in let s0 := (w * w * u + h / a) * sin q in
  hs1 w e pn s0 (sqrt ((w * pn) * (w * pn) + s0 * s0)).
Definition cc_of (a f q h : R) : R :=
  let w := 1 - f in let e := (2 - f) * f in let u := uu f (sin q) (cos q) in
  let pn := (u + h / a) * cos q in let s0 := (w * w * u + h / a) * sin q in
  hcc w e pn s0 (sqrt ((w * pn) * (w * pn) + s0 * s0)).

Lemma exact_case : forall a f q h, 0 < a -> 0 <= f < 1 -> 0 <= q < PI / 2 -> 
  let u := uu f (sin q) (cos q) in
  let p := (a * u + h) * cos q in let z := ((1 - f) * (1 - f) * (a * u) + h) * sin q in
  0 < p -> a * a * / 10 ^ 32 < p * p -> 0 <= s1_of a f q h -> 0 < cc_of a f q h ->
  s1_of a f q h * cos q - cc_of a f q h * sin q = 0 ->
  gc2gd_phi_height (A := realA) (convR a f) (p * p) z = (q, h).
Proof.
  intros a f q h Ha Hf Hq u p z Hp Hpp S1 CC N.
  assert (M : 0 < s1_of a f q h * sin q + cc_of a f q h * cos q).
  { assert (0 <= s1_of a f q h * sin q) by (apply Rmult_le_pos; [exact S1|apply sin_ge_0; lra]).
    assert (0 < cc_of a f q h * cos q) by (apply Rmult_lt_0_compat; [exact CC|apply cos_gt_0; lra]). lra. }
  pose proof (core a f q h Ha Hf Hq) as K. cbv zeta in K. fold u in K. fold p z in K.
  specialize (K Hp Hpp S1 CC M). fold (s1_of a f q h) in K. fold (cc_of a f q h) in K.
  destruct (gc2gd_phi_height (convR a f) (p * p) z) as [x y]. cbn [fst snd] in K.
  unfold s1_of, cc_of in N. cbv zeta in N. fold u in N. rewrite N in K.
  unfold Rdiv in K. rewrite Rmult_0_l, atan_0 in K. destruct K as [K1 K2].
  f_equal; [lra|]. rewrite Rmult_0_l, Rmult_0_r in K2. 
  pose proof (Rabs_pos (y - h)). apply abs_le_both in K2. lra.
Qed.

Lemma surface_case : forall a f q, 0 < a -> 0 <= f < 1 -> 0 <= q < PI / 2 ->
  0 <= s1_of a f q 0 /\ 0 < cc_of a f q 0 /\ s1_of a f q 0 * cos q - cc_of a f q 0 * sin q = 0.
Proof.
  intros a f q Ha Hf Hq. pose proof (geo_of a f q 0 Ha Hf Hq) as G.
  unfold s1_of, cc_of. cbv zeta in *. unfold Rdiv in *. rewrite Rmult_0_l in *.
  set (w := 1 - f) in *. set (e := (2 - f) * f) in *. set (u := uu f (sin q) (cos q)) in *.
  set (sp := sin q) in *. set (cp := cos q) in *.
  set (a0 := sqrt _) in *. pose proof (surface_exact _ _ _ _ _ _ G) as A. pose proof (surface_Q _ _ _ _ _ _ G) as Q.
  assert (X : e = 1 - w * w) by apply (g_e _ _ _ _ _ _ _ G).
  pose proof (cross_identity w sp cp u 0 a0) as CI. cbv zeta in CI. rewrite <- X in CI. rewrite Q in CI.
  assert (B0 : forall pn s0, hb0 w e pn s0 w = 0) by (intros; unfold hb0; ring).
  rewrite A in *. rewrite B0 in CI.
  destruct G as [Gw Ge G1 Gs Gc Gu Gd Ga Ga2].
  set (pn := (u + 0) * cp) in *. set (s0 := (w * w * u + 0) * sp) in *.
  assert (PN : 0 < pn) by (unfold pn; apply Rmult_lt_0_compat; lra).
  assert (S0 : 0 <= s0) by (unfold s0; apply Rmult_le_pos; [nra|lra]).
  assert (E0 : 0 <= e) by (rewrite X; nra).
  assert (W3 : 0 < w * w * w) by (repeat apply Rmult_lt_0_compat; lra).
  assert (F : 0 < hf0 w e pn s0 w).
  { unfold hf0. 
    replace (pn * (w * w * w) - e * (w * pn * (w * pn) * (w * pn))) with (w * w * w * pn * (1 - e * (pn * pn))) by ring.
    apply Rmult_lt_0_compat; [apply Rmult_lt_0_compat; assumption|].
    replace (1 - e * (pn * pn)) with (u * u * (w * w)); [nra|].
    unfold pn. transitivity (u * u * (cp * cp + w * w * (sp * sp)) - e * (u * u) * (cp * cp)).
    - rewrite X. transitivity (u * u * (w * w) * (sp * sp + cp * cp)); [rewrite G1; ring|ring].
    - rewrite Gd. ring. }
  assert (D : 0 <= hd0 w e pn s0 w).
  { unfold hd0. assert (0 <= s0 * s0 * s0) by (apply Rmult_le_pos; [nra|lra]).
    assert (0 <= w * s0 * (w * w * w)) by (apply Rmult_le_pos; [nra|lra]). nra. }
  split; [|split].
  - unfold hs1. rewrite B0, Rmult_0_l, Rminus_0_r. apply Rmult_le_pos; lra.
  - unfold hcc. rewrite B0, Rmult_0_l, Rminus_0_r. apply Rmult_lt_0_compat; [lra|apply Rmult_lt_0_compat; exact F].
  - rewrite CI. ring.
Qed.

Lemma sphere_case : forall a q h, 0 < a -> 0 <= q < PI / 2 -> - a < h ->
  0 <= s1_of a 0 q h /\ 0 < cc_of a 0 q h /\ s1_of a 0 q h * cos q - cc_of a 0 q h * sin q = 0.
Proof.
  intros a q h Ha Hq Hh. pose proof (geo_of a 0 q h Ha ltac:(lra) Hq) as G.
  unfold s1_of, cc_of. cbv zeta in *.
  set (u := uu 0 (sin q) (cos q)) in *.
  set (sp := sin q) in *. set (cp := cos q) in *.
  assert (E : (2 - 0) * 0 = 0) by ring. rewrite E in *. clear E.
  assert (W : 1 - 0 = 1) by ring. rewrite W in *. clear W.
  set (pn := (u + h / a) * cp) in *. set (s0 := (1 * 1 * u + h / a) * sp) in *.
  set (a0 := sqrt _) in *. destruct G as [_ _ G1 Gs Gc Gu Gd Ga Ga2].
  assert (U : u = 1). { assert (u * u = 1); [|nra]. rewrite !Rmult_1_l, (Rplus_comm (cp * cp)), G1, Rmult_1_r in Gd. exact Gd. }
  assert (HA : 0 < 1 + h / a).
  { apply Rmult_lt_reg_r with a; [exact Ha|]. rewrite Rmult_0_l. replace ((1 + h / a) * a) with (a + h) by (field; lra). lra. }
  assert (PN : 0 < pn) by (unfold pn; rewrite U; apply Rmult_lt_0_compat; lra).
  assert (S0 : 0 <= s0) by (unfold s0; rewrite U; apply Rmult_le_pos; lra).
  assert (A0 : 0 < a0). { destruct (Rle_lt_or_eq_dec 0 a0 Ga) as [L|E]; [exact L|]. exfalso. rewrite <- E in Ga2.
    fold pn in Ga2. fold s0 in Ga2. nra. }
  assert (A3 : 0 < a0 * a0 * a0) by (repeat apply Rmult_lt_0_compat; exact A0).
  assert (B0 : hb0 1 0 pn s0 a0 = 0) by (unfold hb0; ring).
  assert (F : hf0 1 0 pn s0 a0 = pn * (a0 * a0 * a0)) by (unfold hf0; ring).
  assert (D : hd0 1 0 pn s0 a0 = s0 * (a0 * a0 * a0)) by (unfold hd0; ring).
  unfold hs1, hcc. rewrite B0, F, D. split; [|split].
  - rewrite Rmult_0_l, Rminus_0_r. repeat apply Rmult_le_pos; lra.
  - rewrite Rmult_0_l, Rminus_0_r, Rmult_1_l. repeat apply Rmult_lt_0_compat; lra.
  - unfold pn, s0. ring.
Qed.

Lemma equator_case : forall a f h, 0 < a -> 0 <= f < 1 -> - (a * ((1 - f) * (1 - f))) < h ->
  0 <= s1_of a f 0 h /\ 0 < cc_of a f 0 h /\ s1_of a f 0 h * cos 0 - cc_of a f 0 h * sin 0 = 0.
Proof.
  intros a f h Ha Hf Hh. pose proof PI_RGT_0. pose proof (geo_of a f 0 h Ha Hf ltac:(lra)) as G.
  unfold s1_of, cc_of. cbv zeta in *.
  set (u := uu f (sin 0) (cos 0)) in *. rewrite sin_0, cos_0 in *. rewrite !Rmult_0_r, !Rmult_1_r in *.
  set (w := 1 - f) in *. set (e := (2 - f) * f) in *. 
  set (a0 := sqrt _) in *. destruct G as [Gw Ge G1 Gs Gc Gu Gd Ga Ga2].
  assert (U : u = 1) by nra. rewrite U in *.
  set (pn := 1 + h / a) in *.
  assert (HA : e < pn).
  { unfold pn. rewrite Ge. apply Rmult_lt_reg_r with a; [exact Ha|]. 
    replace ((1 + h / a) * a) with (a + h) by (field; lra). lra. }
  assert (e0 : 0 <= e) by (rewrite Ge; nra).
  assert (A0 : a0 = w * pn).
  { assert (0 <= w * pn) by (apply Rmult_le_pos; lra). fold w in Ga2. fold pn in Ga2. nra. }
  assert (F : hf0 w e pn 0 a0 = w * w * w * (pn * pn * pn) * (pn - e)) by (unfold hf0; rewrite A0; ring).
  assert (FP : 0 < hf0 w e pn 0 a0) by (rewrite F; repeat apply Rmult_lt_0_compat; lra).
  assert (B0 : hb0 w e pn 0 a0 = 0) by (unfold hb0; ring).
  assert (D : hd0 w e pn 0 a0 = 0) by (unfold hd0; ring).
  unfold hs1, hcc. rewrite B0, D. rewrite !Rmult_0_l, !Rminus_0_r. split; [lra|]. split; [|ring].
  apply Rmult_lt_0_compat; [lra|apply Rmult_lt_0_compat; exact FP].
Qed.

Lemma pole_case : forall a f h, 0 < a -> 0 <= f < 1 ->
  let q := PI / 2 in let u := uu f (sin q) (cos q) in
  let p := (a * u + h) * cos q in let z := ((1 - f) * (1 - f) * (a * u) + h) * sin q in
  gc2gd_phi_height (A := realA) (convR a f) (p * p) z = (PI / 2, h).
Proof.
  intros a f h Ha Hf q u p z. unfold p, z, u, q. rewrite sin_PI2, cos_PI2.
  unfold gc2gd_phi_height, convR. cbn [cv_aeps2 cv_b]. realA_ops. rewrite Rmult_0_r, Rmult_0_r.
  rewrite Rlt_bool_false by (apply Rmult_le_pos; [nra|apply Rlt_le, Rinv_0_lt_compat, pow_lt; lra]).
  rlit_in_goal. f_equal.
  unfold uu, dd. replace (0 * 0 + (1 - f) * (1 - f) * (1 * 1)) with ((1 - f) * (1 - f)) by ring.
  rewrite sqrt_square by lra. field. lra.
Qed.

(** ** Terrestrial ellipsoids *)

Lemma near_case : forall a f q h, 0 < a -> 0 <= f <= 0.006 -> 0 <= q <= PI / 2 -> - (a * 0.1) <= h ->
  let u := uu f (sin q) (cos q) in
  let p := (a * u + h) * cos q in let z := ((1 - f) * (1 - f) * (a * u) + h) * sin q in
  let r := gc2gd_phi_height (A := realA) (convR a f) (p * p) z in
  let t := 5 * f ^ 4 * Rabs (h / a) ^ 3 / (1 + h / a) ^ 4 + 125 * f ^ 5 * (h / a) ^ 2 / (1 + h / a) ^ 3 + 2 / 10 ^ 16 in
  Rabs (fst r - q) <= t /\ Rabs (snd r - h) <= (Rabs h + 1.01 * a) * t ^ 2.
Proof.
  intros a f q h Ha Hf Hq Hh u p z r t.
  assert (Hf1 : 0 <= f < 1) by lra.
  assert (U1 : 1 <= u) by (apply uu_ge1; [exact Hf1|apply sc1]).
  assert (HA : 0.9 <= 1 + h / a).
  { apply Rmult_le_reg_r with a; [exact Ha|]. replace ((1 + h / a) * a) with (a + h) by (field; lra). lra. }
  assert (E : 0 <= (2 - f) * f <= 0.012) by nra.
  assert (E2 : (2 - f) * f <= 2 * f) by nra.
  assert (U2 : u <= 1.0061).
  { pose proof (uu_sq f (sin q) (cos q) Hf1 (sc1 q)) as S. fold u in S.
    assert (D : 0.988 <= dd f (sin q) (cos q)).
    { unfold dd. pose proof (sc1 q). pose proof (Rle_0_sqr (sin q)). pose proof (Rle_0_sqr (cos q)). unfold Rsqr in *.
      assert (0.988 <= (1 - f) * (1 - f)) by nra. nra. }
    set (d := dd f (sin q) (cos q)) in *. clearbody d. apply Rnot_lt_le. intros L. assert (1.0061 * 1.0061 < u * u) by nra. nra. }
  assert (HU : 0.9 <= u + h / a) by lra.
  assert (HH : 0 <= (h / a) * (h / a)) by apply Rle_0_sqr.
  set (t0 := 5 * f ^ 4 * Rabs (h / a) ^ 3 / (1 + h / a) ^ 4 + 125 * f ^ 5 * (h / a) ^ 2 / (1 + h / a) ^ 3).
  assert (T0 : 0 <= t0).
  { unfold t0. assert (0 <= f ^ 4) by (apply pow_le; lra). assert (0 <= f ^ 5) by (apply pow_le; lra).
    assert (0 <= Rabs (h / a) ^ 3) by (apply pow_le, Rabs_pos).
    apply Rplus_le_le_0_compat; (apply Rmult_le_pos; [|apply Rlt_le, Rinv_0_lt_compat, pow_lt; lra]).
    - apply Rmult_le_pos; lra.
    - apply Rmult_le_pos; [lra|apply pow2_ge_0]. }
  assert (TT : t = t0 + 2 / 10 ^ 16) by reflexivity.
  assert (T1 : 0 < 2 / 10 ^ 16) by (apply Rdiv_lt_0_compat; [lra|apply pow_lt; lra]).
  assert (AU : a * u <= 1.01 * a) by nra.
  assert (A0 : 0 < a * u + h) by (assert (0 < a * (u + h / a)) by (apply Rmult_lt_0_compat; lra); replace (a * u + h) with (a * (u + h / a)) by (field; lra); lra).
  assert (cq : 0 <= cos q) by (apply cos_ge_0; lra).
  destruct (Rlt_le_dec (a * a * / 10 ^ 32) (p * p)) as [FAR|NEAR].
  - assert (NP : q <> PI / 2).
    { intros ->. unfold p in FAR. rewrite cos_PI2 in FAR. 
      assert (0 <= a * a * / 10 ^ 32) by (apply Rmult_le_pos; [nra|apply Rlt_le, Rinv_0_lt_compat, pow_lt; lra]). nra. }
    assert (Hq' : 0 <= q < PI / 2) by lra.
    assert (cq' : 0 < cos q) by (apply cos_gt_0; lra).
    pose proof (geo_of a f q h Ha Hf1 Hq') as G.
    pose proof (core a f q h Ha Hf1 Hq') as K. cbv zeta in K, G. fold u in K, G. fold p z in K.
    destruct (step_error _ _ _ _ _ _ _ G ltac:(lra) HU) as (S1 & CC & M & _). cbv zeta in S1, CC, M.
    pose proof (step_error2 _ _ _ _ _ _ _ G ltac:(lra) HU) as B. cbv zeta in B.
    specialize (K ltac:(unfold p; apply Rmult_lt_0_compat; lra) FAR S1 CC M).
    fold r in K. 
    set (x := (_ - _) / (_ + _)) in K. fold x in B.
    assert (XB : Rabs x <= t0).
    { eapply Rle_trans; [exact B|]. unfold t0.
      set (e := (2 - f) * f) in *. set (n := h / a) in *. clearbody e n.
      assert (K0 : 0 <= / (u + n)) by (apply Rlt_le, Rinv_0_lt_compat; lra).
      assert (KK : / (u + n) <= / (1 + n)) by (apply Rinv_le_contravar; lra).
      replace (5 * f ^ 4 * Rabs n ^ 3 / (1 + n) ^ 4) with (5 * (f * f * f * f) * (Rabs n * (n * n)) * (/ (1 + n) * / (1 + n) * / (1 + n) * / (1 + n))).
      2: { replace (n * n) with (Rabs n * Rabs n) by (rewrite <- Rabs_mult; apply Rabs_pos_eq; exact HH). field. lra. }
      replace (125 * f ^ 5 * n ^ 2 / (1 + n) ^ 3) with (125 * (f * f * f * f * f) * (n * n) * (/ (1 + n) * / (1 + n) * / (1 + n))) by (field; lra).
      set (k := / (u + n)) in *. set (k' := / (1 + n)) in *. clearbody k k'. pose proof (Rabs_pos n) as NP'.
      assert (L2 : forall x y z w, 0 <= x <= y -> 0 <= z <= w -> 0 <= x * z <= y * w).
      { intros x0 y z0 w0 Hx Hz. split; [apply Rmult_le_pos; lra|apply Rmult_le_compat; lra]. }
      assert (Ef : 0 <= e <= 2 * f) by lra. assert (Kk : 0 <= k <= k') by lra.
      pose proof (L2 _ _ _ _ Ef Ef) as Ef2. pose proof (L2 _ _ _ _ Ef2 Ef) as Ef3. pose proof (L2 _ _ _ _ Ef3 Ef) as Ef4. pose proof (L2 _ _ _ _ Ef4 Ef) as Ef5.
      pose proof (L2 _ _ _ _ Kk Kk) as Kk2. pose proof (L2 _ _ _ _ Kk2 Kk) as Kk3. pose proof (L2 _ _ _ _ Kk3 Kk) as Kk4.
      assert (N3 : 0 <= Rabs n * (n * n)) by (apply Rmult_le_pos; assumption).
      assert (F4 : 0 <= f * f * f * f) by (repeat apply Rmult_le_pos; lra). assert (F5 : 0 <= f * f * f * f * f) by (apply Rmult_le_pos; lra).
      apply Rplus_le_compat; (apply Rmult_le_compat; [| |apply Rmult_le_compat_r; [assumption|]|lra]); try lra; apply Rmult_le_pos; lra. }
    destruct K as [K1 K2]. split.
    + rewrite K1. eapply Rle_trans; [apply atan_abs_le|]. lra.
    + eapply Rle_trans; [exact K2|]. pose proof (Rabs_pos h). 
      apply Rmult_le_compat; [|apply Rle_0_sqr|lra|].
      * assert (0 < a * u) by (apply Rmult_lt_0_compat; lra). lra.
      * rewrite <- (Rabs_pos_eq (x * x)) by apply Rle_0_sqr. rewrite Rabs_mult. simpl. rewrite Rmult_1_r.
        apply Rmult_le_compat; try apply Rabs_pos; lra.
  - (* on the axis *)
    assert (RE : r = (PI / 2, z - a * (1 - f))).
    { unfold r, gc2gd_phi_height. change (cv_aeps2 (convR a f)) with (a * a * / 10 ^ 32). realA_ops.
      rewrite Rlt_bool_false by exact NEAR. rlit_in_goal. reflexivity. }
    assert (CQ : (u + h / a) * cos q <= / 10 ^ 16).
    { assert (P : p = a * ((u + h / a) * cos q)) by (unfold p; field; lra). rewrite P in NEAR.
      set (y := (u + h / a) * cos q) in *. assert (0 <= y) by (unfold y; apply Rmult_le_pos; lra).
      set (i := / 10 ^ 16). assert (0 < i) by (unfold i; apply Rinv_0_lt_compat, pow_lt; lra).
      assert (I : / 10 ^ 32 = i * i) by (unfold i; rewrite <- Rinv_mult, <- pow_add; reflexivity).
      rewrite I in NEAR. apply Rnot_lt_le. intros L.
      assert (i * i < y * y) by nra. assert (0 < a * a) by nra. nra. }
    assert (CQ2 : cos q <= 1.12 / 10 ^ 16).
    { assert (0.9 * cos q <= (u + h / a) * cos q) by (apply Rmult_le_compat_r; lra). unfold Rdiv. 
      assert (0 < / 10 ^ 16) by (apply Rinv_0_lt_compat, pow_lt; lra). lra. }
    assert (i16 : / 10 ^ 16 <= / 10).
    { apply Rinv_le_contravar; [lra|]. replace 10 with (10 ^ 1) at 1 by ring. apply Rle_pow; [lra|]. lia. }
    assert (SQ : sin (PI / 2 - q) = cos q) by (rewrite sin_shift; reflexivity).
    assert (QB : 0 <= PI / 2 - q <= 2 / 10 ^ 16).
    { split; [lra|]. destruct (Rle_lt_dec (PI / 2 - q) 1) as [L1|L1].
      - pose proof (sin_lower (PI / 2 - q) ltac:(lra)) as X. rewrite SQ in X. unfold Rdiv in *. lra.
      - exfalso. assert (sin 1 <= sin (PI / 2 - q)) by (apply sin_incr_1; lra).
        pose proof (sin_lower 1 ltac:(lra)). rewrite SQ in *. unfold Rdiv in *. lra. }
    rewrite RE. cbn [fst snd]. split; [rewrite Rabs_pos_eq; lra|].
    assert (sq : 0 < sin q).
    { pose proof (sc1 q). assert (0 <= sin q) by (apply sin_ge_0; lra). unfold Rdiv in *. nra. }
    pose proof (height_error (1 - f) (sin q) (cos q) u (h / a) 1 0 ltac:(lra) (uu_sq f (sin q) (cos q) Hf1 (sc1 q)) ltac:(lra)
      ltac:(ring) cq ltac:(lra) ltac:(lra) ltac:(lra) ltac:(lra) (sc1 q)) as X.
    replace (z - a * (1 - f) - h) with (a * ((u + h / a) * cos q * 0 + ((1 - f) * (1 - f) * u + h / a) * sin q * 1 - sqrt ((1 - f) * (1 - f) * (1 * 1) + 0 * 0) - h / a)).
    + rewrite Rabs_mult, (Rabs_pos_eq a) by lra.
      eapply Rle_trans; [apply Rmult_le_compat_l; [lra|exact X]|].
      replace (a * ((Rabs (h / a) + u) * ((1 * cos q - 0 * sin q) * (1 * cos q - 0 * sin q)))) with ((Rabs h + a * u) * (cos q * cos q)).
      * pose proof (Rabs_pos h). assert (0 < a * u) by (apply Rmult_lt_0_compat; lra).
        apply Rmult_le_compat; [lra|nra|lra|]. simpl. rewrite Rmult_1_r. unfold Rdiv in *. apply Rmult_le_compat; lra.
      * unfold Rdiv. rewrite Rabs_mult, Rabs_inv, (Rabs_pos_eq a) by lra. field. lra.
    + replace ((1 - f) * (1 - f) * (1 * 1) + 0 * 0) with ((1 - f) * (1 - f)) by ring. rewrite sqrt_square by lra.
      unfold z. field. lra.
Qed.
