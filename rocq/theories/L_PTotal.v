(** * Binary64 companions of C13, C36, C45 and C57 *)

From Coq Require Import ZArith Reals Lra Lia Bool List.
From Flocq Require Import Core BinarySingleNaN.
From Verif Require Import Outcome Arith ArithR ArithF Spec_Calendar Spec_Api Spec_Float Spec_Accuracy M_Common M_Calendar M_Time M_Locator M_Frames M_Ellipsoid Spec_Matrix Spec_Frames Spec_Series Spec_Geo.
From Verif Require Import L_ArithF L_ArithR L_Flit L_PCalendar L_PAccuracy L_Fro L_ApxC2i L_PAccGeo L_PSplit.
From Verif Require Import Spec_Accuracy.
Import ListNotations.
Open Scope R_scope.

(** C13 in binary64: two splits of one total give the same moment within
    2^-53 (|smaller part| + |smaller part'| + 6) days. *)
Lemma C13_from_julian_total_b64_pf : forall lm p x y x' y',
  fin x = true -> fin y = true -> fin x' = true -> fin y' = true ->
  Rabs (B2R x) <= 2251799813685248 -> Rabs (B2R y) <= 2251799813685248 ->
  Rabs (B2R x') <= 2251799813685248 -> Rabs (B2R y') <= 2251799813685248 ->
  -32000 <= B2R x + B2R y <= 536802342 -> B2R x + B2R y = B2R x' + B2R y' ->
  exists g (f : b64) n g' (f' : b64) n',
    from_julian (A := b64A lm) p x y = Val (Ok (g, f)) /\ from_julian (A := b64A lm) p x' y' = Val (Ok (g', f')) /\
    day_count mjd_epoch (of_date g) n /\ day_count mjd_epoch (of_date g') n' /\
    Rabs ((IZR n + B2R f) - (IZR n' + B2R f')) <= bpow radix2 (-53) * (Rabs (Rmin (B2R x) (B2R y)) + Rabs (Rmin (B2R x') (B2R y')) + 6).
Proof.
  intros lm p x y x' y' Fx Fy Fx' Fy' Hx Hy Hx' Hy' H E.
  destruct (C07_from_julian_accuracy_pf lm p x y Fx Fy Hx Hy H) as (g & f & n & A & _ & _ & _ & N & B). rewrite E in H.
  destruct (C07_from_julian_accuracy_pf lm p x' y' Fx' Fy' Hx' Hy' H) as (g' & f' & n' & A' & _ & _ & _ & N' & B').
  exists g, f, n, g', f', n'. split; [exact A|]. split; [exact A'|]. split; [exact N|]. split; [exact N'|].
  rewrite E in B. rewrite !Rmult_plus_distr_l in *. apply Rabs_le_inv in B. apply Rabs_le_inv in B'. apply Rabs_le. lra.
Qed.

(** C36 in binary64: the matrix is within 1.8e-14 of the exact one, in every entry, and so its
    third row is the pole. *)
Lemma C36_pole_matrix_b64_pf : forall lm, good_libm lm -> forall x y s : b64, fin x = true -> fin y = true -> fin s = true ->
  B2R x * B2R x + B2R y * B2R y <= 1 / 4 -> Rabs (B2R s) <= 1 ->
  exists m, c2i_from_xys (A := b64A lm) x y s = Val m /\
  (forall i j, near (mget (A := b64A lm) m i j) (entry (Q_matrix (B2R x) (B2R y) (B2R s)) i j) (1.8 / 10 ^ 14)) /\
  near (mget (A := b64A lm) m I2 I0) (B2R x) (1.8 / 10 ^ 14) /\ near (mget (A := b64A lm) m I2 I1) (B2R y) (1.8 / 10 ^ 14).
Proof.
  intros lm G x y s Fx Fy Fs H Hs. destruct (c2i_from_ok lm G x y s Fx Fy Fs H Hs) as (m & E & M). exists m. split; [exact E|].
  assert (K : forall i j, near (mget (A := b64A lm) m i j) (entry (Q_matrix (B2R x) (B2R y) (B2R s)) i j) (1.8 / 10 ^ 14)) by (intros i j; exact (mfro_near lm m _ _ i j M)).
  split; [exact K|]. destruct (L_PFrames.C36_pole_matrix_pf (B2R x) (B2R y) (B2R s) ltac:(lra)) as (_ & E0 & E1 & _).
  pose proof (K I2 I0) as K0. pose proof (K I2 I1) as K1. rewrite E0 in K0. rewrite E1 in K1. split; assumption.
Qed.

(** C57 in binary64: for one date the locators at two positions of the pole differ by half the
    difference of the products of the coordinates, within 4e-12 rad. *)
Lemma C57_cio_b64_pf : forall lm, good_libm lm -> forall a b x y x' y' : b64,
  fin a = true -> fin b = true -> fin x = true -> fin y = true -> fin x' = true -> fin y' = true ->
  Rabs (B2R a) <= 4194304 -> Rabs (B2R b) <= 4194304 -> Rabs (B2R x) <= 1 -> Rabs (B2R y) <= 1 -> Rabs (B2R x') <= 1 -> Rabs (B2R y') <= 1 ->
  exists s s' : b64, cio (A := b64A lm) (MkTT (A := b64A lm) a b) x y = Val s /\ cio (A := b64A lm) (MkTT (A := b64A lm) a b) x' y' = Val s' /\
    near s (B2R s' + (B2R x' * B2R y' - B2R x * B2R y) / 2) (4 / 10 ^ 12).
Proof.
  intros lm G a b x y x' y' Fa Fb Fx Fy Fx' Fy' Ha Hb Hx Hy Hx' Hy'.
  destruct (C66_cio_accuracy_pf lm G a b x y Fa Fb Fx Fy Ha Hb Hx Hy) as (s & E & [F N]).
  destruct (C66_cio_accuracy_pf lm G a b x' y' Fa Fb Fx' Fy' Ha Hb Hx' Hy') as (s' & E' & [F' N']).
  exists s, s'. split; [exact E|]. split; [exact E'|]. split; [exact F|].
  replace (4 / 10 ^ 12) with (2 * (2 / 10 ^ 12)) by lra. set (e := 2 / 10 ^ 12) in *. set (c := cio_sxy2 _) in *.
  set (xy := B2R x * B2R y) in *. set (xy' := B2R x' * B2R y') in *. clearbody e c xy xy'.
  apply Rabs_le_inv in N. apply Rabs_le_inv in N'. apply Rabs_le. lra.
Qed.

(** C57 in binary64 with the date split as a modified Julian date: within 3.4e-16 rad. *)
Lemma C57_cio_b64_mjd_pf : forall lm, good_libm lm -> forall a b x y x' y' : b64,
  fin a = true -> fin b = true -> fin x = true -> fin y = true -> fin x' = true -> fin y' = true ->
  B2R a = 2400000.5 -> Rabs (B2R b) <= 100000 -> Rabs (B2R x) <= 1 -> Rabs (B2R y) <= 1 -> Rabs (B2R x') <= 1 -> Rabs (B2R y') <= 1 ->
  exists s s' : b64, cio (A := b64A lm) (MkTT (A := b64A lm) a b) x y = Val s /\ cio (A := b64A lm) (MkTT (A := b64A lm) a b) x' y' = Val s' /\
    near s (B2R s' + (B2R x' * B2R y' - B2R x * B2R y) / 2) (3.4 / 10 ^ 16).
Proof.
  intros lm G a b x y x' y' Fa Fb Fx Fy Fx' Fy' Ha Hb Hx Hy Hx' Hy'.
  destruct (C66_cio_accuracy_mjd_pf lm G a b x y Fa Fb Fx Fy Ha Hb Hx Hy) as (s & E & [F N]).
  destruct (C66_cio_accuracy_mjd_pf lm G a b x' y' Fa Fb Fx' Fy' Ha Hb Hx' Hy') as (s' & E' & [F' N']).
  exists s, s'. split; [exact E|]. split; [exact E'|]. split; [exact F|].
  replace (3.4 / 10 ^ 16) with (2 * (1.7 / 10 ^ 16)) by lra. set (e := 1.7 / 10 ^ 16) in *. set (c := cio_sxy2 _) in *.
  set (xy := B2R x * B2R y) in *. set (xy' := B2R x' * B2R y') in *. clearbody e c xy xy'.
  apply Rabs_le_inv in N. apply Rabs_le_inv in N'. apply Rabs_le. lra.
Qed.

(** ** The zenith *)

Definition zen (lo la : R) (i : idx) : R := match i with I0 => cos la * cos lo | I1 => cos la * sin lo | I2 => sin la end.

Lemma bp52 : bpow radix2 (-52) = / 4503599627370496.
Proof. reflexivity. Qed.

Lemma mul_near : forall (x y : b64) X Y, near x X (bpow radix2 (-52)) -> near y Y (bpow radix2 (-52)) -> -1 <= X <= 1 -> -1 <= Y <= 1 ->
  near (Fmul x y) (X * Y) (7 / 10 ^ 16).
Proof.
  intros x y X Y [Fx Hx] [Fy Hy] BX BY. rewrite bp52 in *. apply Rabs_le_inv in Hx. apply Rabs_le_inv in Hy.
  set (a := B2R x - X) in *. set (b := B2R y - Y) in *. 
  assert (EX : B2R x = X + a) by (unfold a; ring). assert (EY : B2R y = Y + b) by (unfold b; ring). 
  assert (P : Rabs (B2R x * B2R y - X * Y) <= 4.5 / 10 ^ 16).
  { rewrite EX, EY. clearbody a b. replace ((X + a) * (Y + b) - X * Y) with (X * b + a * Y + a * b) by ring. set (u := / 4503599627370496) in *. assert (U : u = / 4503599627370496) by reflexivity. clearbody u.
    assert (- u <= X * b <= u) by (split; nra). assert (- u <= a * Y <= u) by (split; nra). assert (- (u * u) <= a * b <= u * u) by (split; nra).
    assert (u * u <= 1 / 10 ^ 20) by (subst u; lra). apply Rabs_le. lra. }
  assert (S : Rabs (B2R x * B2R y) <= 2).
  { rewrite EX, EY in P |- *. apply Rabs_le_inv in P. assert (-1 <= X * Y <= 1) by (split; nra). apply Rabs_le. lra. }
  destruct (Fmul_ok x y Fx Fy) as [V F]; [apply (small_le _ 1); [lia|exact S]|]. split; [exact F|]. rewrite V.
  pose proof (rnd_error (B2R x * B2R y) 1 ltac:(lia) S) as R. cbn [Z.add Z.sub] in R.
  replace (rnd (B2R x * B2R y) - X * Y) with ((rnd (B2R x * B2R y) - B2R x * B2R y) + (B2R x * B2R y - X * Y)) by ring.
  eapply Rle_trans; [apply Rabs_triang|]. revert R. 
  match goal with |- context [bpow radix2 ?k] => let v := eval vm_compute in k in change k with v end. intros R.
  eapply Rle_trans; [apply Rplus_le_compat; [exact R|exact P]|]. 
  try (change (bpow radix2 (-52)) with (/ 4503599627370496)). try (change (bpow radix2 (-51)) with (/ 2251799813685248)). try (change (bpow radix2 (-53)) with (/ 9007199254740992)). lra.
Qed.

Lemma zen_near : forall lm, good_libm lm -> forall lo la h : b64, fin lo = true -> fin la = true ->
  forall i, near (vget (A := b64A lm) (zenith (A := b64A lm) (MkGeod (A := b64A lm) lo la h)) i) (zen (B2R lo) (B2R la) i) (7 / 10 ^ 16).
Proof.
  intros lm G lo la h Fo Fa i. pose proof (good_cos _ G la Fa) as C. pose proof (good_sin _ G la Fa) as S. pose proof (good_cos _ G lo Fo) as C'. pose proof (good_sin _ G lo Fo) as S'.
  unfold zenith, zen. destruct i; cbn [vget v0 v1 v2 phi elong].
  - exact (mul_near _ _ _ _ C C' (COS_bound _) (COS_bound _)).
  - exact (mul_near _ _ _ _ C S' (COS_bound _) (SIN_bound _)).
  - destruct S as [F B]. split; [exact F|]. eapply Rle_trans; [exact B|]. rewrite bp52. lra.
Qed.

Lemma zen_le : forall lo la i, -1 <= zen lo la i <= 1.
Proof.
  intros lo la i. pose proof (COS_bound la). pose proof (SIN_bound la). pose proof (COS_bound lo). pose proof (SIN_bound lo). unfold zen. destruct i; split; nra.
Qed.

Lemma wgs84_up : forall lo la h i, coord (wgs84_at lo la h) i = coord (wgs84_at lo la 0) i + h * zen lo la i.
Proof. intros lo la h i. unfold wgs84_at, coord, zen. destruct i; cbn [vget v0 v1 v2]; ring. Qed.

Definition polar_axis : R := 6378137 * (1 - 1 / 298.257223563).

Lemma wgs84_on : forall lo la, let w i := coord (wgs84_at lo la 0) i in
  (w I0 * w I0 + w I1 * w I1) / (6378137 * 6378137) + w I2 * w I2 / (polar_axis * polar_axis) = 1.
Proof.
  intros lo la w. unfold w, wgs84_at, coord, polar_axis. cbn [vget v0 v1 v2]. 
  set (k := 1 - 1 / 298.257223563). assert (K : 0.99 <= k <= 1) by (unfold k; lra). clearbody k.
  pose proof (sin2_cos2 la) as A. pose proof (sin2_cos2 lo) as B. unfold Rsqr in *.
  set (c := cos la) in *. set (s := sin la) in *. set (c' := cos lo) in *. set (s' := sin lo) in *. clearbody c s c' s'.
  set (q := c ^ 2 + k ^ 2 * s ^ 2).
  assert (Q : 0 < q). { unfold q. assert (0.98 <= k ^ 2) by nra. assert (0 <= s ^ 2) by nra. assert (c ^ 2 = 1 - s ^ 2) by nra. assert (s ^ 2 <= 1) by nra. nra. }
  assert (QQ : R_sqrt.sqrt q * R_sqrt.sqrt q = q) by (apply sqrt_sqrt; lra). assert (Q0 : 0 < R_sqrt.sqrt q) by (apply sqrt_lt_R0; exact Q).
  set (r := R_sqrt.sqrt q) in *. clearbody r. change (num realA) with R in *.
  transitivity ((c ^ 2 * (s' * s' + c' * c') + k ^ 2 * s ^ 2) / (r * r)); [field; lra|]. rewrite B, QQ. replace (c ^ 2 * 1 + k ^ 2 * s ^ 2) with q by (unfold q; ring). field. lra.
Qed.

(** C45 in binary64 on WGS84: the point returned at height 0 satisfies the equation of the
    ellipsoid within 2.9e-14, and up to 10000 km above or below it the point returned at height h is the
    point returned at height 0 plus h times the zenith returned, within 60 nanometres and 7e-16 h. *)
Lemma C45_normal_b64_pf : forall lm, good_libm lm -> forall c lo la h z,
  conv_new (A := b64A lm) (WGS84 (A := b64A lm)) = Ok c ->
  fin lo = true -> fin la = true -> fin h = true -> fin z = true -> B2R z = 0 -> Rabs (B2R h) <= 10000000 ->
  exists v v', geodetic_to_geocentric (A := b64A lm) c (MkGeod (A := b64A lm) lo la z) = Ok v /\
  geodetic_to_geocentric (A := b64A lm) c (MkGeod (A := b64A lm) lo la h) = Ok v' /\
  let x i := B2R (vget (A := b64A lm) v i) in
  Rabs ((x I0 * x I0 + x I1 * x I1) / (6378137 * 6378137) + x I2 * x I2 / (6378137 * (1 - 1 / 298.257223563) * (6378137 * (1 - 1 / 298.257223563))) - 1) <= 2.9 / 10 ^ 14 /\
  forall i, near (vget (A := b64A lm) v' i) (x i + B2R h * B2R (vget (A := b64A lm) (zenith (A := b64A lm) (MkGeod (A := b64A lm) lo la h)) i))
    (6 / 10 ^ 8 + 7 / 10 ^ 16 * Rabs (B2R h)).
Proof.
  intros lm G c lo la h z Hc Fo Fa Fh Fz Z0 Bh.
  destruct (C70_accuracy_pf lm G c lo la z Hc Fo Fa Fz ltac:(rewrite Z0, Rabs_R0; lra)) as (v & E & N0 & N1 & N2).
  destruct (C70_accuracy_pf lm G c lo la h Hc Fo Fa Fh Bh) as (v' & E' & N0' & N1' & N2').
  exists v, v'. split; [exact E|]. split; [exact E'|]. intros x. rewrite Z0 in *.
  assert (N : forall i, near (vget (A := b64A lm) v i) (coord (wgs84_at (B2R lo) (B2R la) 0) i) (3 / 10 ^ 8)) by (intros i; destruct i; [exact N0|exact N1|exact N2]).
  assert (N' : forall i, near (vget (A := b64A lm) v' i) (coord (wgs84_at (B2R lo) (B2R la) (B2R h)) i) (3 / 10 ^ 8)) by (intros i; destruct i; [exact N0'|exact N1'|exact N2']).
  clear N0 N1 N2 N0' N1' N2'. split.
  - pose proof (wgs84_on (B2R lo) (B2R la)) as W. cbv beta zeta in W. change (6378137 * (1 - 1 / 298.257223563)) with polar_axis.
    assert (PA : 6356752 <= polar_axis <= 6356753) by (unfold polar_axis; lra).
    destruct (N I0) as [_ B0]. destruct (N I1) as [_ B1]. destruct (N I2) as [_ B2]. fold (x I0) in B0. fold (x I1) in B1. fold (x I2) in B2.
    set (X := coord _ I0) in *. set (Y := coord _ I1) in *. set (Zc := coord _ I2) in *. 
    apply Rabs_le_inv in B0. apply Rabs_le_inv in B1. apply Rabs_le_inv in B2.
    set (dx := x I0 - X) in *. set (dy := x I1 - Y) in *. set (dz := x I2 - Zc) in *.
    replace (x I0) with (X + dx) by (unfold dx; ring). replace (x I1) with (Y + dy) by (unfold dy; ring). replace (x I2) with (Zc + dz) by (unfold dz; ring).
    clearbody dx dy dz X Y Zc. set (p := polar_axis) in *. clearbody p. clear - W PA B0 B1 B2.
    set (a := 6378137) in *. assert (A : a = 6378137) by reflexivity. clearbody a.
    assert (J1 : 0 < / (a * a)) by (apply Rinv_0_lt_compat; nra). assert (J2 : 0 < / (p * p)) by (apply Rinv_0_lt_compat; nra).
    assert (LX : X * X <= a * a /\ Y * Y <= a * a /\ Zc * Zc <= p * p).
    { assert (SX : 0 <= X * X) by nra. assert (SY : 0 <= Y * Y) by nra. assert (SZ : 0 <= Zc * Zc) by nra.
      assert (TX : 0 <= (X * X + Y * Y) / (a * a)) by (unfold Rdiv; apply Rmult_le_pos; lra). assert (TZ : 0 <= Zc * Zc / (p * p)) by (unfold Rdiv; apply Rmult_le_pos; lra).
      assert (U1 : X * X + Y * Y <= a * a). { apply (Rmult_le_reg_r (/ (a * a))); [exact J1|]. rewrite Rinv_r by nra. fold ((X * X + Y * Y) / (a * a)). lra. }
      assert (U2 : Zc * Zc <= p * p). { apply (Rmult_le_reg_r (/ (p * p))); [exact J2|]. rewrite Rinv_r by nra. fold (Zc * Zc / (p * p)). lra. }
      lra. }
    destruct LX as (LX & LY & LZ).
    assert (SQ : forall u b, 0 <= b -> u * u <= b * b -> - b <= u <= b) by (intros u b Hb Hu; split; nra).
    pose proof (SQ X a ltac:(lra) LX) as X'. pose proof (SQ Y a ltac:(lra) LY) as Y'. pose proof (SQ Zc p ltac:(lra) LZ) as Z'.
    set (e := 3 / 10 ^ 8) in *. assert (Ee : e = 3 / 10 ^ 8) by reflexivity. clearbody e.
    assert (M : forall u b d, 1 <= b -> - b <= u <= b -> - e <= d <= e -> Rabs (2 * u * d + d * d) <= b * (2 * e + e * e)).
    { intros u b d Hb Hu Hd. assert (- (b * e) <= u * d <= b * e) by (split; nra). assert (0 <= d * d <= e * e) by (split; nra). assert (e * e <= b * (e * e)) by nra. apply Rabs_le. nra. }
    pose proof (M X a dx ltac:(lra) X' B0) as MX. pose proof (M Y a dy ltac:(lra) Y' B1) as MY. pose proof (M Zc p dz ltac:(lra) Z' B2) as MZ.
    replace (((X + dx) * (X + dx) + (Y + dy) * (Y + dy)) / (a * a) + (Zc + dz) * (Zc + dz) / (p * p) - 1) with
      ((2 * X * dx + dx * dx) / (a * a) + (2 * Y * dy + dy * dy) / (a * a) + (2 * Zc * dz + dz * dz) / (p * p)) by (rewrite <- W; field; lra).
    assert (DV : forall t b, 6356752 <= b -> Rabs t <= b * (2 * e + e * e) -> Rabs (t / (b * b)) <= 0.95 / 10 ^ 14).
    { intros t b Hb Hr. assert (IB : 0 < / b <= / 6356752) by (split; [apply Rinv_0_lt_compat; lra|apply Rinv_le; lra]).
      replace (t / (b * b)) with (t * (/ b * / b)) by (field; lra). rewrite Rabs_mult, (Rabs_pos_eq (/ b * / b)) by nra.
      assert (t' : Rabs t * (/ b * / b) <= (2 * e + e * e) * / b).
      { apply Rle_trans with (b * (2 * e + e * e) * (/ b * / b)); [apply Rmult_le_compat_r; [nra|exact Hr]|]. right. field. lra. }
      eapply Rle_trans; [exact t'|]. set (ib := / b) in *. clearbody ib. subst e. nra. }
    pose proof (DV _ a ltac:(lra) MX) as DX. pose proof (DV _ a ltac:(lra) MY) as DY. pose proof (DV _ p ltac:(lra) MZ) as DZ.
    set (tx := _ / (a * a)) in DX |- *. set (ty := (2 * Y * dy + dy * dy) / (a * a)) in *. set (tz := _ / (p * p)) in DZ |- *. clearbody tx ty tz.
    apply Rabs_le_inv in DX. apply Rabs_le_inv in DY. apply Rabs_le_inv in DZ. apply Rabs_le. lra.
  - intros i. destruct (N i) as [F B]. destruct (N' i) as [F' B']. split; [exact F'|]. fold (x i) in B. rewrite wgs84_up in B'.
    destruct (zen_near lm G lo la h Fo Fa i) as [_ Bz]. set (zc := B2R _) in Bz |- *.
    assert (P : Rabs (B2R h * (zc - zen (B2R lo) (B2R la) i)) <= 7 / 10 ^ 16 * Rabs (B2R h)).
    { rewrite Rabs_mult, Rmult_comm. apply Rmult_le_compat_r; [apply Rabs_pos|exact Bz]. }
    set (zz := zen _ _ i) in *. set (w := coord _ i) in *. clearbody zz zc w. set (hh := B2R h) in *. clearbody hh. 
    replace (B2R (vget (A := b64A lm) v' i) - (x i + hh * zc)) with ((B2R (vget (A := b64A lm) v' i) - (w + hh * zz)) - (x i - w) - hh * (zc - zz)) by ring.
    replace (6 / 10 ^ 8) with (3 / 10 ^ 8 + 3 / 10 ^ 8) by lra. set (e := 3 / 10 ^ 8) in *. set (q := hh * (zc - zz)) in *. set (p := B2R (vget (A := b64A lm) v' i) - (w + hh * zz)) in *. set (o := x i - w) in *. clearbody e q p o.
    apply Rabs_le_inv in B. apply Rabs_le_inv in B'. apply Rabs_le_inv in P. apply Rabs_le. lra.
Qed.

(** Two splits of JD 2451545.25 read back as the same day and fraction. *)
Example C13_b64_example_pf : forall lm p,
  let show r := match r with Val (Ok (g, f)) => Some (g, B2SF f) | _ => None end in
  show (from_julian (A := b64A lm) p (Flit 24515450 (-1)) (Flit 25 (-2))) = Some (MkDate 2000 1 1, B2SF (Flit 75 (-2))) /\
  show (from_julian (A := b64A lm) p (Flit 24000005 (-1)) (Flit 5154475 (-2))) = Some (MkDate 2000 1 1, B2SF (Flit 75 (-2))).
Proof. intros lm p. destruct p; split; vm_compute; reflexivity. Qed.

(** C57 on 1 January 2006 with the pole at (1, 1) and at the origin: the locators differ by one half. *)
Example C57_b64_example_pf : forall lm, good_libm lm -> exists s s' : b64,
  cio (A := b64A lm) (MkTT (A := b64A lm) (Flit 24000005 (-1)) (Flit 53736 0)) (Flit 0 0) (Flit 0 0) = Val s /\
  cio (A := b64A lm) (MkTT (A := b64A lm) (Flit 24000005 (-1)) (Flit 53736 0)) (Flit 1 0) (Flit 1 0) = Val s' /\
  near s (B2R s' + / 2) (3.4 / 10 ^ 16).
Proof.
  intros lm G. destruct mjd0_ok as [Fa Va]. destruct (int_ok 53736 eq_refl) as [Fb Vb]. destruct (int_ok 0 eq_refl) as [F0 V0]. destruct (int_ok 1 eq_refl) as [F1 V1].
  destruct (C57_cio_b64_mjd_pf lm G _ _ _ _ _ _ Fa Fb F0 F0 F1 F1 Va) as (s & s' & E & E' & N); try (rewrite ?Vb, ?V0, ?V1; apply Rabs_le; lra).
  exists s, s'. split; [exact E|]. split; [exact E'|]. rewrite V0, V1 in N. replace ((1 * 1 - 0 * 0) / 2) with (/ 2) in N by lra. exact N.
Qed.

Lemma half_ok : fin (Flit 5 (-1)) = true /\ B2R (Flit 5 (-1)) = 1 / 2.
Proof.
  set (x := Flit 5 (-1)).
  assert (E : B2SF x = SpecFloat.S754_finite false 4503599627370496 (-53)) by (vm_compute; reflexivity).
  split; [destruct x; try discriminate E; reflexivity|].
  destruct x as [s|s| |s m e H]; try discriminate E. cbn [B2SF] in E.
  assert (s = false /\ m = 4503599627370496%positive /\ e = (-53)%Z) as (-> & -> & ->) by (split; [|split]; congruence).
  unfold B2R, F2R. cbn [Fnum Fexp cond_Zopp]. change (bpow radix2 (-53)) with (/ 9007199254740992). lra.
Qed.

(** C36 with the pole displaced by one half along x. *)
Example C36_b64_example_pf : forall lm, good_libm lm -> exists m,
  c2i_from_xys (A := b64A lm) (Flit 5 (-1)) (Flit 0 0) (Flit 0 0) = Val m /\ near (mget (A := b64A lm) m I2 I0) (1 / 2) (1.8 / 10 ^ 14).
Proof.
  intros lm G. destruct (int_ok 0 eq_refl) as [F0 V0].
  destruct half_ok as [FH VH].
  destruct (C36_pole_matrix_b64_pf lm G _ _ _ FH F0 F0) as (m & E & _ & N & _); [rewrite VH, V0; lra|rewrite V0, Rabs_R0; lra|].
  exists m. split; [exact E|]. rewrite VH in N. exact N.
Qed.

(** C45 1000 m above the point at longitude and latitude 1 rad. *)
Example C45_b64_example_pf : forall lm, good_libm lm -> forall c, conv_new (A := b64A lm) (WGS84 (A := b64A lm)) = Ok c ->
  exists v v', geodetic_to_geocentric (A := b64A lm) c (MkGeod (A := b64A lm) (Flit 1 0) (Flit 1 0) (Flit 0 0)) = Ok v /\
  geodetic_to_geocentric (A := b64A lm) c (MkGeod (A := b64A lm) (Flit 1 0) (Flit 1 0) (Flit 1000 0)) = Ok v' /\
  near (vget (A := b64A lm) v' I2) (B2R (vget (A := b64A lm) v I2)
    + 1000 * B2R (vget (A := b64A lm) (zenith (A := b64A lm) (MkGeod (A := b64A lm) (Flit 1 0) (Flit 1 0) (Flit 1000 0))) I2)) (6.1 / 10 ^ 8).
Proof.
  intros lm G c Hc. destruct (int_ok 0 eq_refl) as [F0 V0]. destruct (int_ok 1 eq_refl) as [F1 V1]. destruct (int_ok 1000 eq_refl) as [F2 V2].
  destruct (C45_normal_b64_pf lm G c _ _ _ _ Hc F1 F1 F2 F0 V0) as (v & v' & E & E' & _ & N); [rewrite V2; apply Rabs_le; lra|].
  exists v, v'. split; [exact E|]. split; [exact E'|]. destruct (N I2) as [F B]. split; [exact F|]. rewrite V2 in B. eapply Rle_trans; [exact B|]. rewrite Rabs_pos_eq by lra. lra.
Qed.
