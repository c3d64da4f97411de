(** * Lemmas for C98: the tables are the published series *)

From Coq Require Import ZArith Reals Lra Lia List.
From Flocq Require Import Core BinarySingleNaN.
From Verif Require Import Outcome Arith ArithR ArithF Spec_Float Spec_Accuracy M_Common M_Time M_Frames M_Locator T_Nut T_Cio Spec_Matrix Spec_Frames Spec_Series Spec_Published.
From Verif Require Import L_ArithR.
From Verif Require L_PSeries L_PAccuracy.
Import ListNotations.
Open Scope R_scope.

Lemma sumn_shift : forall n f, sumn (S n) f = f 0%nat + sumn n (fun i => f (S i)).
Proof. induction n as [|n IH]; intros f; [cbn; ring|]. change (sumn (S (S n)) f) with (sumn (S n) f + f (S n)). rewrite IH. cbn [sumn]. ring. Qed.

Lemma sumn_over : forall T (d : T) (l : list T) (f : nat -> R) (g : T -> R),
  (forall i, (i < length l)%nat -> f i = g (nth i l d)) -> sumn (length l) f = sum_over g l.
Proof.
  intros T d. induction l as [|x l IH]; intros f g H; [reflexivity|].
  cbn [length]. rewrite sumn_shift. cbn [sum_over]. rewrite (H 0%nat) by (cbn; lia). cbn [nth]. f_equal.
  apply IH. intros i Hi. rewrite (H (S i)) by (cbn; lia). reflexivity.
Qed.

Lemma nth_map : forall S T (h : S -> T) l i d e, (i < length l)%nat -> nth i (map h l) e = h (nth i l d).
Proof. intros S T h l i d e H. rewrite (nth_indep _ e (h d)) by (rewrite map_length; exact H). apply map_nth. Qed.

Definition args5 (r : row5) : list Z := [n_l r; n_lp r; n_F r; n_D r; n_Om r].
Definition cfs5 (r : row5) : list (Z * Z) := [(ps r, 0); (pst r, 0); (pc r, 0); (ec r, 0); (ect r, 0); (es r, 0)]%Z.
Definition d5 : row5 := Row5 0 0 0 0 0 0 0 0 0 0 0.

Lemma nals_pub : NALS = map args5 iau2000b. Proof. vm_compute. reflexivity. Qed.
Lemma cls_pub : CLS = map cfs5 iau2000b. Proof. vm_compute. reflexivity. Qed.

Lemma dec_int : forall z, dec (z, 0%Z) = IZR z.
Proof. intros z. unfold dec. cbn [fst snd powerRZ]. ring. Qed.

Lemma angle5_combo : forall t r, combo (args5 r) (nut_angles t) = angle5 t r.
Proof. intros t r. unfold args5, nut_angles, angle5. cbn [combo]. ring. Qed.

Lemma dpsi_pub : forall t, nut_dpsi t = dpsi_2000b t.
Proof.
  intros t. unfold nut_dpsi, dpsi_2000b. f_equal. f_equal. f_equal. unfold nut_coef. rewrite nals_pub, cls_pub, map_length.
  apply (sumn_over _ d5). intros i Hi. cbv zeta. rewrite (nth_map _ _ args5 _ _ d5), (nth_map _ _ cfs5 _ _ d5) by exact Hi.
  rewrite angle5_combo. unfold cfs5. cbn [nth]. rewrite !dec_int. reflexivity.
Qed.

Lemma deps_pub : forall t, nut_deps t = deps_2000b t.
Proof.
  intros t. unfold nut_deps, deps_2000b. f_equal. f_equal. f_equal. unfold nut_coef. rewrite nals_pub, cls_pub, map_length.
  apply (sumn_over _ d5). intros i Hi. cbv zeta. rewrite (nth_map _ _ args5 _ _ d5), (nth_map _ _ cfs5 _ _ d5) by exact Hi.
  rewrite angle5_combo. unfold cfs5. cbn [nth]. rewrite !dec_int. reflexivity.
Qed.

(** C98.  In exact arithmetic, nutation returns the IAU 2000B nutation, the 77 terms written out. *)
Lemma C98_nutation_pf : forall d, nutation (A := realA) d = Val (dpsi_2000b (centuries d), deps_2000b (centuries d)).
Proof. intros d. rewrite <- dpsi_pub, <- deps_pub. apply L_PSeries.C60_nutation_series_pf. Qed.

(** C98.  The same in binary64, with the date split as a modified Julian date between 1585 and
    2132: within 6.7e-16 and 2.9e-16 rad. *)
Lemma C98_nutation_b64_pf : forall lm, good_libm lm -> forall a b : b64, fin a = true -> fin b = true ->
  B2R a = 2400000.5 -> Rabs (B2R b) <= 100000 ->
  let t := centuries (MkTT (A := realA) (B2R a) (B2R b)) in
  exists dpsi deps : b64, nutation (A := b64A lm) (MkTT (A := b64A lm) a b) = Val (dpsi, deps) /\
    near dpsi (dpsi_2000b t) (6.7 / 10 ^ 16) /\ near deps (deps_2000b t) (2.9 / 10 ^ 16).
Proof.
  intros lm G a b Fa Fb Ea Eb t. destruct (L_PAccuracy.C65_nutation_accuracy_mjd_pf lm G a b Fa Fb Ea Eb) as (u & v & E & H1 & H2).
  exists u, v. rewrite <- dpsi_pub, <- deps_pub. split; [exact E|]. split; [exact H1|exact H2].
Qed.

(** ** The locator *)
Definition args8 (r : row8) : list Z := [m_l r; m_lp r; m_F r; m_D r; m_Om r; m_Ve r; m_E r; m_pA r].
Definition scaled (d : Z * Z) : Z := (fst d * 10 ^ (snd d + 8))%Z.
Definition d8 : row8 := Row8 0 0 0 0 0 0 0 0 0 0.
Definition s00 : list (list row8) := [s00_0; s00_1; s00_2; s00_3; s00_4].

Lemma kss_pub : KSS = map (map args8) s00. Proof. vm_compute. reflexivity. Qed.
Lemma sss_pub : map (map (map scaled)) SSS = map (map (fun r => [cs r; cc r])) s00. Proof. vm_compute. reflexivity. Qed.
Lemma sss_ok : Forall (Forall (Forall (fun d => 0 <= snd d + 8)%Z)) SSS.
Proof. unfold SSS, SS0, SS1, SS2, SS3, SS4. repeat constructor; discriminate. Qed.

Lemma dec_scaled : forall d, (0 <= snd d + 8)%Z -> dec d = IZR (scaled d) / 100000000.
Proof.
  intros [m e] H. unfold dec, scaled. cbn [fst snd] in *. rewrite mult_IZR. unfold Rdiv. rewrite Rmult_assoc. f_equal.
  assert (E : IZR (10 ^ (e + 8)) = powerRZ 10 (e + 8)) by (rewrite <- (Z2Nat.id (e + 8) H), <- pow_IZR, <- pow_powerRZ; reflexivity). rewrite E.
  assert (E8 : powerRZ 10 8 = 100000000) by (change 8%Z with (Z.of_nat 8); rewrite <- pow_powerRZ, pow_IZR; reflexivity).
  rewrite powerRZ_add, E8 by lra. set (q := powerRZ 10 e). clearbody q. lra.
Qed.

Lemma ss_len : forall k, (k < 5)%nat -> length (nth k SSS []) = length (nth k s00 []) /\ Forall (fun l => length l = 2%nat) (nth k SSS []).
Proof.
  intros k Hk. do 5 (destruct k as [|k]; [split; [vm_compute; reflexivity|cbn [nth SSS SS0 SS1 SS2 SS3 SS4]; repeat constructor]|]). lia.
Qed.

Lemma coef_pub : forall k i, (k < 5)%nat -> (i < length (nth k s00 []))%nat ->
  cio_coef k i 0 = IZR (cs (nth i (nth k s00 []) d8)) / 100000000 /\ cio_coef k i 1 = IZR (cc (nth i (nth k s00 []) d8)) / 100000000.
Proof.
  intros k i Hk Hi. destruct (ss_len k Hk) as [L L2]. unfold cio_coef.
  assert (K5 : (k < length SSS)%nat) by exact Hk. 
  assert (OK := sss_ok). rewrite Forall_forall in OK. specialize (OK (nth k SSS []) (nth_In _ _ K5)).
  rewrite Forall_forall in OK. assert (I : In (nth i (nth k SSS []) []) (nth k SSS [])) by (apply nth_In; rewrite L; exact Hi).
  specialize (OK _ I). rewrite Forall_forall in L2. specialize (L2 _ I).
  assert (E : map scaled (nth i (nth k SSS []) []) = [cs (nth i (nth k s00 []) d8); cc (nth i (nth k s00 []) d8)]).
  { assert (E1 : nth i (nth k (map (map (map scaled)) SSS) []) [] = map scaled (nth i (nth k SSS []) [])).
    { rewrite (nth_map _ _ (map (map scaled)) SSS k [] [] K5). rewrite (nth_map _ _ (map scaled) _ i [] []) by (rewrite L; exact Hi). reflexivity. }
    rewrite <- E1, sss_pub. rewrite (nth_map _ _ (map (fun r => [cs r; cc r])) s00 k [] []) by exact Hk.
    rewrite (nth_map _ _ (fun r => [cs r; cc r]) _ i d8 []) by exact Hi. reflexivity. }
  set (row := nth i (nth k SSS []) []) in *. clearbody row. destruct row as [|a [|b [|c row]]]; try discriminate L2.
  cbn [map] in E. injection E as Ea Eb. cbn [nth]. inversion OK as [|? ? Oa O']. inversion O' as [|? ? Ob _]. subst.
  rewrite (dec_scaled a Oa), (dec_scaled b Ob), Ea, Eb. split; reflexivity.
Qed.

Lemma angle8_combo : forall t r, combo (args8 r) (cio_angles t) = angle8 t r.
Proof. intros t r. unfold args8, cio_angles, angle8. cbn [combo]. ring. Qed.

Lemma order_pub : forall k t, (k < 5)%nat -> cio_order k t = dec (nth k SP (0, 0)%Z) + periodic (nth k s00 []) t / 1000000.
Proof.
  intros k t Hk. unfold cio_order. f_equal. unfold periodic.
  assert (EK : nth k KSS [] = map args8 (nth k s00 [])) by (rewrite kss_pub; apply (nth_map _ _ (map args8) s00 k [] []); exact Hk).
  rewrite EK, map_length.
  transitivity (sum_over (fun r => (IZR (cs r) * sin (angle8 t r) + IZR (cc r) * cos (angle8 t r)) / 100 / 1000000) (nth k s00 [])).
  - apply (sumn_over _ d8). intros i Hi. cbv zeta. rewrite (nth_map _ _ args8 _ _ d8) by exact Hi. rewrite angle8_combo.
    destruct (coef_pub k i Hk Hi) as [-> ->]. field.
  - generalize (nth k s00 []). intros l. induction l as [|r l IH]; cbn [sum_over]; [field|]. rewrite IH. field.
Qed.

Lemma sxy2_pub : forall t, cio_sxy2 t = s00_sxy2 t.
Proof.
  intros t. unfold cio_sxy2, s00_sxy2. f_equal. cbn [sumn].
  rewrite (order_pub 0), (order_pub 1), (order_pub 2), (order_pub 3), (order_pub 4) by lia.
  assert (E5 : cio_order 5 t = dec (nth 5 SP (0, 0)%Z)) by (unfold cio_order; cbn [nth KSS length sumn]; ring). rewrite E5.
  assert (SPV : forall k, (k < 6)%nat -> dec (nth k SP (0, 0)%Z) = IZR (nth k (map scaled SP) 0%Z) / 100000000).
  { intros k Hk. do 6 (destruct k as [|k]; [cbn [nth map SP]; apply dec_scaled; cbn [snd]; discriminate|]). lia. }
  rewrite !SPV by lia.
  replace (map scaled SP) with [9400; 380835; -11994; -7257409; 2770; 1561]%Z by (vm_compute; reflexivity). cbn [nth s00].
  set (p0 := periodic s00_0 t). set (p1 := periodic s00_1 t). set (p2 := periodic s00_2 t). set (p3 := periodic s00_3 t). set (p4 := periodic s00_4 t).
  clearbody p0 p1 p2 p3 p4.
  set (t2 := t ^ 2). set (t3 := t ^ 3). set (t4 := t ^ 4). set (t5 := t ^ 5). clearbody t2 t3 t4 t5. lra.
Qed.

(** C98.  In exact arithmetic, the locator is the published series, written out, minus xy/2. *)
Lemma C98_locator_pf : forall d x y, cio (A := realA) d x y = Val (s00_sxy2 (centuries d) - x * y / 2).
Proof. intros d x y. rewrite <- sxy2_pub. apply L_PSeries.C61_cio_series_pf. Qed.

(** C98.  The same in binary64, with the date split as a modified Julian date between 1585 and
    2132: within 1.7e-16 rad. *)
Lemma C98_locator_b64_pf : forall lm, good_libm lm -> forall a b x y : b64,
  fin a = true -> fin b = true -> fin x = true -> fin y = true ->
  B2R a = 2400000.5 -> Rabs (B2R b) <= 100000 -> Rabs (B2R x) <= 1 -> Rabs (B2R y) <= 1 ->
  exists s : b64, cio (A := b64A lm) (MkTT (A := b64A lm) a b) x y = Val s /\
    near s (s00_sxy2 (centuries (MkTT (A := realA) (B2R a) (B2R b))) - B2R x * B2R y / 2) (1.7 / 10 ^ 16).
Proof.
  intros lm G a b x y Fa Fb Fx Fy Ea Eb Ex Ey. destruct (L_PAccuracy.C66_cio_accuracy_mjd_pf lm G a b x y Fa Fb Fx Fy Ea Eb Ex Ey) as (s & E & H).
  exists s. rewrite <- sxy2_pub. split; [exact E|exact H].
Qed.

(** C98 at J2000.0, where only the constant coefficients count: the angle of the first term is
    the longitude of the node, 450160.398036 arcseconds, and the
    numbers of terms are 77 and 66. *)
Example C98_example_pf :
  nutation (A := realA) (MkTT (A := realA) 2451545 0) = Val (dpsi_2000b 0, deps_2000b 0) /\
  angle5 0 (nth 0 iau2000b (Row5 0 0 0 0 0 0 0 0 0 0 0)) = arcsec 450160.398036 /\
  angle5 0 (nth 76 iau2000b (Row5 0 0 0 0 0 0 0 0 0 0 0)) = arcsec (485868.249036 + 1287104.79305 + 2 * 335779.526232 - 2 * 1072260.70369 + 2 * 450160.398036) /\
  length iau2000b = 77%nat /\ length (s00_0 ++ s00_1 ++ s00_2 ++ s00_3 ++ s00_4) = 66%nat.
Proof.
  split; [|split; [|split; [|split; vm_compute; reflexivity]]].
  - rewrite C98_nutation_pf. unfold centuries. cbn [tt_1 tt_2]. replace ((2451545 + 0 - 2451545) / 36525) with 0 by lra. reflexivity.
  - cbn [nth iau2000b]. unfold angle5. cbn [n_l n_lp n_F n_D n_Om]. unfold arcsec. lra.
  - cbn [nth iau2000b]. unfold angle5. cbn [n_l n_lp n_F n_D n_Om]. unfold arcsec. lra.
Qed.
