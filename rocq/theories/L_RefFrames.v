(** * Lemmas for C106: the program with the libm of L_CalcLibm.v at the reference date *)

From Coq Require Import ZArith Reals Lra Lia List Bool.
From Flocq Require Import Core BinarySingleNaN.
From Verif Require Import Outcome Arith ArithR ArithF Spec_Float Spec_Accuracy M_Common M_Time M_Earth M_Locator M_Frames Spec_RefFrames.
From Verif Require Import L_ArithF L_CalcLibm.
Import ListNotations.
Open Scope R_scope.

(** ** Comparison with a decimal number n 10^-30: |x - n 10^-30| <= t 10^-30. *)
Definition close (x : b64) (n t : Z) : bool :=
  match x with
  | B754_finite s m (Zneg k) _ => (Z.abs (sg s (Zpos m) * 10 ^ 30 - n * 2 ^ Zpos k) <=? t * 2 ^ Zpos k)%Z
  | _ => false
  end.

Lemma close_ok : forall x n t, close x n t = true -> fin x = true /\ Rabs (B2R x - IZR n / 10 ^ 30) <= IZR t / 10 ^ 30.
Proof.
  intros x n t H. destruct x as [s|s| |s m e B]; try discriminate H. destruct e as [|k|k]; try discriminate H. split; [reflexivity|].
  cbn [close] in H. apply Z.leb_le, IZR_le in H. rewrite abs_IZR, minus_IZR, !mult_IZR in H. change (10 ^ 30)%Z with 1000000000000000000000000000000%Z in H.
  assert (V : B2R (B754_finite s m (Zneg k) B : b64) = IZR (sg s (Zpos m)) / IZR (2 ^ Zpos k)).
  { rewrite B2R_nd. cbn [nd fst snd]. unfold sg. destruct s; [rewrite opp_IZR|]; unfold Rdiv; ring. }
  rewrite V. assert (P : 0 < IZR (2 ^ Zpos k)) by (apply IZR_lt, Z.pow_pos_nonneg; lia). set (q := IZR (2 ^ Zpos k)) in *. set (a := IZR (sg s (Zpos m))) in *. clearbody q a.
  replace (a / q - IZR n / 10 ^ 30) with ((a * 1000000000000000000000000000000 - IZR n * q) * / (q * 10 ^ 30)) by (field; lra).
  assert (QP : 0 < / (q * 10 ^ 30)) by (apply Rinv_0_lt_compat; apply Rmult_lt_0_compat; lra).
  rewrite Rabs_mult, (Rabs_pos_eq (/ _)) by lra. replace (IZR t / 10 ^ 30) with (IZR t * q * / (q * 10 ^ 30)) by (field; lra). apply Rmult_le_compat_r; lra.
Qed.

(** ** One run of the whole chain *)
Section Chain.
Context {A : arith}.
Variables (okn : num A -> num A -> bool) (okq okt : mat3 A -> bool) (d : TT A) (u : UT1 A) (xp yp : num A).
Open Scope outcome_scope.

Definition chain : bool :=
  match nutation d with
  | Panic => false
  | Val (dpsi, deps) => okn dpsi deps &&
      match pn_from_tt_with_nutation d dpsi deps with
      | Panic => false
      | Val pn =>
          match c2i_with_bpn d (pn_rbpn pn) with
          | Panic => false
          | Val q => okq q &&
              match polar_motion_matrix xp yp (lit A 0 0) with
              | Panic => false
              | Val w => match c2t_from_cio q (rotation_angle u) w with Panic => false | Val m => okt m end
              end
          end
      end
  end.

Lemma chain_ok : chain = true ->
  (exists dpsi deps, nutation d = Val (dpsi, deps) /\ okn dpsi deps = true) /\
  (exists q, celestial_to_intermediate d = Val q /\ okq q = true) /\
  (exists m, celestial_to_terrestrial d u xp yp = Val m /\ okt m = true).
Proof.
  unfold chain, celestial_to_terrestrial, celestial_to_intermediate, precession_nutation, pn_from_tt, bind. intros H.
  destruct (nutation d) as [[dpsi deps]|]; [|discriminate H]. apply andb_prop in H. destruct H as [H0 H].
  destruct (pn_from_tt_with_nutation d dpsi deps) as [pn|]; [|discriminate H].
  destruct (c2i_with_bpn d (pn_rbpn pn)) as [q|]; [|discriminate H]. apply andb_prop in H. destruct H as [H1 H].
  destruct (polar_motion_matrix xp yp (lit A 0 0)) as [w|]; [|discriminate H].
  destruct (c2t_from_cio q (rotation_angle u) w) as [m|]; [|discriminate H].
  split; [exists dpsi, deps; split; [reflexivity|exact H0]|]. split; [exists q; split; [reflexivity|exact H1]|].
  exists m. split; [reflexivity|exact H].
Qed.
End Chain.

(** ** The checks *)
Notation CA := (b64A calc_libm).
Definition ref_d (lm : libm) : TT (b64A lm) := MkTT (A := b64A lm) (Flit 24000005 (-1)) (Flit 53736 0).
Definition ref_u (lm : libm) : UT1 (b64A lm) := MkUT1 (A := b64A lm) (Flit 24000005 (-1)) (Flit 53736 0).

Definition z_c2i (i j : idx) : Z :=
  match i, j with
  | I0, I0 => 999999832304095435600000000000 | I0, I1 => 558152634913182337200 | I0, I2 => -579130193485539400500000000
  | I1, I0 => -23842392854991755430000 | I1, I1 => 999999999191757404300000000000 | I1, I2 => -40205529748190300660000000
  | I2, I0 => 579130192995020887300000000 | I2, I1 => 40205536813737208320000000 | I2, I2 => 999999831495852988700000000000
  end%Z.
Definition z_c2t (i j : idx) : Z :=
  match i, j with
  | I0, I0 => -181033212843967896500000000000 | I0, I1 => 983476980691387235900000000000 | I0, I2 => 65555650824584156110000000
  | I1, I0 => -983476813411543592300000000000 | I1, I1 => -181033220378400194600000000000 | I1, I2 => 574979392203001723000000000
  | I2, I0 => 577346747186353490100000000 | I2, I1 => 39617904115499450200000000 | I2, I2 => 999999832550563573800000000000
  end%Z.
Lemma z_c2i_ok : forall i j, IZR (z_c2i i j) / 10 ^ 30 = ref_c2i i j. Proof. intros [] []; unfold z_c2i, ref_c2i; lra. Qed.
Lemma z_c2t_ok : forall i j, IZR (z_c2t i j) / 10 ^ 30 = ref_c2t i j. Proof. intros [] []; unfold z_c2t, ref_c2t; lra. Qed.

Definition ok_nut (a b : b64) : bool := close a (-9632552291148362783000000) 100000000000 && close b 40631971066211593670000000 100000000000.
Definition ok_mat (z : idx -> idx -> Z) (t : Z) (m : mat3 CA) : bool := forallb (fun i => forallb (fun j => close (mget (A := CA) m i j) (z i j) t) idx_all) idx_all.

Lemma ok_mat_ok : forall z t m, ok_mat z t m = true -> forall i j, close (mget (A := CA) m i j) (z i j) t = true.
Proof.
  intros z t m H i j. unfold ok_mat in H. rewrite forallb_forall in H. assert (I : forall i, In i idx_all) by (intros []; cbv; tauto).
  specialize (H i (I i)). rewrite forallb_forall in H. exact (H j (I j)).
Qed.

Lemma run_chain : chain (A := CA) ok_nut (ok_mat z_c2i 200000000000000) (ok_mat z_c2t 10000000000000000) (ref_d calc_libm) (ref_u calc_libm) ref_xp ref_yp = true.
Proof. vm_compute. reflexivity. Qed.

Definition ok_cio (o : outcome b64) : bool := match o with Val s => close s (-12200362632709056930000) 100000000 | Panic => false end.
Lemma run_cio : ok_cio (cio (A := CA) (ref_d calc_libm) ref_x ref_y) = true.
Proof. vm_compute. reflexivity. Qed.
