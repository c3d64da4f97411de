(** * Range of TAI - UTC in the table *)

From Coq Require Import ZArith Reals Lra Lia Bool List.
From Flocq Require Import Core BinarySingleNaN.
From Verif Require Import Outcome Arith ArithR ArithF Spec_Float Spec_Accuracy M_Common M_Calendar M_DeltaAt Spec_Calendar Spec_Api.
From Verif Require Import L_ArithF L_ArithR L_Flit L_Calendar L_PCalendar L_DeltaAt L_PDeltaAt L_PSunAngle L_Apx L_ApxMod L_ApxAngle L_Libm L_ApxDat.
Open Scope R_scope.

Lemma dat_range : forall p g fd o, accepted g -> (year g < 178956970)%Z -> delta_at (A := realA) p g fd = Val (Ok o) ->
  -2 <= match o with Some d => d | None => 0 end <= 40.
Proof.
  intros p g fd o Hg Hy H.
  assert (RR : 0 <= fd <= 1).
  { apply rejected_R. unfold delta_at in H. destruct ((ltb realA fd _) || _); [discriminate|reflexivity]. }
  assert (Z0 : B2R (Flit 0 0) = 0) by (vm_compute; reflexivity).
  assert (V : val one = 1) by (unfold val; apply Rinv_r; apply IZR_neq; discriminate).
  destruct (dat_ok nice_libm p g (Flit 0 0) fd (B 0 one one) (B (-2 * one) (40 * one) (2 * one)) Hg Hy) as (x & y & _ & Ey & _ & S).
  - split; [reflexivity|]. cbn [lo hi er]. rewrite val_0, V, Z0. split; [exact RR|]. apply Rabs_le. lra.
  - vm_compute; reflexivity.
  - reflexivity.
  - exact RR.
  - rewrite Ey in H. assert (E : y = o) by congruence. subst y. destruct o as [d|]; [|lra]. destruct x as [x|]; [|contradiction S]. destruct S as (_ & S & _).
    cbn [lo hi] in S. assert (L : val (-2 * one) = -2) by (vm_compute; lra). assert (L2 : val (40 * one) = 40) by (vm_compute; lra). rewrite L, L2 in S. exact S.
Qed.
