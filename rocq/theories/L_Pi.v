(** * Numerical bounds on pi (Machin-like formula of the standard library) *)

From Coq Require Import Reals Lra.
Open Scope R_scope.

Lemma PI_bounds : 3.14159265358 < PI < 3.14159265359.
Proof.
  pose proof (PI_2_3_7_ineq 6) as [L U].
  unfold tg_alt, PI_2_3_7_tg, Ratan_seq in L, U.
  cbn [Nat.mul Nat.add sum_f_R0] in L, U. cbn [pow Nat.mul Nat.add INR] in L, U.
  split; lra.
Qed.

Lemma PI_bounds_24 : 3.141592653589793238462643 < PI < 3.141592653589793238462644.
Proof.
  pose proof (PI_2_3_7_ineq 13) as [L U].
  unfold tg_alt, PI_2_3_7_tg, Ratan_seq in L, U.
  cbn [Nat.mul Nat.add sum_f_R0] in L, U. cbn [pow Nat.mul Nat.add INR] in L, U.
  split; lra.
Qed.
