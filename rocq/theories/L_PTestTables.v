(** * Proofs of the part of C101 about tables *)

From Coq Require Import ZArith Bool List.
From Flocq Require Import Core BinarySingleNaN.
From Verif Require Import Outcome Arith ArithF M_Common M_Time M_Locator M_Earth M_Frames M_Tests T_Tests M_TestTables.
From Verif Require Import L_ArithF.
Import ListNotations.
Open Scope Z_scope.

(** The constants of a row are computed once. *)
Definition num_ok (a b tol : b64) : bool := negb (Bltb tol (Babs (Fsub a b))).
Definition look (row : list (Z * Z)) (k : nat) : b64 := let '(m, e) := nth k row (0, 0) in Flit m e.
Definition era_ok (eps tp one z j2000 c1 c2 : b64) (row : list (Z * Z)) : bool :=
  let dj1 := look row 0 in let dj2 := look row 1 in
  let '(d1, d2) := if Bltb dj1 dj2 then (dj1, dj2) else (dj2, dj1) in
  let t := Fadd d1 (Fsub d2 j2000) in
  let f := Fadd (Frem d1 one) (Frem d2 one) in
  let w := Frem (Fmul tp (Fadd (Fadd f c1) (Fmul c2 t))) tp in
  num_ok (look row 2) (if Bltb w z then Fadd w tp else w) eps.
Definition pr_ok (eps j2000 djc p o : b64) (row : list (Z * Z)) : bool :=
  let t := Fdiv (Fadd (Fsub (look row 0) j2000) (look row 1)) djc in
  num_ok (look row 2) (Fmul p t) eps && num_ok (look row 3) (Fmul o t) eps.

Lemma each_bool : forall X (f : X -> outcome unit) (g : X -> bool) l, (forall x, f x = if g x then Val tt else Panic) -> forallb g l = true -> each f l = Val tt.
Proof.
  intros X f g l H. induction l as [|x l IH]; [reflexivity|]. cbn [forallb each]. rewrite H. intros K. apply andb_prop in K. destruct K as [K1 K2].
  rewrite K1. cbn [bind]. exact (IH K2).
Qed.

Lemma era_row : forall lm row,
  compare_numbers (A := b64A lm) (cell row 2) (rotation_angle (A := b64A lm) (MkUT1 (A := b64A lm) (cell row 0) (cell row 1))) EPSILON =
  if era_ok (EPSILON (A := b64A lm)) (c_two_pi (b64A lm)) (Flit 1 0) (Flit 0 0) (DJ00 (A := b64A lm)) (Flit 7790572732640 (-13)) (Flit 273781191135448 (-17)) row then Val tt else Panic.
Proof.
  intros lm row. unfold era_ok, num_ok, compare_numbers, rotation_angle, anp. cbn [ut1_1 ut1_2].
  change (cell (A := b64A lm) row 0) with (look row 0). change (cell (A := b64A lm) row 1) with (look row 1). change (cell (A := b64A lm) row 2) with (look row 2).
  set (x := look row 0). set (y := look row 1). set (z := look row 2). set (e := EPSILON (A := b64A lm)). b64A_ops.
  destruct (Bltb x y); match goal with |- (if ?c then _ else _) = _ => destruct c end; reflexivity.
Qed.
Lemma pr_row : forall lm row,
  (let '(p, o) := precession_rate (A := b64A lm) (MkTT (A := b64A lm) (cell row 0) (cell row 1)) in
   bind (compare_numbers (A := b64A lm) (cell row 2) p EPSILON) (fun _ => compare_numbers (A := b64A lm) (cell row 3) o EPSILON)) =
  if pr_ok (EPSILON (A := b64A lm)) (DJ00 (A := b64A lm)) (DJC (A := b64A lm))
    (mul (b64A lm) (neg (b64A lm) (lit (b64A lm) 29965 (-5))) (c_as2r (b64A lm))) (mul (b64A lm) (neg (b64A lm) (lit (b64A lm) 2524 (-5))) (c_as2r (b64A lm))) row then Val tt else Panic.
Proof.
  intros lm row. unfold pr_ok, num_ok, compare_numbers, precession_rate, tt_centuries. cbn [tt_1 tt_2].
  change (cell (A := b64A lm) row 0) with (look row 0). change (cell (A := b64A lm) row 1) with (look row 1). change (cell (A := b64A lm) row 2) with (look row 2). change (cell (A := b64A lm) row 3) with (look row 3).
  set (x := look row 0). set (y := look row 1). set (z := look row 2). set (z2 := look row 3). set (e := EPSILON (A := b64A lm)). b64A_ops.
  match goal with |- bind (if ?c then _ else _) _ = _ => destruct c end; [reflexivity|]. cbn [bind negb andb].
  match goal with |- (if ?c then _ else _) = _ => destruct c end; reflexivity.
Qed.

Lemma era_table : forall lm, forallb (era_ok (EPSILON (A := b64A lm)) (c_two_pi (b64A lm)) (Flit 1 0) (Flit 0 0) (DJ00 (A := b64A lm)) (Flit 7790572732640 (-13)) (Flit 273781191135448 (-17))) ERA00_DATA = true.
Proof. intros lm. vm_compute. reflexivity. Qed.
Lemma pr_table : forall lm, forallb (pr_ok (EPSILON (A := b64A lm)) (DJ00 (A := b64A lm)) (DJC (A := b64A lm))
    (mul (b64A lm) (neg (b64A lm) (lit (b64A lm) 29965 (-5))) (c_as2r (b64A lm))) (mul (b64A lm) (neg (b64A lm) (lit (b64A lm) 2524 (-5))) (c_as2r (b64A lm)))) PR00_DATA = true.
Proof. intros lm. vm_compute. reflexivity. Qed.

(** C101, the tests against the tables of test_data.rs that need no libm: the 1000 Earth
    rotation angles and the 1000 pairs of precession rates are reproduced to one EPSILON
    on any platform. *)
Lemma C101_tables_pf : forall lm, test_rotation_angle (A := b64A lm) = Val tt /\ test_precession_rate (A := b64A lm) = Val tt.
Proof.
  intros lm. split.
  - unfold test_rotation_angle. eapply each_bool; [|exact (era_table lm)]. intros row. cbv beta zeta. apply era_row.
  - unfold test_precession_rate. eapply each_bool; [|exact (pr_table lm)]. intros row. cbv beta. apply pr_row.
Qed.

(** The first row of the table of rotation angles; a value off by 1e-15 is refused. *)
Example C101_tables_example_pf : forall lm,
  let era := rotation_angle (A := b64A lm) (MkUT1 (A := b64A lm) (Flit 2451545 0) (Flit 14164831728719926 (-12))) in
  compare_numbers (A := b64A lm) (Flit 24594336487895134 (-16)) era EPSILON = Val tt /\
  compare_numbers (A := b64A lm) (Flit 24594336487895144 (-16)) era EPSILON = Panic.
Proof. intros lm. vm_compute. split; reflexivity. Qed.
