(** * CIO locator tables of crates/tofas/src/locator.rs

    Generated by tools/gen_tables.py from crates/tofas/src/locator.rs:18-204; every literal is the exact
    decimal (mantissa, exponent of ten) of the source. *)

From Coq Require Import ZArith List.
Import ListNotations.
Open Scope Z_scope.

(** locator.rs:18-25 [SP] *)
Definition SP : list (Z * Z) := [(94, (-6)); (380835, (-8)); ((-11994), (-8)); ((-7257409), (-8)); (277, (-7)); (1561, (-8))].

(** locator.rs [KS0], i8 *)
Definition KS0 : list (list Z) := [
  [0; 0; 0; 0; 1; 0; 0; 0];
  [0; 0; 0; 0; 2; 0; 0; 0];
  [0; 0; 2; (-2); 3; 0; 0; 0];
  [0; 0; 2; (-2); 1; 0; 0; 0];
  [0; 0; 2; (-2); 2; 0; 0; 0];
  [0; 0; 2; 0; 3; 0; 0; 0];
  [0; 0; 2; 0; 1; 0; 0; 0];
  [0; 0; 0; 0; 3; 0; 0; 0];
  [0; 1; 0; 0; 1; 0; 0; 0];
  [0; 1; 0; 0; (-1); 0; 0; 0];
  [1; 0; 0; 0; (-1); 0; 0; 0];
  [1; 0; 0; 0; 1; 0; 0; 0];
  [0; 1; 2; (-2); 3; 0; 0; 0];
  [0; 1; 2; (-2); 1; 0; 0; 0];
  [0; 0; 4; (-4); 4; 0; 0; 0];
  [0; 0; 1; (-1); 1; (-8); 12; 0];
  [0; 0; 2; 0; 0; 0; 0; 0];
  [0; 0; 2; 0; 2; 0; 0; 0];
  [1; 0; 2; 0; 3; 0; 0; 0];
  [1; 0; 2; 0; 1; 0; 0; 0];
  [0; 0; 2; (-2); 0; 0; 0; 0];
  [0; 1; (-2); 2; (-3); 0; 0; 0];
  [0; 1; (-2); 2; (-1); 0; 0; 0];
  [0; 0; 0; 0; 0; 8; (-13); (-1)];
  [0; 0; 0; 2; 0; 0; 0; 0];
  [2; 0; (-2); 0; (-1); 0; 0; 0];
  [0; 1; 2; (-2); 2; 0; 0; 0];
  [1; 0; 0; (-2); 1; 0; 0; 0];
  [1; 0; 0; (-2); (-1); 0; 0; 0];
  [0; 0; 4; (-2); 4; 0; 0; 0];
  [0; 0; 2; (-2); 4; 0; 0; 0];
  [1; 0; (-2); 0; (-3); 0; 0; 0];
  [1; 0; (-2); 0; (-1); 0; 0; 0]
].

(** locator.rs [KS1], i8 *)
Definition KS1 : list (list Z) := [
  [0; 0; 0; 0; 2; 0; 0; 0];
  [0; 0; 0; 0; 1; 0; 0; 0];
  [0; 0; 2; (-2); 3; 0; 0; 0]
].

(** locator.rs [KS2], i8 *)
Definition KS2 : list (list Z) := [
  [0; 0; 0; 0; 1; 0; 0; 0];
  [0; 0; 2; (-2); 2; 0; 0; 0];
  [0; 0; 2; 0; 2; 0; 0; 0];
  [0; 0; 0; 0; 2; 0; 0; 0];
  [0; 1; 0; 0; 0; 0; 0; 0];
  [1; 0; 0; 0; 0; 0; 0; 0];
  [0; 1; 2; (-2); 2; 0; 0; 0];
  [0; 0; 2; 0; 1; 0; 0; 0];
  [1; 0; 2; 0; 2; 0; 0; 0];
  [0; 1; (-2); 2; (-2); 0; 0; 0];
  [1; 0; 0; (-2); 0; 0; 0; 0];
  [0; 0; 2; (-2); 1; 0; 0; 0];
  [1; 0; (-2); 0; (-2); 0; 0; 0];
  [0; 0; 0; 2; 0; 0; 0; 0];
  [1; 0; 0; 0; 1; 0; 0; 0];
  [1; 0; (-2); (-2); (-2); 0; 0; 0];
  [1; 0; 0; 0; (-1); 0; 0; 0];
  [1; 0; 2; 0; 1; 0; 0; 0];
  [2; 0; 0; (-2); 0; 0; 0; 0];
  [2; 0; (-2); 0; (-1); 0; 0; 0];
  [0; 0; 2; 2; 2; 0; 0; 0];
  [2; 0; 2; 0; 2; 0; 0; 0];
  [2; 0; 0; 0; 0; 0; 0; 0];
  [1; 0; 2; (-2); 2; 0; 0; 0];
  [0; 0; 2; 0; 0; 0; 0; 0]
].

(** locator.rs [KS3], i8 *)
Definition KS3 : list (list Z) := [
  [0; 0; 0; 0; 1; 0; 0; 0];
  [0; 0; 2; (-2); 2; 0; 0; 0];
  [0; 0; 2; 0; 2; 0; 0; 0];
  [0; 0; 0; 0; 2; 0; 0; 0]
].

(** locator.rs [KS4], i8 *)
Definition KS4 : list (list Z) := [
  [0; 0; 0; 0; 1; 0; 0; 0]
].

(** locator.rs [SS0] *)
Definition SS0 : list (list (Z * Z)) := [
  [((-264073), (-8)); (39, (-8))];
  [((-6353), (-8)); (2, (-8))];
  [((-1175), (-8)); ((-1), (-8))];
  [((-1121), (-8)); ((-1), (-8))];
  [(457, (-8)); (0, 0)];
  [((-202), (-8)); (0, 0)];
  [((-198), (-8)); (0, 0)];
  [(172, (-8)); (0, 0)];
  [(141, (-8)); (1, (-8))];
  [(126, (-8)); (1, (-8))];
  [(63, (-8)); (0, 0)];
  [(63, (-8)); (0, 0)];
  [((-46), (-8)); (0, 0)];
  [((-45), (-8)); (0, 0)];
  [((-36), (-8)); (0, 0)];
  [(24, (-8)); (12, (-8))];
  [((-32), (-8)); (0, 0)];
  [((-28), (-8)); (0, 0)];
  [((-27), (-8)); (0, 0)];
  [((-26), (-8)); (0, 0)];
  [(21, (-8)); (0, 0)];
  [((-19), (-8)); (0, 0)];
  [((-18), (-8)); (0, 0)];
  [(1, (-7)); ((-5), (-8))];
  [((-15), (-8)); (0, 0)];
  [(14, (-8)); (0, 0)];
  [(14, (-8)); (0, 0)];
  [((-14), (-8)); (0, 0)];
  [((-14), (-8)); (0, 0)];
  [((-13), (-8)); (0, 0)];
  [(11, (-8)); (0, 0)];
  [((-11), (-8)); (0, 0)];
  [((-11), (-8)); (0, 0)]
].

(** locator.rs [SS1] *)
Definition SS1 : list (list (Z * Z)) := [
  [((-7), (-8)); (357, (-8))];
  [(171, (-8)); ((-3), (-8))];
  [(0, 0); (48, (-8))]
].

(** locator.rs [SS2] *)
Definition SS2 : list (list (Z * Z)) := [
  [(74353, (-8)); ((-17), (-8))];
  [(5691, (-8)); (6, (-8))];
  [(984, (-8)); ((-1), (-8))];
  [((-885), (-8)); (1, (-8))];
  [((-638), (-8)); ((-5), (-8))];
  [((-307), (-8)); (0, 0)];
  [(223, (-8)); (0, 0)];
  [(167, (-8)); (0, 0)];
  [(13, (-7)); (0, 0)];
  [(93, (-8)); (0, 0)];
  [(68, (-8)); (0, 0)];
  [((-55), (-8)); (0, 0)];
  [(53, (-8)); (0, 0)];
  [((-27), (-8)); (0, 0)];
  [((-27), (-8)); (0, 0)];
  [((-26), (-8)); (0, 0)];
  [((-25), (-8)); (0, 0)];
  [(22, (-8)); (0, 0)];
  [((-21), (-8)); (0, 0)];
  [(2, (-7)); (0, 0)];
  [(17, (-8)); (0, 0)];
  [(13, (-8)); (0, 0)];
  [((-13), (-8)); (0, 0)];
  [((-12), (-8)); (0, 0)];
  [((-11), (-8)); (0, 0)]
].

(** locator.rs [SS3] *)
Definition SS3 : list (list (Z * Z)) := [
  [(3, (-7)); ((-2351), (-8))];
  [((-3), (-8)); ((-139), (-8))];
  [((-1), (-8)); ((-24), (-8))];
  [(0, 0); (22, (-8))]
].

(** locator.rs [SS4] *)
Definition SS4 : list (list (Z * Z)) := [
  [((-26), (-8)); ((-1), (-8))]
].

(** locator.rs:190-196 [KSS] *)
Definition KSS : list (list (list Z)) := [KS0; KS1; KS2; KS3; KS4].
(** locator.rs:198-204 [SSS] *)
Definition SSS : list (list (list (Z * Z))) := [SS0; SS1; SS2; SS3; SS4].
