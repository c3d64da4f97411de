(** * Published reference values of nutation, locator and rotation matrices

    The values of the IAU SOFA tests of NUT00B, S00, C2I00B and C2T00B at TT = UT1 =
    2400000.5 + 53736 (1 January 2006), with all printed digits. *)

From Coq Require Import ZArith Reals.
From Verif Require Import ArithF M_Common.
Open Scope R_scope.

(** radians *)
Definition ref_dpsi : R := -0.000009632552291148362783.
Definition ref_deps : R := 0.00004063197106621159367.

(** the pole for the test of S00, as binary64 numbers, and the locator in radians *)
Definition ref_x : b64 := Flit 5791308486706011 (-19).
Definition ref_y : b64 := Flit 4020579816732961219 (-23).
Definition ref_s : R := -0.00000001220036263270905693.

Definition ref_c2i (i j : idx) : R :=
  match i, j with
  | I0, I0 => 0.9999998323040954356 | I0, I1 => 0.0000000005581526349131823372 | I0, I2 => -0.0005791301934855394005
  | I1, I0 => -0.00000002384239285499175543 | I1, I1 => 0.9999999991917574043 | I1, I2 => -0.00004020552974819030066
  | I2, I0 => 0.0005791301929950208873 | I2, I1 => 0.00004020553681373720832 | I2, I2 => 0.9999998314958529887
  end.

(** the coordinates of the pole on the Earth for the test of C2T00B, radians *)
Definition ref_xp : b64 := Flit 255060238 (-15).
Definition ref_yp : b64 := Flit 1860359247 (-15).
Definition ref_c2t (i j : idx) : R :=
  match i, j with
  | I0, I0 => -0.1810332128439678965 | I0, I1 => 0.9834769806913872359 | I0, I2 => 0.00006555565082458415611
  | I1, I0 => -0.9834768134115435923 | I1, I1 => -0.1810332203784001946 | I1, I2 => 0.0005749793922030017230
  | I2, I0 => 0.0005773467471863534901 | I2, I1 => 0.00003961790411549945020 | I2, I2 => 0.9999998325505635738
  end.
