(** * The published series: IAU 2000B nutation and the CIO locator of IAU 2000

    The coefficients are written out here independently of the tables of the source: the 77
    luni-solar terms of IAU 2000B (McCarthy and Luzum 2003), and the terms of s + XY/2 of the
    IERS Conventions (2003). *)

From Coq Require Import ZArith List Reals.
From Verif Require Import Spec_Frames Spec_Series.
Import ListNotations.
Open Scope R_scope.

(** Sum of f over a list. *)
Fixpoint sum_over {T} (f : T -> R) (l : list T) : R := match l with [] => 0 | x :: l' => f x + sum_over f l' end.

(** A term of the nutation series: multiples of l, l', F, D, Om, then the coefficients of
    sin, t sin, cos in longitude and of cos, t cos, sin in obliquity, in units of 0.1
    microarcsecond. *)
Record row5 := Row5 { n_l : Z; n_lp : Z; n_F : Z; n_D : Z; n_Om : Z; ps : Z; pst : Z; pc : Z; ec : Z; ect : Z; es : Z }.

Definition iau2000b : list row5 := ([
  Row5 0 0 0 0 1   (-172064161) (-174666) 33386 92052331 9086 15377;
  Row5 0 0 2 (-2) 2   (-13170906) (-1675) (-13696) 5730336 (-3015) (-4587);
  Row5 0 0 2 0 2   (-2276413) (-234) 2796 978459 (-485) 1374;
  Row5 0 0 0 0 2   2074554 207 (-698) (-897492) 470 (-291);
  Row5 0 1 0 0 0   1475877 (-3633) 11817 73871 (-184) (-1924);
  Row5 0 1 2 (-2) 2   (-516821) 1226 (-524) 224386 (-677) (-174);
  Row5 1 0 0 0 0   711159 73 (-872) (-6750) 0 358;
  Row5 0 0 2 0 1   (-387298) (-367) 380 200728 18 318;
  Row5 1 0 2 0 2   (-301461) (-36) 816 129025 (-63) 367;
  Row5 0 (-1) 2 (-2) 2   215829 (-494) 111 (-95929) 299 132;
  Row5 0 0 2 (-2) 1   128227 137 181 (-68982) (-9) 39;
  Row5 (-1) 0 2 0 2   123457 11 19 (-53311) 32 (-4);
  Row5 (-1) 0 0 2 0   156994 10 (-168) (-1235) 0 82;
  Row5 1 0 0 0 1   63110 63 27 (-33228) 0 (-9);
  Row5 (-1) 0 0 0 1   (-57976) (-63) (-189) 31429 0 (-75);
  Row5 (-1) 0 2 2 2   (-59641) (-11) 149 25543 (-11) 66;
  Row5 1 0 2 0 1   (-51613) (-42) 129 26366 0 78;
  Row5 (-2) 0 2 0 1   45893 50 31 (-24236) (-10) 20;
  Row5 0 0 0 2 0   63384 11 (-150) (-1220) 0 29;
  Row5 0 0 2 2 2   (-38571) (-1) 158 16452 (-11) 68;
  Row5 0 (-2) 2 (-2) 2   32481 0 0 (-13870) 0 0;
  Row5 (-2) 0 0 2 0   (-47722) 0 (-18) 477 0 (-25);
  Row5 2 0 2 0 2   (-31046) (-1) 131 13238 (-11) 59;
  Row5 1 0 2 (-2) 2   28593 0 (-1) (-12338) 10 (-3);
  Row5 (-1) 0 2 0 1   20441 21 10 (-10758) 0 (-3);
  Row5 2 0 0 0 0   29243 0 (-74) (-609) 0 13;
  Row5 0 0 2 0 0   25887 0 (-66) (-550) 0 11;
  Row5 0 1 0 0 1   (-14053) (-25) 79 8551 (-2) (-45);
  Row5 (-1) 0 0 2 1   15164 10 11 (-8001) 0 (-1);
  Row5 0 2 2 (-2) 2   (-15794) 72 (-16) 6850 (-42) (-5);
  Row5 0 0 (-2) 2 0   21783 0 13 (-167) 0 13;
  Row5 1 0 0 (-2) 1   (-12873) (-10) (-37) 6953 0 (-14);
  Row5 0 (-1) 0 0 1   (-12654) 11 63 6415 0 26;
  Row5 (-1) 0 2 2 1   (-10204) 0 25 5222 0 15;
  Row5 0 2 0 0 0   16707 (-85) (-10) 168 (-1) 10;
  Row5 1 0 2 2 2   (-7691) 0 44 3268 0 19;
  Row5 (-2) 0 2 0 0   (-11024) 0 (-14) 104 0 2;
  Row5 0 1 2 0 2   7566 (-21) (-11) (-3250) 0 (-5);
  Row5 0 0 2 2 1   (-6637) (-11) 25 3353 0 14;
  Row5 0 (-1) 2 0 2   (-7141) 21 8 3070 0 4;
  Row5 0 0 0 2 1   (-6302) (-11) 2 3272 0 4;
  Row5 1 0 2 (-2) 1   5800 10 2 (-3045) 0 (-1);
  Row5 2 0 2 (-2) 2   6443 0 (-7) (-2768) 0 (-4);
  Row5 (-2) 0 0 2 1   (-5774) (-11) (-15) 3041 0 (-5);
  Row5 2 0 2 0 1   (-5350) 0 21 2695 0 12;
  Row5 0 (-1) 2 (-2) 1   (-4752) (-11) (-3) 2719 0 (-3);
  Row5 0 0 0 (-2) 1   (-4940) (-11) (-21) 2720 0 (-9);
  Row5 (-1) (-1) 0 2 0   7350 0 (-8) (-51) 0 4;
  Row5 2 0 0 (-2) 1   4065 0 6 (-2206) 0 1;
  Row5 1 0 0 2 0   6579 0 (-24) (-199) 0 2;
  Row5 0 1 2 (-2) 1   3579 0 5 (-1900) 0 1;
  Row5 1 (-1) 0 0 0   4725 0 (-6) (-41) 0 3;
  Row5 (-2) 0 2 0 2   (-3075) 0 (-2) 1313 0 (-1);
  Row5 3 0 2 0 2   (-2904) 0 15 1233 0 7;
  Row5 0 (-1) 0 2 0   4348 0 (-10) (-81) 0 2;
  Row5 1 (-1) 2 0 2   (-2878) 0 8 1232 0 4;
  Row5 0 0 0 1 0   (-4230) 0 5 (-20) 0 (-2);
  Row5 (-1) (-1) 2 2 2   (-2819) 0 7 1207 0 3;
  Row5 (-1) 0 2 0 0   (-4056) 0 5 40 0 (-2);
  Row5 0 (-1) 2 2 2   (-2647) 0 11 1129 0 5;
  Row5 (-2) 0 0 0 1   (-2294) 0 (-10) 1266 0 (-4);
  Row5 1 1 2 0 2   2481 0 (-7) (-1062) 0 (-3);
  Row5 2 0 0 0 1   2179 0 (-2) (-1129) 0 (-2);
  Row5 (-1) 1 0 1 0   3276 0 1 (-9) 0 0;
  Row5 1 1 0 0 0   (-3389) 0 5 35 0 (-2);
  Row5 1 0 2 0 0   3339 0 (-13) (-107) 0 1;
  Row5 (-1) 0 2 (-2) 1   (-1987) 0 (-6) 1073 0 (-2);
  Row5 1 0 0 0 2   (-1981) 0 0 854 0 0;
  Row5 (-1) 0 0 1 0   4026 0 (-353) (-553) 0 (-139);
  Row5 0 0 2 1 2   1660 0 (-5) (-710) 0 (-2);
  Row5 (-1) 0 2 4 2   (-1521) 0 9 647 0 4;
  Row5 (-1) 1 0 1 1   1314 0 0 (-700) 0 0;
  Row5 0 (-2) 2 (-2) 1   (-1283) 0 0 672 0 0;
  Row5 1 0 2 2 1   (-1331) 0 8 663 0 4;
  Row5 (-2) 0 2 2 2   1383 0 (-2) (-594) 0 (-2);
  Row5 (-1) 0 0 0 2   1405 0 4 (-610) 0 2;
  Row5 1 1 2 (-2) 2   1290 0 0 (-556) 0 0])%Z.

(** The angle of a term at t Julian centuries. *)
Definition angle5 (t : R) (r : row5) : R :=
  IZR (n_l r) * arcsec (485868.249036 + 1717915923.2178 * t) + IZR (n_lp r) * arcsec (1287104.79305 + 129596581.0481 * t) +
  IZR (n_F r) * arcsec (335779.526232 + 1739527262.8478 * t) + IZR (n_D r) * arcsec (1072260.70369 + 1602961601.2090 * t) +
  IZR (n_Om r) * arcsec (450160.398036 - 6962890.5431 * t).

(** Nutation in longitude and obliquity, radians, with the constant planetary offsets. *)
Definition dpsi_2000b (t : R) : R :=
  arcsec (sum_over (fun r => (IZR (ps r) + IZR (pst r) * t) * sin (angle5 t r) + IZR (pc r) * cos (angle5 t r)) iau2000b / 10000000 - 0.000135).
Definition deps_2000b (t : R) : R :=
  arcsec (sum_over (fun r => (IZR (ec r) + IZR (ect r) * t) * cos (angle5 t r) + IZR (es r) * sin (angle5 t r)) iau2000b / 10000000 + 0.000388).

(** A term of the locator series: multiples of l, l', F, D, Om, of the longitudes of Venus and
    the Earth and of the general precession, then the coefficients of sin and cos in units of
    0.01 microarcsecond. *)
Record row8 := Row8 { m_l : Z; m_lp : Z; m_F : Z; m_D : Z; m_Om : Z; m_Ve : Z; m_E : Z; m_pA : Z; cs : Z; cc : Z }.

Definition s00_0 : list row8 := ([
  Row8 0 0 0 0 1 0 0 0   (-264073) 39;
  Row8 0 0 0 0 2 0 0 0   (-6353) 2;
  Row8 0 0 2 (-2) 3 0 0 0   (-1175) (-1);
  Row8 0 0 2 (-2) 1 0 0 0   (-1121) (-1);
  Row8 0 0 2 (-2) 2 0 0 0   457 0;
  Row8 0 0 2 0 3 0 0 0   (-202) 0;
  Row8 0 0 2 0 1 0 0 0   (-198) 0;
  Row8 0 0 0 0 3 0 0 0   172 0;
  Row8 0 1 0 0 1 0 0 0   141 1;
  Row8 0 1 0 0 (-1) 0 0 0   126 1;
  Row8 1 0 0 0 (-1) 0 0 0   63 0;
  Row8 1 0 0 0 1 0 0 0   63 0;
  Row8 0 1 2 (-2) 3 0 0 0   (-46) 0;
  Row8 0 1 2 (-2) 1 0 0 0   (-45) 0;
  Row8 0 0 4 (-4) 4 0 0 0   (-36) 0;
  Row8 0 0 1 (-1) 1 (-8) 12 0   24 12;
  Row8 0 0 2 0 0 0 0 0   (-32) 0;
  Row8 0 0 2 0 2 0 0 0   (-28) 0;
  Row8 1 0 2 0 3 0 0 0   (-27) 0;
  Row8 1 0 2 0 1 0 0 0   (-26) 0;
  Row8 0 0 2 (-2) 0 0 0 0   21 0;
  Row8 0 1 (-2) 2 (-3) 0 0 0   (-19) 0;
  Row8 0 1 (-2) 2 (-1) 0 0 0   (-18) 0;
  Row8 0 0 0 0 0 8 (-13) (-1)   10 (-5);
  Row8 0 0 0 2 0 0 0 0   (-15) 0;
  Row8 2 0 (-2) 0 (-1) 0 0 0   14 0;
  Row8 0 1 2 (-2) 2 0 0 0   14 0;
  Row8 1 0 0 (-2) 1 0 0 0   (-14) 0;
  Row8 1 0 0 (-2) (-1) 0 0 0   (-14) 0;
  Row8 0 0 4 (-2) 4 0 0 0   (-13) 0;
  Row8 0 0 2 (-2) 4 0 0 0   11 0;
  Row8 1 0 (-2) 0 (-3) 0 0 0   (-11) 0;
  Row8 1 0 (-2) 0 (-1) 0 0 0   (-11) 0])%Z.
Definition s00_1 : list row8 := ([
  Row8 0 0 0 0 2 0 0 0   (-7) 357;
  Row8 0 0 0 0 1 0 0 0   171 (-3);
  Row8 0 0 2 (-2) 3 0 0 0   0 48])%Z.
Definition s00_2 : list row8 := ([
  Row8 0 0 0 0 1 0 0 0   74353 (-17);
  Row8 0 0 2 (-2) 2 0 0 0   5691 6;
  Row8 0 0 2 0 2 0 0 0   984 (-1);
  Row8 0 0 0 0 2 0 0 0   (-885) 1;
  Row8 0 1 0 0 0 0 0 0   (-638) (-5);
  Row8 1 0 0 0 0 0 0 0   (-307) 0;
  Row8 0 1 2 (-2) 2 0 0 0   223 0;
  Row8 0 0 2 0 1 0 0 0   167 0;
  Row8 1 0 2 0 2 0 0 0   130 0;
  Row8 0 1 (-2) 2 (-2) 0 0 0   93 0;
  Row8 1 0 0 (-2) 0 0 0 0   68 0;
  Row8 0 0 2 (-2) 1 0 0 0   (-55) 0;
  Row8 1 0 (-2) 0 (-2) 0 0 0   53 0;
  Row8 0 0 0 2 0 0 0 0   (-27) 0;
  Row8 1 0 0 0 1 0 0 0   (-27) 0;
  Row8 1 0 (-2) (-2) (-2) 0 0 0   (-26) 0;
  Row8 1 0 0 0 (-1) 0 0 0   (-25) 0;
  Row8 1 0 2 0 1 0 0 0   22 0;
  Row8 2 0 0 (-2) 0 0 0 0   (-21) 0;
  Row8 2 0 (-2) 0 (-1) 0 0 0   20 0;
  Row8 0 0 2 2 2 0 0 0   17 0;
  Row8 2 0 2 0 2 0 0 0   13 0;
  Row8 2 0 0 0 0 0 0 0   (-13) 0;
  Row8 1 0 2 (-2) 2 0 0 0   (-12) 0;
  Row8 0 0 2 0 0 0 0 0   (-11) 0])%Z.
Definition s00_3 : list row8 := ([
  Row8 0 0 0 0 1 0 0 0   30 (-2351);
  Row8 0 0 2 (-2) 2 0 0 0   (-3) (-139);
  Row8 0 0 2 0 2 0 0 0   (-1) (-24);
  Row8 0 0 0 0 2 0 0 0   0 22])%Z.
Definition s00_4 : list row8 := ([
  Row8 0 0 0 0 1 0 0 0   (-26) (-1)])%Z.

Definition angle8 (t : R) (r : row8) : R :=
  IZR (m_l r) * iers_l t + IZR (m_lp r) * iers_lp t + IZR (m_F r) * iers_f t + IZR (m_D r) * iers_d t + IZR (m_Om r) * iers_om t +
  IZR (m_Ve r) * iers_ve t + IZR (m_E r) * iers_e t + IZR (m_pA r) * iers_pa t.

(** Periodic part of one power of t, microarcseconds. *)
Definition periodic (l : list row8) (t : R) : R :=
  sum_over (fun r => (IZR (cs r) * sin (angle8 t r) + IZR (cc r) * cos (angle8 t r)) / 100) l.

(** s + XY/2, radians. *)
Definition s00_sxy2 (t : R) : R := arcsec (
  ((94 + periodic s00_0 t) + (3808.35 + periodic s00_1 t) * t + (-119.94 + periodic s00_2 t) * t ^ 2 +
   (-72574.09 + periodic s00_3 t) * t ^ 3 + (27.70 + periodic s00_4 t) * t ^ 4 + 15.61 * t ^ 5) / 1000000).
