(** * Model of crates/tofas/src/frames.rs *)

From Coq Require Import ZArith Bool List.
From Verif Require Import Outcome Arith M_Common M_Time M_Earth M_Locator T_Nut.
Import ListNotations.
Open Scope Z_scope.
Open Scope outcome_scope.

Section Frames.
Context {A : arith}.
Local Notation num := (num A).
Local Notation lit := (lit A).
Local Notation dlit d := (lit (fst d) (snd d)).
Local Open Scope num_scope.
Local Notation AS2R := (c_as2r A).

(** frames.rs:89-90 *)
Definition DPPLAN : num := (- lit 135 (-3)) * MAS2R.
Definition DEPLAN : num := lit 388 (-3) * MAS2R.
(** frames.rs:253 *)
Definition U2R : num := AS2R / lit 1 7.

(** frames.rs:258-262: the five Delaunay arguments, in radians *)
Definition nut_el (t : num) : num :=
  ((lit 485868249036 (-6) + lit 17179159232178 (-4) * t) %% TURNAS) * AS2R.
Definition nut_elp (t : num) : num :=
  ((lit 128710479305 (-5) + lit 1295965810481 (-4) * t) %% TURNAS) * AS2R.
Definition nut_f (t : num) : num :=
  ((lit 335779526232 (-6) + lit 17395272628478 (-4) * t) %% TURNAS) * AS2R.
Definition nut_d (t : num) : num :=
  ((lit 107226070369 (-5) + lit 16029616012090 (-4) * t) %% TURNAS) * AS2R.
Definition nut_om (t : num) : num :=
  ((lit 450160398036 (-6) - lit 69628905431 (-4) * t) %% TURNAS) * AS2R.

(** frames.rs:264-279: the series, in reverse order; NLS = 77 *)
Definition nut_series (t : num) : outcome (num * num) :=
  let el := nut_el t in
  let elp := nut_elp t in
  let f := nut_f t in
  let d := nut_d t in
  let om := nut_om t in
  for_each (rev (seq 0 77)) (lit 0 0, lit 0 0) (fun '(dp, de) i =>
    row <- index NALS i;;
    n0 <- index row 0;;
    n1 <- index row 1;;
    n2 <- index row 2;;
    n3 <- index row 3;;
    n4 <- index row 4;;
    let arg := (of_int A n0 * el + of_int A n1 * elp + of_int A n2 * f +
                of_int A n3 * d + of_int A n4 * om) %% c_two_pi A in
    let sarg := nsin A arg in
    let carg := ncos A arg in
    c <- index CLS i;;
    c0 <- index c 0;;
    c1 <- index c 1;;
    c2 <- index c 2;;
    c3 <- index c 3;;
    c4 <- index c 4;;
    c5 <- index c 5;;
    Val (dp + ((dlit c0 + dlit c1 * t) * sarg + dlit c2 * carg),
         de + ((dlit c3 + dlit c4 * t) * carg + dlit c5 * sarg))).

(** frames.rs:256-291 [nutation] *)
Definition nutation (d : TT A) : outcome (num * num) :=
  let t := tt_centuries d in
  '(dp, de) <- nut_series t;;
  let dpsils := dp * U2R in
  let depsls := de * U2R in
  Val (dpsils + DPPLAN, depsls + DEPLAN).

(** frames.rs:294-301 [precession_rate] *)
Definition precession_rate (d : TT A) : num * num :=
  let precor := (- lit 29965 (-5)) * AS2R in
  let oblcor := (- lit 2524 (-5)) * AS2R in
  let t := tt_centuries d in
  (precor * t, oblcor * t).

(** frames.rs:304-310 [mean_obliquity] *)
Definition mean_obliquity (d : TT A) : num :=
  let t := tt_centuries d in
  AS2R * (lit 84381448 (-3) +
          (- lit 468150 (-4) +
           (- lit 59 (-5) + lit 1813 (-6) * t) * t) * t).

(** frames.rs:318 *)
Definition EPS0 : num := lit 84381448 (-3) * AS2R.

(** frames.rs:348-353 [frame_bias] *)
Definition frame_bias : num * num * num :=
  ((- lit 41775 (-6)) * AS2R, (- lit 68192 (-7)) * AS2R, (- lit 146 (-4)) * AS2R).

(** frames.rs:320-322 *)
Definition psia77 (t : num) : num :=
  (lit 50387784 (-4) + (- lit 107259 (-5) + (- lit 1147 (-6)) * t) * t) * t * AS2R.
Definition oma77 (t : num) : num :=
  EPS0 + ((lit 5127 (-5) + (- lit 7726 (-6)) * t) * t) * t * AS2R.
Definition chia (t : num) : num :=
  (lit 105526 (-4) + (- lit 238064 (-5) + (- lit 1125 (-6)) * t) * t) * t * AS2R.

(** frames.rs:314-345 [bias_and_precession] *)
Definition bias_and_precession (d : TT A) : outcome (mat3 A * mat3 A * mat3 A) :=
  let t := tt_centuries d in
  let '(dpsibi, depsbi, dra0) := frame_bias in
  let '(dpsipr, depspr) := precession_rate d in
  let psia := psia77 t + dpsipr in
  let oma := oma77 t + depspr in
  b1 <- rotation 0 (- depsbi);;
  b2 <- rotation 1 (dpsibi * nsin A EPS0);;
  b3 <- rotation 2 dra0;;
  let rb := mcompose (mcompose (mcompose midentity b1) b2) b3 in
  p1 <- rotation 2 (chia t);;
  p2 <- rotation 0 (- oma);;
  p3 <- rotation 2 (- psia);;
  p4 <- rotation 0 EPS0;;
  let rp := mcompose (mcompose (mcompose (mcompose midentity p1) p2) p3) p4 in
  let rbp := mcompose rp rb in
  Val (rb, rp, rbp).

(** frames.rs:356-361 [nutation_matrix] *)
Definition nutation_matrix (epsa dpsi deps : num) : outcome (mat3 A) :=
  n1 <- rotation 0 (- (epsa + deps));;
  n2 <- rotation 2 (- dpsi);;
  n3 <- rotation 0 epsa;;
  Val (mcompose (mcompose (mcompose midentity n1) n2) n3).

(** frames.rs:37-59 *)
Record PrecessionNutation : Type := MkPN {
  pn_dpsi : num; pn_epsa : num; pn_rb : mat3 A; pn_rp : mat3 A;
  pn_rbp : mat3 A; pn_rn : mat3 A; pn_rbpn : mat3 A }.

(** frames.rs:71-86 [from_tt_with_nutation] *)
Definition pn_from_tt_with_nutation (d : TT A) (dpsi deps : num)
  : outcome PrecessionNutation :=
  let '(_, depspr) := precession_rate d in
  let epsa := mean_obliquity d + depspr in
  '(rb, rp, rbp) <- bias_and_precession d;;
  rn <- nutation_matrix epsa dpsi deps;;
  let rbpn := mcompose rn rbp in
  Val {| pn_dpsi := dpsi; pn_epsa := epsa; pn_rb := rb; pn_rp := rp;
         pn_rbp := rbp; pn_rn := rn; pn_rbpn := rbpn |}.

(** frames.rs:61-67 [From<TT> for PrecessionNutation] *)
Definition pn_from_tt (d : TT A) : outcome PrecessionNutation :=
  '(dpsi, deps) <- nutation d;;
  pn_from_tt_with_nutation d dpsi deps.

(** frames.rs:32-35 [precession_nutation] *)
Definition precession_nutation (d : TT A) : outcome (mat3 A) :=
  pn <- pn_from_tt d;;
  Val (pn_rbpn pn).

(** frames.rs:376-389 [celestial_to_intermediate_from_xys] *)
Definition c2i_from_xys (x y s : num) : outcome (mat3 A) :=
  let r2 := x * x + y * y in
  let e := if r2 >? lit 0 0 then natan2 A y x else lit 0 0 in
  let d := natan A (nsqrt A (r2 / (lit 1 0 - r2))) in
  m1 <- rotation 2 (- (e + s));;
  m2 <- rotation 1 d;;
  m3 <- rotation 2 e;;
  Val (mcompose (mcompose (mcompose midentity m1) m2) m3).

(** frames.rs:392-394 [xy_from_bpn] *)
Definition xy_from_bpn (rbpn : mat3 A) : num * num :=
  (mget rbpn I2 I0, mget rbpn I2 I1).

(** frames.rs:370-373 [celestial_to_intermediate_with_bpn_and_xy] *)
Definition c2i_with_xy (d : TT A) (x y : num) : outcome (mat3 A) :=
  s00 <- cio d x y;;
  c2i_from_xys x y s00.

(** frames.rs:364-367 [celestial_to_intermediate_with_bpn] *)
Definition c2i_with_bpn (d : TT A) (rbpn : mat3 A) : outcome (mat3 A) :=
  let '(x, y) := xy_from_bpn rbpn in
  c2i_with_xy d x y.

(** frames.rs:23-26 [celestial_to_intermediate] *)
Definition celestial_to_intermediate (d : TT A) : outcome (mat3 A) :=
  rbpn <- precession_nutation d;;
  c2i_with_bpn d rbpn.

(** frames.rs:397-399 [celestial_to_terrestrial_from_cio_components] *)
Definition c2t_from_cio (rc2i : mat3 A) (era : num) (rpom : mat3 A)
  : outcome (mat3 A) :=
  r <- rotation 2 era;;
  Val (mcompose rpom (mcompose r rc2i)).

(** frames.rs:12-17 [celestial_to_terrestrial] *)
Definition celestial_to_terrestrial (d : TT A) (u : UT1 A) (xp yp : num)
  : outcome (mat3 A) :=
  rc2i <- celestial_to_intermediate d;;
  let era := rotation_angle u in
  rpom <- polar_motion_matrix xp yp (lit 0 0);;
  c2t_from_cio rc2i era rpom.

End Frames.
Arguments PrecessionNutation : clear implicits.
