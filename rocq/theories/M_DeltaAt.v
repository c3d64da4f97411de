(** * Model of crates/tofas/src/delta_at.rs *)

From Coq Require Import ZArith Bool List.
From Verif Require Import Outcome Arith M_Common M_Calendar.
Import ListNotations.
Open Scope Z_scope.
Open Scope outcome_scope.

(** delta_at.rs:8-14.  Literals are kept as decimals (mantissa, exponent of 10). *)
Record DatData : Type := MkDat {
  d_year : Z; d_month : Z; d_dat : Z * Z; d_drift : option ((Z * Z) * (Z * Z)) }.

(** delta_at.rs:16-59 *)
Definition DAT_DATA : list DatData := [
  MkDat 1960 1 (1417818, (-6)) (Some ((37300, 0), (1296, (-6))));
  MkDat 1961 1 (1422818, (-6)) (Some ((37300, 0), (1296, (-6))));
  MkDat 1961 8 (1372818, (-6)) (Some ((37300, 0), (1296, (-6))));
  MkDat 1962 1 (1845858, (-6)) (Some ((37665, 0), (11232, (-7))));
  MkDat 1963 11 (1945858, (-6)) (Some ((37665, 0), (11232, (-7))));
  MkDat 1964 1 (324013, (-5)) (Some ((38761, 0), (1296, (-6))));
  MkDat 1964 4 (334013, (-5)) (Some ((38761, 0), (1296, (-6))));
  MkDat 1964 9 (344013, (-5)) (Some ((38761, 0), (1296, (-6))));
  MkDat 1965 1 (354013, (-5)) (Some ((38761, 0), (1296, (-6))));
  MkDat 1965 3 (364013, (-5)) (Some ((38761, 0), (1296, (-6))));
  MkDat 1965 7 (374013, (-5)) (Some ((38761, 0), (1296, (-6))));
  MkDat 1965 9 (384013, (-5)) (Some ((38761, 0), (1296, (-6))));
  MkDat 1966 1 (431317, (-5)) (Some ((39126, 0), (2592, (-6))));
  MkDat 1968 2 (421317, (-5)) (Some ((39126, 0), (2592, (-6))));
  MkDat 1972 1 (10, 0) None;
  MkDat 1972 7 (11, 0) None;
  MkDat 1973 1 (12, 0) None;
  MkDat 1974 1 (13, 0) None;
  MkDat 1975 1 (14, 0) None;
  MkDat 1976 1 (15, 0) None;
  MkDat 1977 1 (16, 0) None;
  MkDat 1978 1 (17, 0) None;
  MkDat 1979 1 (18, 0) None;
  MkDat 1980 1 (19, 0) None;
  MkDat 1981 7 (20, 0) None;
  MkDat 1982 7 (21, 0) None;
  MkDat 1983 7 (22, 0) None;
  MkDat 1985 7 (23, 0) None;
  MkDat 1988 1 (24, 0) None;
  MkDat 1990 1 (25, 0) None;
  MkDat 1991 1 (26, 0) None;
  MkDat 1992 7 (27, 0) None;
  MkDat 1993 7 (28, 0) None;
  MkDat 1994 7 (29, 0) None;
  MkDat 1996 1 (30, 0) None;
  MkDat 1997 7 (31, 0) None;
  MkDat 1999 1 (32, 0) None;
  MkDat 2006 1 (33, 0) None;
  MkDat 2009 1 (34, 0) None;
  MkDat 2012 7 (35, 0) None;
  MkDat 2015 7 (36, 0) None;
  MkDat 2017 1 (37, 0) None
].

(** delta_at.rs:61-62 *)
Inductive DeltaAtError : Type := DatBadFract.

(** [Iterator::rposition]: index of the last element satisfying [f]. *)
Fixpoint rposition {T : Type} (f : T -> bool) (l : list T) : option nat :=
  match l with
  | [] => None
  | x :: l' =>
      match rposition f l' with
      | Some i => Some (S i)
      | None => if f x then Some 0%nat else None
      end
  end.

Section DeltaAt.
Context {A : arith}.
Local Notation num := (num A).
Local Notation dlit d := (lit A (fst d) (snd d)).

(** delta_at.rs:68-101 [delta_at].  The table side of the comparison,
    12*year + month with table constants, cannot overflow and is left in [Z]. *)
Definition delta_at (p : profile) (g : GregorianDate) (fd : num)
  : outcome (result (option num) DeltaAtError) :=
  if (ltb A fd (lit A 0 0)) || (ltb A (lit A 1 0) fd) then Val (Err DatBadFract)
  else
    first <- index DAT_DATA 0;;
    if year g <? d_year first then Val (Ok None)
    else
      m <- i32_mul p 12 (year g);;
      m <- i32_add p m (month g);;
      let idat :=
        match rposition (fun e => 12 * d_year e + d_month e <? m) DAT_DATA with
        | Some i => i
        | None => 0%nat
        end in
      e <- index DAT_DATA idat;;
      let da := dlit (d_dat e) in
      match d_drift e with
      | None => Val (Ok (Some da))
      | Some (d0, d1) =>
          '(_, djm) <- to_julian (A := A) p g;;
          Val (Ok (Some (da + (djm + fd - dlit d0) * dlit d1)%num))
      end.

End DeltaAt.
