(** * Published reference values of the Earth's position and velocity

    The values of the IAU SOFA test of EPV00 at TDB 2400000.5 + 53411.52501161, astronomical
    units and astronomical units per day, with all printed digits. *)

From Coq Require Import Reals.
From Verif Require Import M_Common.
Open Scope R_scope.

Definition ref_helio_p (i : idx) : R := match i with I0 => -0.7757238809297706813 | I1 => 0.5598052241363340596 | I2 => 0.2426998466481686993 end.
Definition ref_helio_v (i : idx) : R := match i with I0 => -0.01091891824147313846 | I1 => -0.01247187268440845008 | I2 => -0.005407569418065039061 end.
Definition ref_bary_p (i : idx) : R := match i with I0 => -0.7714104440491111971 | I1 => 0.5598412061824171323 | I2 => 0.2425996277722452400 end.
Definition ref_bary_v (i : idx) : R := match i with I0 => -0.01091874268116823295 | I1 => -0.01246525461732861538 | I2 => -0.005404773180966231279 end.
