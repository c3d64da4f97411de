#!/bin/sh
# Run the model itself against the reference data of the repository: extract the
# model to OCaml, give it OCaml floats (binary64) and the C library, compare with
# crates/tofas/src/test_data.rs.  A test of the transcription, not a proof.
# Needs a built /verif/rocq.
set -e
here=$(cd "$(dirname "$0")" && pwd); w=$(mktemp -d); cd "$w"
cat > Extract.v <<'V'
From Coq Require Import Extraction ExtrOcamlBasic ExtrOcamlZInt ExtrOcamlNatInt.
From Verif Require Import Outcome Arith M_Common M_Calendar M_Time M_DeltaAt M_Fundargs M_Earth M_Locator M_Frames M_Ellipsoid M_SunAngle.
Extraction "model.ml" MkArith polar_motion_matrix nutation nutation_matrix bias_and_precession rotation_angle precession_rate precession_nutation celestial_to_intermediate cio c2t_from_cio celestial_to_terrestrial tdb_from_tt ut1_from_tt earth_pos_vel from_julian to_julian hms_from_fraction delta_at sun_new sun_compute sun_default geocentric_to_geodetic geodetic_to_geocentric conv_new WGS84 mean_obliquity.
V
coqc -Q "${1:-$here/../../rocq}/theories" Verif Extract.v
python3 "$here/conv.py" "${2:-/repo/crates/tofas/src/test_data.rs}" >/dev/null
cp "$here/drv.ml.txt" drv.ml
ocamlfind ocamlopt -w -a model.mli model.ml drv.ml -o drv 2>/dev/null
./drv
rm -rf "$w"
