# Formal model of berke/tofas in Rocq (Coq 8.16.1)

## 1. Approach

`tofas` is a numerical library: almost every function is straight-line `f64`
code around an integer calendar core, fixed tables and matrix products.  One
model text serves two semantics:

* **The model is generic in the arithmetic.**  `Arith.v` declares a record
  `arith` (carrier, `+ - * / %`, `sqrt`, comparisons, `round`, `trunc`, casts,
  literals, libm functions).  Every `f64` function of the crate is written once
  over an arbitrary `A : arith`, function by function.
* **`realA`** (`ArithR.v`): exact real arithmetic.  Used for what the formulas
  mean (calendar instants, rotations, ellipsoid geometry, derivatives).
* **`b64A lm`** (`ArithF.v`): IEEE-754 binary64, built on Flocq's
  `BinarySingleNaN` (`binary_float 53 1024`, round to nearest even), including
  NaN, infinities, signed zeros, exact `%` (fmod), `round` (ties away),
  saturating casts, correctly rounded decimal literals.  `sin`, `cos`, `acos`,
  ... come from a record `lm : libm` that every theorem quantifies over: nothing
  is assumed about libm unless a theorem says so in its statement.
* **Integer arithmetic** is on `Z` with every `i32` operation passing through a
  check that depends on the build profile: `Debug` panics on overflow,
  `Release` wraps modulo 2^32.  Panics (overflow, index out of bounds,
  `expect`) are the explicit value `Panic`; `Result`/`Option` stay data.

So each theorem says which arithmetic and which build profile it is about, or
quantifies over them.

Specifications (`Spec_*.v`) do not mention the model: the civil calendar as
year/month lengths, the TAI-UTC step table as "latest entry not after this
month", proper rotation matrices, ellipsoid and normal, derivative, ....

Where the code violates the property, the file proves `..._refuted` with a
concrete witness, plus the strongest true part under the suffix `_partial`.

## 2. Plan per property

| id | modelled | proof idea |
|----|----------|------------|
| C01 | `GregorianDate::new` on `Z` | case analysis against `Spec_Calendar.valid_date` |
| C02, C03 | `to_julian` with i32 checks | day count by summing year and month lengths; closed form by induction on years; `lia` |
| C04 | same | exact overflow boundary; refutation witness |
| C05, C06, C13, C14 | `from_julian` at `realA` and `b64A` | integer lemma: Fliegel-Van Flandern inverse is right for every day number; real floor/frac lemma; for C14 in binary64, the day and fraction are written out as a function of the two parts and compared across the integers (`L_JulianMono.v`) |
| C07, C08, C10, C12 | `from_julian` at `b64A` | Flocq error analysis; exactness of fmod; witnesses by computation |
| C09, C11 | same | range lemma, witnesses |
| C15-C20 | `HMS`, `GregorianDateHMS` at `b64A`, `realA` | exactness on the grid of the product; relative error; witnesses |
| C21-C24 | `delta_at` | spec = last entry with month <= date's month; refuted at first months; partial elsewhere |
| C25-C27 | `time.rs` | real identities; Flocq rounding of the sums, also for the round trip |
| C28-C30 | `anp`, `rotation_angle` | Ztrunc algebra; Flocq; symmetry of IEEE + |
| C64 | `earth.rs` rotation angle, literals | forward error analysis by a verified bound calculator (`L_Apx.v`) |
| C65, C66 | `frames.rs` nutation, `locator.rs` cio | same calculator run over the tables; remainders compared up to turns |
| C67 | `EarthPosVel::from` | same, with coarser bounds (`L_ApxSym.v`) over 1951 rows; velocity against the derivative |
| C68 | `precession_nutation`, `bias_and_precession`, `polar_motion_matrix` | error of a product of rotations in the Frobenius norm (`L_Fro.v`, `L_ApxFrames.v`) |
| C69 | `celestial_to_intermediate`, `celestial_to_terrestrial` | same plus the sensitivity of Q to the pole, square root near zero by relative errors with underflow (`L_ApxC2i.v`) |
| C70 | `geodetic_to_geocentric`, `zenith`, degrees on WGS84 | interval error analysis with the denominator d kept in [0.99, 1] (`L_ApxGeo.v`) |
| C71 | `delta_at` in binary64 | interval error analysis over every table entry, dates of the drifting entries bounded to 1960-1972 (`L_ApxDat.v`) |
| C72 | Sun angle calculator end to end in binary64 | the intervals of C64-C71 composed through `compute`; Lipschitz bound of normalisation and of acos (`L_ApxVec.v`, `L_ApxSun.v`, `L_PAccSun.v`) |
| C73 | geocentric to geodetic in binary64, WGS84 | relative error analysis in two scales (`L_Rel.v`), angle between computed and exact direction, Lipschitz bound of the height in the direction (`L_ApxGd.v`, `L_PAccGd.v`); with C47 gives the distance to the true geodetic coordinates |
| C74 | geodetic coordinates exist, are unique; geocentric → geodetic → geocentric in binary64 | intermediate value theorem along a meridian, Lipschitz bound of the normals both ways (`L_Geodesy.v`), C73 and C70 (`L_PGeoTrip.v`) |
| C75 | geodetic → geocentric → geodetic in binary64 | existence (C74) at the computed point, Lipschitz bound back to the place, C73 (`L_PGeoTrip.v`); near the ground a first-order error analysis in which the error of the latitude cancels out of the height (`L_Tight.v`), and the argument of the displaced point (`L_TightLon.v`), `L_PTestEll.v` |
| C76-C78 | `sun_angle_tool` as a whole | the printed text read back as decimals (`L_Shows.v`) composed with C72 and the loop of C56 (`L_PTools.v`) |
| C79, C80 | `julian_tool` | C01, C02, C07, C16 composed with the formatter (`L_PTools.v`) |
| C31-C33, C63 | `common.rs` vectors and matrices | ring after unfolding loops; relative error of each operation |
| C34 | `Vector::angle` | Cauchy-Schwarz; binary64 witness giving acos(>1); error of the acos argument and of the angle |
| C35-C38 | `frames.rs`, `earth.rs` | closure of SO(3) under products; trigonometry of atan/atan2; perturbation bound |
| C39-C43, C59 | `EarthPosVel::from`, tables | loop lemma; derivative of each term; table sums by computation |
| C44-C49 | `ellipsoid.rs` | field/real algebra; sign analysis; witnesses; binary64 accuracy of the degree conversion with monotonicity of rounding at the poles (`L_PGeo360.v`) |
| C50, C57, C58, C60, C61 | `fundargs.rs`, `locator.rs`, `nutation` | Ztrunc algebra, sums of absolute amplitudes; binary64 error of the arguments (`L_PFund.v`) |
| C81 | `mean_obliquity`, `precession_rate` | real algebra; interval error tool (`L_PFund.v`) |
| C31, C32, C63 in binary64 | `common.rs` | classical forward error analysis (`L_PMatF.v`) |
| C70 on any ellipsoid | `geodetic_to_geocentric` | interval tool for the unitless part, errors relative to a length for the rest (`L_PGeoAny.v`) |
| C43 range, C82–C84 | `EarthPosVel::from` | Kepler equation expanded to second order in the eccentricity, main table terms matched to it, the rest bounded by amplitudes (`L_Kepler.v`, `L_Orbit.v`, `L_OrbitV.v`, `L_POrbit.v`; spec `Spec_Orbit.v`) |
| C85, C86 | `nutation`, `precession_nutation` | the four largest terms matched to textbook arguments, the other 73 bounded by amplitudes; third row of the product followed vector by vector (`L_PPole.v`; spec `Spec_Pole.v`) |
| C86 locator, C87 | `cio`, `SunAngleCalculator` (whole chain) | six largest terms of s matched, the rest bounded (`L_CioLow.v`); zenith angle against the Astronomical Almanac and Meeus: precession moves the ecliptic vector of J2000.0 to that of date, the CIO matrix differs from nutation x precession x bias by a turn about the pole whose angle is the precession in right ascension, Kepler expansion for the longitude, spherical triangle inequality (`L_Almanac.v`, `L_AlmanacSun.v`, `L_AlmanacSky.v`, `L_Angle.v`; spec `Spec_Almanac.v`) |
| C88 | `SunAngleCalculator` | C87 and the spherical triangle pole, zenith, Sun (`L_PTropics.v`) |
| C89 | `time.rs`, `SunAngleCalculator` | monotone rounding for weak order, C72 for strict order (`L_POrder.v`) |
| C90 | `SunAngleCalculator` | Lipschitz bounds of every series and matrix (`L_Lip.v`), one-second chords chained (`L_PSmooth.v`) |
| C91 | `SunAngleCalculator` | C87 at culmination and anticulmination, C90 and intermediate values (`L_PDaylight.v`) |
| C92, C93 | `SunAngleCalculator`, dates | day count of a month in quarter days, C87 with the declination in June and December, C82 with the anomaly in January and July (`L_PSeasons.v`) |
| C94 | `SunAngleCalculator` on two places | generic equality of all fields but two; triangle inequality of angles (`L_PPlace.v`); binary64 from C72 (`L_PPlaceB.v`) |
| C95 | `SunAngleCalculator` | reduction of longitude to right ascension, bound on the equation of time, C87 (`L_PNoon.v`) |
| C96 | geocentric to geodetic in binary64, any ellipsoid of flattening up to 0.006 | the analysis of C73 with radius and flattening as parameters (`L_ApxEl.v`, `L_GdAny.v`, `L_PGdAny.v`), C47 |
| C97 | both conversions on any ellipsoid of flattening up to 0.006: existence and uniqueness of the coordinates, round trips in binary64 | normals of the unit ellipsoid, scaled (`L_GeodesyEl.v`, `L_PGeoTripAny.v`), C70 for any ellipsoid, C96 |
| C98 | the tables of nutation and of the CIO locator against a second transcription of the published series | `Spec_Published.v` (143 terms written out), tables compared by computation, then C60, C61, C65, C66 (`L_PPublished.v`) |
| C99 | the ephemeris tables against the published SOFA reference values | certified fixed-point evaluation of all 2574 terms at the reference date (`L_Eval.v`, `L_Reference.v`), then C40, C59, C67 (`L_PReference.v`) |
| C100 | the origin of the intermediate frame does not rotate | derivative of the frame (`Spec_Origin.v`), products of series by computation (`L_Poisson.v`, `L_PolyB.v`, `L_Taylor.v`), the locator against the rates (`L_Spin.v`, `L_SpinR.v`, `L_SpinP.v`), integration and the mean value theorem (`L_POrigin.v`) |
| C101 | the randomised tests of the project pass on every draw | model of the test functions (`M_Tests.v`), consequences of C07, C15, C17, C33, C39, C41 with the rounding of the comparisons (`L_PTests.v`), and of C75 (`L_PTestEll.v`) |
| C102 | any `arith`, `Outcome` | structural: agreement is preserved by bind, and holds for each checked operation |
| C103, C104 | command lines of the two tools | readers of numbers against a specification of their texts (`Spec_Args.v`, `L_Args.v`); a line as a list of options, taken out one by one (`L_PArgs.v`, `L_PJulianMain.v`) |
| C105 | Julian date printed and read again | C79, C104, C80 joined by the nearest binary64 of the printed decimal (`L_PJulianTrip.v`) |
| C106 | nutation, locator and matrices against the published SOFA values | one run of the binary64 program in the kernel with a computable libm proved accurate (`L_CalcLibm.v`, `L_RefFrames.v`), carried over by C60, C61, C65, C66, C69 (`L_PRefFrames.v`) |
| C107 | `{}` on an f64 | executable search for the shortest decimal (`M_Shortest.v`); spacing of the binary64 numbers, monotone rounding, 17 digits suffice (`L_Shortest.v`, `L_PShortest.v`) |
| C108 | gravitation | second derivative of the series term by term (`L_Gravity.v`), its main terms against a Kepler ellipse and a lunar term (`L_GravityK.v`), the inverse-square law is Lipschitz (`L_PGravity.v`); force model in `Spec_Gravity.v` |
| C109 | one sunrise and one sunset a day | near the horizon the Sun is well east in the morning and well west in the afternoon (C95 at the place and 90 degrees further east on the equator), each 30 seconds of rotation moves it by more than all other motions together, finite induction towards noon (`L_Sunrise.v`), intermediate values (`L_PDaylight.v`); the zenith angle is monotone between midnight and noon (`L_Climb.v`); low latitudes in binary64 from the east component, which keeps the Sun off the zenith (`L_PLow.v`) |
| C110 | tests against tables of matrices | model of the four tests with their 4000 rows (`M_TestRot.v`, `T_TestsRot.v`, `M_TestBp.v`, `T_TestsBp.v`, `M_TestCio.v`, `T_TestsCio.v`); sine and cosine at the arguments of one row, to 90 binary digits or, of small angles, to 200 by their series, fix the result of any libm rounded toward zero (`L_PTestRot.v`, `L_PTestBp.v`, `L_PTestCio.v`) |
| C38, C43, C46, C58, C82-C86 in binary64 | `earth.rs`, `frames.rs`, `ellipsoid.rs` | exact theorem plus the accuracy theorems C65, C67, C68, C81 (`L_PBinary.v`) |
| C29, C42, C53, C69 in binary64 | split independence, orthonormality | two-sided use of the accuracy theorems (`L_PSplit.v`) |
| C51-C53 | `sun_angle.rs` | composition of the above |
| C54, C55, C62 | `Display` impls | strings over Coq `ascii`; decimal digit lemmas |
| C56 | tool loop | fuelled loop with proof that fuel suffices / never suffices |

## 3. Trusted base

* **Coq 8.16.1's kernel** (`coqc`; `coqchk` re-checks the compiled files).
* **Axioms.**  `tools/assumptions.py` prints what `Print Assumptions` lists under
  every theorem of `P_*.v`; there are only two cases.
  - No axiom at all: C01_*, C02_day_count_unique, all C04_*, C19_error_propagated,
    C21_in_force_unique, C24_*, C31_transpose_any, C33_rotation_bad_axis,
    C39_no_panic, C54_*, C56_no_scan, C94_same_sun, C102_agree, C102_sun_same.
  - All other theorems mention real numbers or Flocq's floats and list exactly
    these four axioms of Coq's standard library:
    `ClassicalDedekindReals.sig_forall_dec`, `ClassicalDedekindReals.sig_not_dec`,
    `Classical_Prop.classic`, `FunctionalExtensionality.functional_extensionality_dep`.
  No axiom of our own and none of another library.  Flocq and Coquelicot are used
  as libraries of proved theorems and definitions.
* **The meaning given to Rust.**  `i32` arithmetic per build profile (`Outcome.v`),
  `f64` as IEEE-754 binary64 with round-to-nearest-even (`ArithF.v`: `+ - * /`
  and `sqrt` are Flocq's, `%`, `round`, `trunc`, the `as` casts and decimal
  literals are written out there), slices as lists whose out-of-range access is
  `Panic`.  NaN payloads are not distinguished.
* **libm.**  `sin cos acos atan atan2` in `b64A lm` are the fields of `lm : libm`,
  quantified in every theorem; where a theorem needs something of them it is a
  hypothesis in its statement: either a single equation, or `good_libm lm`
  (`Spec_Accuracy.v`: an absolute error of at most 2^-52, or 2^-51 for `acos` and
  `atan2`), which a libm accurate to one unit in the last place satisfies and
  which C64_libm_exists shows to be satisfiable.  Two theorems (C75_longitude,
  C101_ellipsoid) also assume `sharp_libm lm` (`Spec_Sharp.v`: relative error of sine and
  cosine, principal value of `atan2`); C75_longitude_example shows that rounding to nearest satisfies both.  In `realA` they are the mathematical functions,
  with `acos` and `sqrt` outside their domain having the standard library's
  default value: theorems about those functions prove the argument in range or
  state the range as hypothesis (C34, C36, C38).
* **Command lines.**  pico-args 0.5 and the `FromStr` of `i32`, `u8` and `f64` are
  not in the repository; `M_Args.v` writes them from their documentation (texts
  accepted, nearest binary64, options taken out of the list, subcommand).
* **Division in `realA`** has Coq's unspecified value at 0; the same remark.
* **Constants.**  In `realA`, `PI`, `TWO_PI` and `AS2R` are the numbers that the
  literals approximate; in `b64A` they are the rounded literals.
  C64_constants bounds the distance.
* **The transcription.**  The tie between the Rust text and the model is reading.
  Every definition cites file and lines.  As a test of it, `tools/validate/run.sh`
  extracts the model to OCaml, runs it on OCaml's doubles and compares with the
  11 000 reference rows of `crates/tofas/src/test_data.rs` (all within the
  tolerances of the repository's own tests: 0 to 1.5 EPSILON) and with values
  published with SOFA for `epv00`, `gc2gde`, `gd2gce`, `jd2cal`, `cal2jd`, `dat`.

### Modelled

| source | model |
|--------|-------|
| `common.rs`: vectors, matrices, `rotation`, `anp`, constants | `M_Common.v` |
| `calendar.rs`: `GregorianDate`, `HMS`, `GregorianDateHMS` | `M_Calendar.v` |
| `time.rs`: five time scales and their conversions | `M_Time.v` |
| `delta_at.rs` | `M_DeltaAt.v` |
| `fundargs.rs` | `M_Fundargs.v` |
| `earth.rs`, `epv00_data.rs` | `M_Earth.v`, `T_Epv00.v` (generated by `tools/gen_tables.py`) |
| `locator.rs` | `M_Locator.v`, `T_Cio.v` |
| `frames.rs` | `M_Frames.v`, `T_Nut.v` |
| `ellipsoid.rs` | `M_Ellipsoid.v` |
| `tofas_extras/src/sun_angle.rs` | `M_SunAngle.v` |
| `examples/sun_angle_tool.rs`, `examples/julian_tool.rs`: the command lines | `M_Args.v` |
| the same after argument parsing | `M_Tools.v`, `M_SunAngle.scan_offsets` |
| `Display` impls of dates, times, positions, result bundle | `M_Display.v` |
| `tests.rs`: the randomised tests, and the tests without tables | `M_Tests.v` |
| `tests.rs`: `test_rotation_angle`, `test_precession_rate`, with their tables in `test_data.rs` | `M_TestTables.v`, `T_Tests.v` |
| `tests.rs`: `test_polar_motion_matrix`, `test_nutation_matrix`, `test_bias_and_precession`, `test_celestial_to_terrestrial_from_cio_components`, with their tables in `test_data.rs` | `M_TestRot.v`, `T_TestsRot.v`, `M_TestBp.v`, `T_TestsBp.v`, `M_TestCio.v`, `T_TestsCio.v` (no claim that they pass, see C110) |

### Not modelled

* `Debug`, `Clone`, `PartialEq` derives and `Error` impls; `Display` of errors.
* Command-line arguments that are not UTF-8; the text of
  error messages.
* five of the nine tests against the tables of `test_data.rs` that call libm
  (the rotation angle and precession rate tables are checked, C101); the random
  generator (a test takes the numbers drawn as arguments).
* Running time, memory, stack use.
* `{}` on an f64 is an arbitrary function `show` in the theorems about the tools, and the
  search of `M_Shortest.v` in C107.
* The decimal formatting of floats is modelled as correct rounding of the exact
  value; how core::fmt breaks exact ties is left open (`tie`, quantified).

## 4. Findings

Places where the code does not have the property listed in `properties.jsonl`
(each is a theorem `..._refuted` with a witness):

| id | finding |
|----|---------|
| C04, C11 | `new` accepts years whose `to_julian` overflows `i32` (panic in debug, wrong day in release, for every date from 1465073-03-01 on); `from_julian` accepts Julian dates up to 1e9 but overflows from 536802342 on (every later day: panic in debug, a wrong date in release). |
| C08 | `from_julian` can return the fraction 1.0 (tiny negative fraction + 1 rounds up). |
| C09 | `from_julian` accepts dates before -4799-01-01 that `new` refuses. |
| C10, C20, C22 | NaN passes the range checks. |
| C18 | 00:00:11 comes back from its fraction of day as 10.999999999999998 s (and 59.99.. s can change the minute). |
| C21 | `delta_at` compares with `<`: every change takes effect one month late, and January 1960 uses the first entry only by the fallback. |
| C32 | `apply` multiplies by the transpose: it is compatible with `compose` in the opposite order. `sun_angle.rs` compensates by transposing. |
| C34 | `angle` can call `acos` with an argument above 1 (NaN), but only for angles whose sine is below 1e-6. |
| C44, C46 | radius 0 and NaN are accepted (with a NaN flattening every conversion to geocentric coordinates then fails); in binary64 f = 1-2^-52 is refused as BadEccentricity while the larger 1-2^-53 is accepted. |
| C49 | the north pole converts to latitude -90; in binary64 so do exactly the two largest latitudes below pi/2. |
| C50 | the reduced fundamental arguments are not within one turn (the constant is added after the reduction). |
| C52 | `SunAngleCalculator::new` panics for times of day above one day and for far dates. |
| C55 | 23:59:60.000000 can be displayed. |
| C56 | a step that is absorbed by rounding makes the tool loop forever; this is exactly when it does. A step of zero or less never ends either. |
| C77 | without `--scan` the Sun angle tool reports for ten minutes before the requested time (default `--delta0`). |
| C78 | `--hour 25` panics; `--delta0` above `--delta1` prints nothing and succeeds. |
| C80 | `julian_tool julian` prints 24:00:00.000000 just before some midnights; `--jd nan` prints a date and `00:00:000000NaN` and succeeds. |
| C103 | an option is taken with the word after it at the time it is read: `--hour --day 5 7` is accepted as day 5, hour 7. |
| C104 | `julian_tool gregorian` never calls `finish`: a misspelt option (`--hours 5`) is ignored and 12:00 printed. |
| C110 | the table tests compare to one EPSILON: `test_polar_motion_matrix`, `test_nutation_matrix`, `test_bias_and_precession` and `test_celestial_to_terrestrial_from_cio_components` panic on every platform whose sine and cosine are rounded toward zero, though such results are within one unit in the last place. |

## 5. Testing the theorems

`seeded/LOG.jsonl` lists edits of the model that imitate program errors, with the
theorems that stopped being provable.  Each attempt edits one definition of an
`M_*.v` file in a scratch copy (a wrong comparison, sign, constant, index, order of
operations, omitted term, swapped argument), rebuilds everything with `make -k`, and
records the theorems of `P_*.v` that fail, or that depend on a lemma that fails.

* A theorem that fails only because its proof script is tied to the old text of the
  model counts as failed in that list; the entry says which claim became false, and
  the theorem of that claim must be among those that fail.
* One edit went unnoticed: padding a negative year one character too far.  C54 spoke
  of years from 0 to 9999 only; it was extended to all years (`C54_padding`).
* Another went unnoticed: the sign of the longitude in the default request.  Only
  examples mentioned it; `C51_default` now states it.
* For a long time a wrong digit in a small coefficient of the tables `T_*.v` went
  unnoticed: the accuracy theorems compare binary64 with the exact value of the same
  tables.  Two properties were added for this.  C98 states the nutation and locator
  series with a second transcription of all their terms.  C99 evaluates the whole
  ephemeris at the date of the published SOFA test and finds the published values within
  2e-17 AU, so that any table entry that matters at that level is pinned.
* A survey enumerated all single-token edits of the small model files (a changed
  digit, a swapped operator or comparison, another constructor, a changed character)
  and rebuilt the property files for each.  Unnoticed were edits without an effect
  (the level of a notation, a zero written with another exponent) and one with an
  effect: the text `inf`.  Nothing spoke about the printed form of an infinity;
  `C62_not_finite` and `C55_not_finite` now do.
