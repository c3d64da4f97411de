{
 "claims": [
  {
   "property": "C01",
   "status": "proved",
   "theorems": [
    "C01_date_new_characterised"
   ],
   "note": "All integer triples; the four outcomes are characterised against Spec_Calendar."
  },
  {
   "property": "C02",
   "status": "proved",
   "theorems": [
    "C02_to_julian_exact",
    "C02_day_count_unique",
    "C02_to_julian_exact_reals"
   ],
   "note": "Binary64 and exact arithmetic, both build profiles."
  },
  {
   "property": "C03",
   "status": "proved",
   "theorems": [
    "C03_to_julian_order"
   ],
   "note": "Order and equality, binary64 comparison."
  },
  {
   "property": "C04",
   "status": "partial",
   "theorems": [
    "C04_to_julian_no_overflow_refuted",
    "C04_release_wraps_refuted",
    "C04_to_julian_no_overflow_partial",
    "C04_release_wrong_partial"
   ],
   "note": "False as stated: witness 1465073-03-01. The exact boundary of the overflow is proved. From 1465073-03-01 on a release build returns a wrong day count for every accepted date: C04_release_wrong_partial (up to the last i32 year)."
  },
  {
   "property": "C05",
   "status": "proved",
   "theorems": [
    "C05_date_roundtrip"
   ],
   "note": "Binary64, both profiles, every accepted date up to 1465002-10-17 (the last one from_julian can return without overflow)."
  },
  {
   "property": "C06",
   "status": "proved",
   "theorems": [
    "C06_from_julian_civil"
   ],
   "note": "Exact arithmetic, upper limit 536802342.5 (slightly wider than stated)."
  },
  {
   "property": "C07",
   "status": "proved",
   "theorems": [
    "C07_from_julian_accuracy"
   ],
   "note": "Binary64; parts up to 2^51 (wider than stated)."
  },
  {
   "property": "C08",
   "status": "partial",
   "theorems": [
    "C08_fraction_below_one_refuted",
    "C08_fraction_below_one_partial",
    "C08_fraction_below_one_grid_partial"
   ],
   "note": "False as stated: witness with fraction exactly 1.0. Proved: at most 1; below 1 away from midnights; below 1 and exact on multiples of 2^-20 day; below 1 in exact arithmetic (C06)."
  },
  {
   "property": "C09",
   "status": "partial",
   "theorems": [
    "C09_from_julian_accepted_refuted",
    "C09_from_julian_accepted_partial",
    "C09_from_julian_accepted_b64_partial"
   ],
   "note": "False as stated: JD -32000 gives a date in year -4800. Proved: exactly from JD -31738.5 on (exact arithmetic), from -31738 on in binary64."
  },
  {
   "property": "C10",
   "status": "partial",
   "theorems": [
    "C10_from_julian_rejects_refuted",
    "C10_from_julian_rejects_partial",
    "C10_from_julian_rejects_finite_partial"
   ],
   "note": "False as stated: NaN is accepted. Proved for every pair whose sum is not NaN, in particular all finite pairs."
  },
  {
   "property": "C11",
   "status": "partial",
   "theorems": [
    "C11_from_julian_no_overflow_refuted",
    "C11_from_julian_no_overflow_partial",
    "C11_profiles_agree_partial",
    "C11_release_wrong_partial",
    "C11_overflow_b64_partial"
   ],
   "note": "False as stated: JD 1e9. The exact boundary of the overflow is proved in exact arithmetic, and that release builds then always return a negative year; in binary64 the same is proved from 536802343 on, and C07 covers everything up to 536802342."
  },
  {
   "property": "C12",
   "status": "proved",
   "theorems": [
    "C12_from_julian_symmetric"
   ],
   "note": "Bit for bit, all binary64 values."
  },
  {
   "property": "C13",
   "status": "proved",
   "theorems": [
    "C13_from_julian_total",
    "C13_from_julian_total_b64"
   ],
   "note": "Exact arithmetic, all reals, errors and panics included.  C13_from_julian_total_b64."
  },
  {
   "property": "C14",
   "status": "proved",
   "theorems": [
    "C14_from_julian_monotone",
    "C14_from_julian_monotone_b64"
   ],
   "note": "Exact arithmetic, strictly; and in binary64, weakly, part by part, for parts of magnitude at most 2^51."
  },
  {
   "property": "C15",
   "status": "proved",
   "theorems": [
    "C15_hms_fields"
   ],
   "note": "Binary64, every fraction in [0,1]."
  },
  {
   "property": "C16",
   "status": "proved",
   "theorems": [
    "C16_hms_split_exact"
   ],
   "note": "Binary64, every fraction in [0,1]."
  },
  {
   "property": "C17",
   "status": "proved",
   "theorems": [
    "C17_fraction_roundtrip_reals",
    "C17_fraction_roundtrip"
   ],
   "note": "Binary64 bound and exact arithmetic equality."
  },
  {
   "property": "C18",
   "status": "partial",
   "theorems": [
    "C18_hms_roundtrip_reals_partial",
    "C18_hms_roundtrip_refuted",
    "C18_hms_roundtrip_b64_partial"
   ],
   "note": "True in exact arithmetic; false in binary64 (witness). Proved in binary64: the seconds of day come back within an explicit bound."
  },
  {
   "property": "C19",
   "status": "proved",
   "theorems": [
    "C19_datehms_roundtrip",
    "C19_julian_roundtrip",
    "C19_error_propagated",
    "C19_datehms_from_julian_b64",
    "C19_datehms_to_julian_b64",
    "C19_datehms_roundtrip_b64"
   ],
   "note": "Exact arithmetic, all valid date-times and Julian dates in the stated ranges (beyond them the i32 day arithmetic overflows, see C11); error propagation for any arithmetic; in binary64 the field ranges, the accuracy of to_julian and of the round trip."
  },
  {
   "property": "C20",
   "status": "partial",
   "theorems": [
    "C20_fraction_rejected_refuted",
    "C20_fraction_rejected_partial"
   ],
   "note": "False as stated: NaN is accepted. Proved for every value that is not NaN."
  },
  {
   "property": "C21",
   "status": "partial",
   "theorems": [
    "C21_delta_at_in_force_refuted",
    "C21_delta_at_month_late_partial",
    "C21_delta_at_in_force_partial",
    "C21_in_force_unique"
   ],
   "note": "False as stated: every table entry takes effect one month late. Proved: delta_at is exactly the TAI-UTC in force one month earlier, hence the right one except in the months in which an entry starts. Exact arithmetic."
  },
  {
   "property": "C22",
   "status": "partial",
   "theorems": [
    "C22_delta_at_errors_refuted",
    "C22_delta_at_errors_partial"
   ],
   "note": "False as stated: NaN is accepted. Proved for every value that is not NaN."
  },
  {
   "property": "C23",
   "status": "proved",
   "theorems": [
    "C23_delta_at_steps",
    "C23_delta_at_affine"
   ],
   "note": "Steps in binary64, affine segments in exact arithmetic."
  },
  {
   "property": "C24",
   "status": "proved",
   "theorems": [
    "C24_delta_at_no_panic",
    "C24_limit_sharp"
   ],
   "note": "Any arithmetic, both profiles, and the year limit is sharp."
  },
  {
   "property": "C25",
   "status": "proved",
   "theorems": [
    "C25_time_scale_shift",
    "C25_differences_preserved"
   ],
   "note": "Exact arithmetic, all reals."
  },
  {
   "property": "C26",
   "status": "proved",
   "theorems": [
    "C26_ut1_tt_roundtrip",
    "C26_tt_ut1_roundtrip",
    "C26_roundtrip_b64"
   ],
   "note": "Exact arithmetic, all reals; the binary64 bound for the stated range."
  },
  {
   "property": "C27",
   "status": "proved",
   "theorems": [
    "C27_larger_part_untouched",
    "C27_conversion_error"
   ],
   "note": "Binary64, parts and offsets of moderate size (no overflow)."
  },
  {
   "property": "C28",
   "status": "proved",
   "theorems": [
    "C28_anp",
    "C28_anp_unique",
    "C28_anp_b64",
    "C28_anp_b64_reaches_two_pi",
    "C28_anp_b64_not_finite"
   ],
   "note": "Exact arithmetic (with uniqueness), and the binary64 range; the upper end TWO_PI is reached in binary64."
  },
  {
   "property": "C29",
   "status": "proved",
   "theorems": [
    "C29_era_total",
    "C29_era_split",
    "C29_era_split_b64"
   ],
   "note": "Exact arithmetic, all splits. C29_era_split_b64 bounds how far binary64 splits can differ."
  },
  {
   "property": "C30",
   "status": "proved",
   "theorems": [
    "C30_era_symmetric"
   ],
   "note": "Binary64, bit for bit."
  },
  {
   "property": "C31",
   "status": "proved",
   "theorems": [
    "C31_compose_b64",
    "C31_transpose_any",
    "C31_matrix_functions",
    "C31_matrix_laws"
   ],
   "note": "Exact arithmetic, all matrices. Forward error bound in binary64 (C31_compose_b64)."
  },
  {
   "property": "C32",
   "status": "partial",
   "theorems": [
    "C32_apply_b64_partial",
    "C32_apply_compose_refuted",
    "C32_apply_row_partial",
    "C32_apply_isometry_partial"
   ],
   "note": "False as stated: apply multiplies a row vector (it is the transpose action). Proved: the action it does implement, and that it preserves scalar products. C32_apply_b64_partial is the binary64 error bound of the action it implements."
  },
  {
   "property": "C33",
   "status": "proved",
   "theorems": [
    "C33_rotation",
    "C33_rotation_bad_axis",
    "C33_rotation_b64"
   ],
   "note": "Exact arithmetic for axes 0..2, and the binary64 accuracy for every finite angle; the panic for other axes holds for any arithmetic."
  },
  {
   "property": "C34",
   "status": "partial",
   "theorems": [
    "C34_angle_triangle",
    "C34_angle_partial",
    "C34_angle_laws_partial",
    "C34_angle_refuted",
    "C34_angle_accuracy_b64_partial"
   ],
   "note": "True in exact arithmetic; false in binary64 (witness (1,1,1)), for any acos that is NaN above 1. What does hold in binary64: the argument of acos is within 4.1e-15 of the cosine; the angle is within 1.2e-7 rad whenever that argument is at most 1 in magnitude, and within 5e-15/sin(angle), unconditionally, once sin(angle) >= 1e-6. C34_angle_triangle: triangle inequality, exact arithmetic, from the Gram determinant."
  },
  {
   "property": "C35",
   "status": "proved",
   "theorems": [
    "C35_frames_proper"
   ],
   "note": "Exact arithmetic. For a pole given with x^2+y^2 >= 1 the exact model uses a total square root and division where binary64 gives NaN; C38 shows that this does not arise within 50 centuries of J2000."
  },
  {
   "property": "C36",
   "status": "proved",
   "theorems": [
    "C36_pole_matrix",
    "C36_pole_matrix_b64"
   ],
   "note": "Exact arithmetic; the whole matrix is given, not only its third row.  C36_pole_matrix_b64."
  },
  {
   "property": "C37",
   "status": "proved",
   "theorems": [
    "C37_matrix_products",
    "C37_celestial_to_terrestrial",
    "C37_degenerate"
   ],
   "note": "Exact arithmetic; all matrices as products of elementary rotations with the published coefficients."
  },
  {
   "property": "C38",
   "status": "proved",
   "theorems": [
    "C38_pole_inside_b64",
    "C38_pole_inside",
    "C38_pole_near",
    "C38_intermediate_pole"
   ],
   "note": "Exact arithmetic, proved for 50 centuries. Binary64: C38_pole_inside_b64 (any libm accurate to 2^-52)."
  },
  {
   "property": "C39",
   "status": "proved",
   "theorems": [
    "C39_no_panic"
   ],
   "note": "Any arithmetic, any input."
  },
  {
   "property": "C40",
   "status": "proved",
   "theorems": [
    "C40_velocity_is_derivative",
    "C40_step",
    "C40_step_b64",
    "C40_step_b64_mjd"
   ],
   "note": "Exact arithmetic, derivative in either part of the date.  The step form in binary64 is C40_step_b64 and C40_step_b64_mjd."
  },
  {
   "property": "C41",
   "status": "proved",
   "theorems": [
    "C41_warning_real",
    "C41_warning_b64",
    "C41_warning_nan"
   ],
   "note": "Exact arithmetic and binary64 (any libm, NaN and infinities included). The numbers are given by C59 without reference to the warning."
  },
  {
   "property": "C42",
   "status": "proved",
   "theorems": [
    "C42_total_date",
    "C42_split_b64",
    "C42_earth_split_b64"
   ],
   "note": "Exact arithmetic, all splits. The binary64 bounds hold for every libm satisfying good_libm."
  },
  {
   "property": "C43",
   "status": "proved",
   "theorems": [
    "C43_distance_b64",
    "C43_distance_range",
    "C43_distance"
   ],
   "note": "Exact arithmetic; proved with the tighter bounds 0.96 and 1.04. C43_distance_range narrows the range to [0.982, 1.018] AU by treating the main terms jointly (perihelion 0.9833, aphelion 1.0167). Binary64: C43_distance_b64 (any libm accurate to 2^-52)."
  },
  {
   "property": "C44",
   "status": "partial",
   "theorems": [
    "C44_accepted",
    "C44_errors",
    "C44_constants",
    "C44_zero_radius_refuted",
    "C44_flattening_near_one_refuted",
    "C44_accepted_b64",
    "C44_band_b64",
    "C44_band_edge_b64"
   ],
   "note": "Exact arithmetic: accepted iff 0<=f<1 and a>=0, order of the errors, constants of the converter (polar radius a(1-f)). Refuted as stated: a zero radius and NaN are accepted (the height is then NaN), and in binary64 f = 1-2^-52 is rejected as BadEccentricity. In binary64, NaN apart: accepted implies 0<=f<1 and a>=0, and every f in [0,1-2^-24] with a>=0 (infinity included) is accepted.  C44_band_b64 characterises exactly which flattenings below 1 are refused in binary64; the largest number below 1 is accepted."
  },
  {
   "property": "C45",
   "status": "proved",
   "theorems": [
    "C45_normal",
    "C45_normal_b64"
   ],
   "note": "Exact arithmetic, all inputs, every accepted ellipsoid with a>0; the normal is the gradient of the ellipsoid's equation.  C45_normal_b64."
  },
  {
   "property": "C46",
   "status": "proved",
   "theorems": [
    "C46_never_fails_b64",
    "C46_nan_flattening_b64",
    "C46_never_fails"
   ],
   "note": "Exact arithmetic, every converter returned by new. Binary64: C46_never_fails_b64 (sine and cosine accurate to 2^-52); C46_nan_flattening_b64 describes the NaN flattening, any libm."
  },
  {
   "property": "C47",
   "status": "proved",
   "theorems": [
    "C47_longitude",
    "C47_surface",
    "C47_sphere",
    "C47_equator",
    "C47_poles",
    "C47_tolerance",
    "C47_wgs84",
    "C47_wgs84_everywhere"
   ],
   "note": "Exact arithmetic. Longitude exact off the axis for every accepted ellipsoid; latitude and height exact on the surface, for spheres, on the equator and at the poles (off the axis by more than a/10^16, where the code switches formula); for f<=0.006, heights above -a/10 and all latitudes the stated tolerance, the stated tolerance is of order f^4 h^3, as the two second-order terms of the step cancel (L_Halley2.v). Rounding errors of binary64 are bounded in C73."
  },
  {
   "property": "C48",
   "status": "proved",
   "theorems": [
    "C48_reflection_b64",
    "C48_reflection",
    "C48_rotation",
    "C48_range"
   ],
   "note": "Reflection in binary64 bit for bit, for any libm and any converter, and in exact arithmetic; rotation about the axis and ranges in exact arithmetic."
  },
  {
   "property": "C49",
   "status": "partial",
   "theorems": [
    "C49_range",
    "C49_same_point",
    "C49_north_pole_refuted",
    "C49_range_b64",
    "C49_edges_b64",
    "C49_accuracy_b64_partial",
    "C49_north_pole_b64_refuted"
   ],
   "note": "Exact arithmetic: range, no panic, same geocentric point for all latitudes but +pi/2. Refuted at the north pole: pi/2 becomes -90 degrees, the south pole (binary64 as well). binary64: range with both ends and no debug panic up to 2^1000; NaN and infinities panic in debug builds. binary64 accuracy is proved for every latitude between the poles but two; C49_north_pole_b64_refuted shows that those two become -90 degrees."
  },
  {
   "property": "C50",
   "status": "partial",
   "theorems": [
    "C50_accuracy_b64_partial",
    "C50_accuracy_b64_far_partial",
    "C50_congruent_partial",
    "C50_range_partial",
    "C50_one_turn_refuted"
   ],
   "note": "False as stated: % binds tighter than +, so the first five arguments reach beyond one turn (witness). Proved: congruence for all t, and that they stay within two turns. Binary64 accuracy is proved for |t| <= 1 and |t| <= 10."
  },
  {
   "property": "C51",
   "status": "proved",
   "theorems": [
    "C51_times",
    "C51_place",
    "C51_geometry",
    "C51_default"
   ],
   "note": "Exact arithmetic, every parameter set for which new returns. If the Sun vector were zero (excluded 1900-2100 by C43) the angle identity reads 0 = 0. The matrix acts on columns although apply acts on rows, because the code transposes first (see C32).  C51_default pins the default parameters."
  },
  {
   "property": "C52",
   "status": "partial",
   "theorems": [
    "C52_new_no_panic_refuted",
    "C52_new_panics_partial",
    "C52_new_no_panic_b64_partial"
   ],
   "note": "False: HMS is not validated, so e.g. hour 25 makes delta_at return an error that is expect()ed; far years panic in debug builds. Exact characterisation of the panic in exact arithmetic; binary64 no-panic for clock times in range, under a weak condition on the platform's sin and cos."
  },
  {
   "property": "C53",
   "status": "proved",
   "theorems": [
    "C53_offset_b64",
    "C53_offset_is_shift",
    "C53_same_dat"
   ],
   "note": "Exact arithmetic; stated for two clocks with offsets. The shared delta AT is automatic from February 1972. C53_offset_b64 is the binary64 form, for every libm satisfying good_libm."
  },
  {
   "property": "C54",
   "status": "proved",
   "theorems": [
    "C54_injective",
    "C54_form",
    "C54_padding",
    "C54_order"
   ],
   "note": "Byte-order comparison of strings. Dates are all integers in the injectivity part (i32 included). The padding of negative years was added after a seeded fault in it survived."
  },
  {
   "property": "C55",
   "status": "partial",
   "theorems": [
    "C55_seconds_below_60_refuted",
    "C55_form_partial",
    "C55_stamp",
    "C55_stamp_order",
    "C55_not_finite"
   ],
   "note": "Refuted as stated: the fraction 1-2^-53 prints 23:59:60.000000. Proved: form, field ranges, accuracy, and that 60 occurs only as 60.000000. Rounding to 6 decimals is modelled with an arbitrary tie rule.  Dates with times: year 0 to 9999, hour and minute of at most two digits, seconds from +0 to 99.  C55_not_finite."
  },
  {
   "property": "C56",
   "status": "partial",
   "theorems": [
    "C56_scan",
    "C56_no_scan",
    "C56_nonpositive_step",
    "C56_absorbed_step_refuted",
    "C56_scan_b64_partial",
    "C56_scan_visits_b64",
    "C56_forever_b64_partial",
    "C56_nonpositive_step_b64"
   ],
   "note": "Proved in exact arithmetic. False in binary64: a positive step can be absorbed and the loop never ends; that is the only way for it not to end (proved for every finite positive step), and for |delta0|,|delta1| <= 2^51 steps it ends, with an error bound on each offset. A step <= 0 never ends."
  },
  {
   "property": "C57",
   "status": "proved",
   "theorems": [
    "C57_cio",
    "C57_cio_b64",
    "C57_cio_b64_mjd"
   ],
   "note": "Exact arithmetic.  C57_cio_b64 and C57_cio_b64_mjd."
  },
  {
   "property": "C58",
   "status": "proved",
   "theorems": [
    "C58_magnitudes_b64",
    "C58_magnitudes"
   ],
   "note": "Exact arithmetic. Binary64: C58_magnitudes_b64."
  },
  {
   "property": "C59",
   "status": "proved",
   "theorems": [
    "C59_position_series"
   ],
   "note": "Exact arithmetic, all dates."
  },
  {
   "property": "C60",
   "status": "proved",
   "theorems": [
    "C60_nutation_series"
   ],
   "note": "Exact arithmetic, all dates."
  },
  {
   "property": "C61",
   "status": "proved",
   "theorems": [
    "C61_cio_series",
    "C61_celestial_to_terrestrial"
   ],
   "note": "Exact arithmetic, all dates (the matrix within 50 centuries)."
  },
  {
   "property": "C62",
   "status": "proved",
   "theorems": [
    "C62_position_display",
    "C62_not_finite"
   ],
   "note": "binary64; stated for heights up to 99999 m in absolute value, where the width is not exceeded. Rounding with an arbitrary tie rule.  C62_not_finite."
  },
  {
   "property": "C63",
   "status": "proved",
   "theorems": [
    "C63_accuracy_b64",
    "C63_vector_functions",
    "C63_norm_laws",
    "C63_symmetry_b64",
    "C63_norm_accuracy_b64"
   ],
   "note": "exact arithmetic and binary64 with a proved error bound; overflow and underflow of the squares are excluded by the stated range."
  },
  {
   "property": "C64",
   "status": "proved",
   "theorems": [
    "C64_constants",
    "C64_libm_exists",
    "C64_era_accuracy",
    "C64_era_accuracy_mjd"
   ],
   "note": "Angle compared up to whole turns because the reduced value may differ by a turn near 0 (see C28)."
  },
  {
   "property": "C65",
   "status": "proved",
   "theorems": [
    "C65_nutation_accuracy",
    "C65_nutation_accuracy_mjd"
   ],
   "note": "Includes the remainder of each fundamental argument, whose wrap may differ from the exact one by a turn."
  },
  {
   "property": "C66",
   "status": "proved",
   "theorems": [
    "C66_cio_accuracy",
    "C66_cio_accuracy_mjd"
   ],
   "note": ""
  },
  {
   "property": "C67",
   "status": "proved",
   "theorems": [
    "C67_earth_accuracy",
    "C67_earth_accuracy_mjd"
   ],
   "note": "The velocity is compared with the mathematical derivative of the position series, not with the model's own velocity sum."
  },
  {
   "property": "C68",
   "status": "proved",
   "theorems": [
    "C68_precession_nutation_accuracy",
    "C68_precession_nutation_accuracy_mjd",
    "C68_bias_precession_accuracy",
    "C68_polar_motion_accuracy"
   ],
   "note": "Entrywise distance to the exact products of Spec_Frames with the exact nutation series, for every libm with sin/cos within 2^-52."
  },
  {
   "property": "C69",
   "status": "proved",
   "theorems": [
    "C69_exact",
    "C69_pole_matrix_accuracy",
    "C69_terrestrial_accuracy",
    "C69_terrestrial_accuracy_mjd",
    "C69_orthonormal_b64"
   ],
   "note": "C69_exact is over the reals, the accuracy theorems over binary64 for every libm satisfying good_libm. "
  },
  {
   "property": "C70",
   "status": "proved",
   "theorems": [
    "C70_exact",
    "C70_accuracy",
    "C70_degrees",
    "C70_any_ellipsoid"
   ],
   "note": "binary64 against the textbook formula, which the exact model is also proved to compute. C70_any_ellipsoid covers all ellipsoids up to flattening 1/8."
  },
  {
   "property": "C71",
   "status": "partial",
   "theorems": [
    "C71_dat_accuracy",
    "C71_dat_in_force_partial"
   ],
   "note": "Needs no hypothesis on libm (delta_at calls none). The in-force version is partial for the reason given at C21: in a month in which a step takes effect the code still uses the previous one."
  },
  {
   "property": "C72",
   "status": "proved",
   "theorems": [
    "C72_sun_accuracy",
    "C72_zenith_angle"
   ],
   "note": "Interval error analysis of the time chain, Earth ephemeris, frame matrices, rotation and normalisation composed end to end. Near 0 and pi acos itself amplifies errors; there the theorem requires its argument to be within [-1,1], which the code does not clamp."
  },
  {
   "property": "C73",
   "status": "proved",
   "theorems": [
    "C73_accuracy",
    "C73_geodetic",
    "C73_everywhere",
    "C73_ground"
   ],
   "note": "All proved, for WGS84; C96 has other ellipsoids. Relative (not interval) error analysis in the two scales p/a and r/a, so it holds down to p = 1e-9 m where the latitude formula divides two quantities of order p^2. Points closer than 5750 km to the centre or farther than 6500000 km are not covered; C44 and C47 describe the exact arithmetic there."
  },
  {
   "property": "C74",
   "status": "proved",
   "theorems": [
    "C74_exists",
    "C74_unique",
    "C74_point",
    "C74_round_trip",
    "C74_round_trip_ground"
   ],
   "note": "Existence by the intermediate value theorem along the meridian, uniqueness from a Lipschitz bound for the normals of the ellipsoid. The 2 mm at altitude is the truncation error of the single Halley step, not rounding."
  },
  {
   "property": "C75",
   "status": "proved",
   "theorems": [
    "C75_round_trip",
    "C75_ground",
    "C75_ground_height",
    "C75_longitude"
   ],
   "note": "Within 1e-6 rad of the poles the longitude is bounded only under the sharper assumption on libm (Spec_Sharp.v): the absolute error of the general assumption does not fix the direction there. These bounds add up to 95 per cent of the tolerance of test_ellipsoid (C101)."
  },
  {
   "property": "C76",
   "status": "proved",
   "theorems": [
    "C76_report",
    "C76_scan",
    "C76_errors"
   ],
   "note": "C76_report (no --scan), C76_scan (--scan, step from 1e-7 to 1e9 s) and C76_errors. The zenith angle and elevation are covered when the exact angle is at least 0.01 rad from 0 and pi (see C34). The flags are given as options here; C103 reads them from the command line."
  },
  {
   "property": "C77",
   "status": "partial",
   "theorems": [
    "C77_requested_time_refuted",
    "C77_requested_time_partial"
   ],
   "note": "False: the loop starts at the default delta0 = -600 s and ends after the first pass, so the report is for ten minutes before the requested time (C77_requested_time_refuted, the tool run without flags). C77_requested_time_partial: with --delta0 0 the report is for the requested time."
  },
  {
   "property": "C78",
   "status": "partial",
   "theorems": [
    "C78_bad_time_refuted",
    "C78_silent_partial"
   ],
   "note": "False: --hour 25 panics in the calculator (C78_bad_time_refuted), and with --delta0 greater than --delta1 the tool prints nothing and succeeds (C78_silent_partial states this for every usual input, which is also the proof that there is no panic there)."
  },
  {
   "property": "C79",
   "status": "proved",
   "theorems": [
    "C79_gregorian",
    "C79_errors"
   ],
   "note": "C79_gregorian, C79_errors. The Julian date is compared with the day count of the calendar specification."
  },
  {
   "property": "C80",
   "status": "partial",
   "theorems": [
    "C80_julian_partial",
    "C80_rejects",
    "C80_times_refuted"
   ],
   "note": "False as stated: 24:00:00.000000 is printed for an instant just before midnight, and --jd nan prints -4713-11-25 00:00:000000NaN and succeeds (C80_times_refuted). C80_julian_partial: the lines printed, with date and time within the rounding of from_julian plus half a microsecond, the hour at most 24. C80_rejects: finite pairs whose sum is outside [-32000, 1e9] print the sum and then fail."
  },
  {
   "property": "C81",
   "status": "proved",
   "theorems": [
    "C81_obliquity_exact",
    "C81_obliquity_b64",
    "C81_obliquity_b64_mjd"
   ],
   "note": "Exact and binary64."
  },
  {
   "property": "C82",
   "status": "proved",
   "theorems": [
    "C82_kepler_b64",
    "C82_kepler",
    "C82_distance_declination"
   ],
   "note": "The specification is a two-body ellipse that uses none of the tables. The observed difference is about 0.00026 AU; the proof bounds small terms by the sum of amplitudes. Binary64: C82_kepler_b64."
  },
  {
   "property": "C83",
   "status": "proved",
   "theorems": [
    "C83_speed_b64",
    "C83_speed"
   ],
   "note": "Binary64: C83_speed_b64."
  },
  {
   "property": "C84",
   "status": "proved",
   "theorems": [
    "C84_barycentre_b64",
    "C84_barycentre"
   ],
   "note": "Bounded by the sums of amplitudes of the Sun tables. Binary64: C84_barycentre_b64."
  },
  {
   "property": "C85",
   "status": "proved",
   "theorems": [
    "C85_nutation_b64",
    "C85_nutation"
   ],
   "note": "The textbook formulas are in Spec_Pole.v (J. Meeus, Astronomical Algorithms, chapter 22) and do not use the tables of the source. Binary64: C85_nutation_b64."
  },
  {
   "property": "C86",
   "status": "proved",
   "theorems": [
    "C86_locator",
    "C86_pole_b64",
    "C86_pole"
   ],
   "note": "The polynomial is in Spec_Pole.v (IERS Conventions 2003/2010, section 5.5.4), an expression of the pole that the source does not use: it builds the matrix from the angles. The frame bias (0.017 arcseconds) is within the tolerance. C86_locator: cio d x y against low_s (Spec_Pole.v), every x, y. Binary64: C86_pole_b64."
  },
  {
   "property": "C87",
   "status": "proved",
   "theorems": [
    "C87_almanac",
    "C87_almanac_b64"
   ],
   "note": "Reference formulas in Spec_Almanac.v share no code with the model: equinox-based instead of CIO-based, equation of the centre instead of series. C87_almanac exact arithmetic; C87_almanac_b64 binary64; C87_example: noon UT 2000-01-01 at 0N 0E gives 22.7-23.4 degrees in binary64."
  },
  {
   "property": "C88",
   "status": "proved",
   "theorems": [
    "C88_tropics",
    "C88_tropics_b64"
   ],
   "note": "Consequence of C87 and the spherical triangle inequality; the bound 23.6 is the obliquity 23.45 plus the 0.143 of C87."
  },
  {
   "property": "C89",
   "status": "proved",
   "theorems": [
    "C89_order_b64",
    "C89_compute_order"
   ],
   "note": "Weak order from monotone rounding; strict order from the accuracy bounds of C72."
  },
  {
   "property": "C90",
   "status": "proved",
   "theorems": [
    "C90_rate",
    "C90_rate_b64"
   ],
   "note": "Lipschitz bounds for nutation, precession, locator, pole, rotation and orbit (L_Lip.v), chained over steps of one second. The sidereal rate is 0.004178 degrees per second; the rest of the margin is the orbit and crude bounds for nutation."
  },
  {
   "property": "C91",
   "status": "proved",
   "theorems": [
    "C91_day_night",
    "C91_horizon",
    "C91_day_night_b64"
   ],
   "note": "C87 at the moments when the sidereal time equals the right ascension of the Sun or differs by 180 degrees; the moment of exactly 90 degrees from C90 and the intermediate value theorem."
  },
  {
   "property": "C92",
   "status": "proved",
   "theorems": [
    "C92_seasons",
    "C92_seasons_b64",
    "C92_equinoxes",
    "C92_equinoxes_b64"
   ],
   "note": "Exact arithmetic without exception; binary64 for any accurate libm from latitude 25 on. Links the calendar to the declination of the Sun through the low-precision Almanac formulas of C87.  C92_equinoxes: the half-years between the equinoxes; the gap of two to four days covers the calendar drift over 1901-2098 and the 0.143 degrees of C87."
  },
  {
   "property": "C93",
   "status": "proved",
   "theorems": [
    "C93_distance",
    "C93_distance_b64"
   ],
   "note": "Exact and binary64. Follows from the Kepler ellipse of C82 and the day count of the date."
  },
  {
   "property": "C94",
   "status": "proved",
   "theorems": [
    "C94_same_sun",
    "C94_moving",
    "C94_latitude",
    "C94_antipodes",
    "C94_turn",
    "C94_moving_b64",
    "C94_antipodes_b64"
   ],
   "note": "C94_same_sun holds bit for bit in binary64 with any libm; the other metric statements are exact arithmetic. C94_moving_b64 and C94_antipodes_b64 hold for every libm accurate to 2^-52; nearer the equator the Sun can stand at the zenith, where the binary64 angle may be NaN (C34)."
  },
  {
   "property": "C95",
   "status": "proved",
   "theorems": [
    "C95_noon_low_b64",
    "C95_solar_time",
    "C95_noon",
    "C95_noon_b64"
   ],
   "note": "Exact arithmetic; noon and midnight also in binary64 with any accurate libm. The sign conventions of longitude, UT and rotation enter. At low latitudes: C95_noon_low_b64 in P_Low.v."
  },
  {
   "property": "C96",
   "status": "proved",
   "theorems": [
    "C96_accepted",
    "C96_accuracy",
    "C96_geodetic",
    "C96_everywhere",
    "C96_ground"
   ],
   "note": "All proved. The same relative error analysis as C73 with the ellipsoid as a parameter; 0.006 covers the Earth, the Moon, Venus, Mercury and Mars, not Jupiter or Saturn."
  },
  {
   "property": "C97",
   "status": "proved",
   "theorems": [
    "C97_exists",
    "C97_unique",
    "C97_point",
    "C97_round_trip",
    "C97_round_trip_ground",
    "C97_back",
    "C97_back_ground"
   ],
   "note": "C97_exists, C97_unique exact; C97_point, C97_round_trip, C97_round_trip_ground, C97_back, C97_back_ground in binary64 for any good_libm. C74 and C75 are the sharper statements for WGS84."
  },
  {
   "property": "C98",
   "status": "proved",
   "theorems": [
    "C98_nutation",
    "C98_nutation_b64",
    "C98_locator",
    "C98_locator_b64"
   ],
   "note": "C60, C61, C65 and C66 read the coefficients from the tables generated from the source. Here the same series are stated with a second transcription (Spec_Published.v), so a changed entry breaks the theorem. The second transcription was written from knowledge of the standards without access to the printed tables (no network); it agreed with the source in every entry at the first comparison."
  },
  {
   "property": "C99",
   "status": "proved",
   "theorems": [
    "C99_reference",
    "C99_reference_b64"
   ],
   "note": "The other ephemeris theorems read the coefficients from the tables generated from the source; the published values tie these tables to the original. Proved with an integer fixed-point evaluator of cosines and sines whose error is proved, run by the kernel on all rows; the precision follows the amplitude of each term, which keeps the independent check by coqchk short. The reference numbers were written down from knowledge of the SOFA test program (no network)."
  },
  {
   "property": "C100",
   "status": "proved",
   "theorems": [
    "C100_origin",
    "C100_float"
   ],
   "note": "C100_origin is about the derivative of the modelled function: a frame spins at the rate at which its first row moves along its second (Spec_Origin.v), and the frame is found by integrating the rate of the pole. The bound compares the IERS locator series with the product of the nutation rates, expanded by computation into one trigonometric series, and integrates what is left. C100_float adds the rounding error of C69."
  },
  {
   "property": "C101",
   "status": "proved",
   "theorems": [
    "C101_ellipsoid",
    "C101_tables",
    "C101_random",
    "C101_fixed"
   ],
   "note": "C101_random, C101_fixed over the model of the test functions in M_Tests.v. C101_ellipsoid adds the errors of C75 in longitude, latitude and height (1.42e-8 in all) against the tolerance of 1.49e-8. The tests against those tables of test_data.rs that involve libm, at a tolerance of one EPSILON, depend on its last bits and are not covered; the tables are compared outside the proof (tools/validate). C101_tables evaluates both tables in the kernel (M_TestTables.v, T_Tests.v)."
  },
  {
   "property": "C102",
   "status": "proved",
   "theorems": [
    "C102_agree",
    "C102_tools_agree",
    "C102_sun_same"
   ],
   "note": "C102_agree, C102_tools_agree, C102_sun_same. Only overflow checks and debug assertions of the project code itself are modelled as profile-dependent; both builds are assumed to evaluate floating point alike."
  },
  {
   "property": "C103",
   "status": "proved",
   "theorems": [
    "C103_any_order",
    "C103_nothing_else",
    "C103_errors"
   ],
   "note": "C103_any_order, C103_nothing_else, C103_errors; sun_items says what a line writes. The rearrangements are real: --hour --day 5 7 is read as day 5, hour 7 (C103_example), so the accepted lines are not exactly the well-formed ones. pico-args 0.5 and the FromStr of i32, u8 and f64 are not in the repository; their model (M_Args.v) follows their documentation. Arguments that are not UTF-8 are outside the model."
  },
  {
   "property": "C104",
   "status": "partial",
   "theorems": [
    "C104_gregorian_partial",
    "C104_julian",
    "C104_julian_nothing_else",
    "C104_errors",
    "C104_rejects_refuted"
   ],
   "note": "False for gregorian, which never looks at what is left over: gregorian --year 2000 --month 1 --day 1 --hours 5 prints 12:00 without complaint (C104_rejects_refuted), and so for all other words (C104_gregorian_partial). C104_julian and C104_julian_nothing_else for julian, C104_errors for the subcommand and the required options."
  },
  {
   "property": "C105",
   "status": "proved",
   "theorems": [
    "C105_round_trip"
   ],
   "note": "C105_round_trip. The bound is half of the sixth decimal of a day, 0.0432 s, plus the roundings; the time printed can be 24:00:00 (C80)."
  },
  {
   "property": "C106",
   "status": "proved",
   "theorems": [
    "C106_exact",
    "C106_b64"
   ],
   "note": "The published numbers are in Spec_RefFrames.v. The proof runs the binary64 program in the kernel with a computable libm (L_CalcLibm.v, itself proved accurate: Taylor series with exact remainders) and carries the result to exact arithmetic and to every other libm with the accuracy theorems C65, C66, C69."
  },
  {
   "property": "C107",
   "status": "proved",
   "theorems": [
    "C107_reads_back",
    "C107_injective",
    "C107_shortest",
    "C107_tool"
   ],
   "note": "The formatter is in the standard library of Rust, not in the repository: M_Shortest.v is written from its documented behaviour, as an executable search over 1 to 17 digits. The theorems about the two tools hold for an arbitrary function in its place; C107_tool is about this one."
  },
  {
   "property": "C108",
   "status": "proved",
   "theorems": [
    "C108_newton",
    "C108_newton_b64"
   ],
   "note": "The bounds are those of the truncated model of the forces (circular lunar orbit in the plane of the ecliptic, no planets), not of the ephemeris. Exact arithmetic.  The binary64 form is C108_newton_b64."
  },
  {
   "property": "C109",
   "status": "proved",
   "theorems": [
    "C109_climb",
    "C109_climb_b64",
    "C109_clear",
    "C109_sunrise_low_b64",
    "C109_climb_low_b64",
    "C109_sunrise",
    "C109_sunrise_b64"
   ],
   "note": "Near the horizon (cosine of the zenith angle below 0.0035) the Sun stands well in the east in the morning and in the west in the afternoon (C95 for the place and for the point of the equator 90 degrees further east), so that over each 30 seconds the rotation of the Earth raises or lowers it by a known amount that exceeds all other motions together. The sunrise and the sunset of the statement are those of the centre of the Sun without refraction, as computed by the code in exact arithmetic.  The same step argument, with one second and without the restriction to the horizon, gives the monotone zenith angle between midnight and noon (`L_Climb.v`). All latitudes from -65 to 65 in binary64: P_Low.v (C109_clear, C109_sunrise_low_b64, C109_climb_low_b64)."
  },
  {
   "property": "C110",
   "status": "partial",
   "theorems": [
    "C110_bias_and_precession_refuted",
    "C110_bias_within_two",
    "C110_from_cio_refuted",
    "C110_from_cio_within_two",
    "C110_polar_motion_refuted",
    "C110_nutation_matrix_refuted",
    "C110_within_two",
    "C110_libm_exists"
   ],
   "note": "False: the four tests panic with every libm whose sine and cosine are rounded toward zero, and such a libm meets every accuracy assumption made elsewhere (C110_libm_exists). Witnesses are row 44 of POM00_DATA, row 19 of NUMAT_DATA, row 1 of BP00_DATA and row 52 of C2TCIO_DATA (counted from 0).  C110_within_two, C110_bias_within_two and C110_from_cio_within_two bound the differences at these rows by two EPSILON."
  }
 ]
}