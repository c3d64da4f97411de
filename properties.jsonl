{"id": "C01", "title": "Date constructor accepts exactly the proleptic Gregorian calendar from year -4799", "statement": "GregorianDate::new(y,m,d) returns Ok with exactly those three fields if and only if y >= -4799, 1<=m<=12 and 1<=d<=length of month m in year y (February has 29 days iff y is divisible by 4 and not by 100 unless by 400). Otherwise it returns BadYear if the year is too small, else BadMonth if the month is bad, else BadDay.", "quantifier": "all i32 triples (year, month, day)", "why_tests_cant": "2^96 inputs; century rules and negative years (sign of Rust %) are sparse corners", "anchors": ["crates/tofas/src/calendar.rs: GregorianDate::new, MTAB, YEAR_MIN"]}
{"id": "C02", "title": "to_julian is the exact day count", "statement": "For every date accepted by new and inside the overflow-free range, to_julian returns the pair (2400000.5, n) where n is exactly the signed number of days from 1858-11-17 to the date in the proleptic Gregorian calendar; the float n is exact.", "quantifier": "all valid dates with year <= 1465072", "why_tests_cant": "Truncating integer divisions can be off by one in isolated years; a sample cannot rule this out", "anchors": ["crates/tofas/src/calendar.rs: GregorianDate::to_julian"]}
{"id": "C03", "title": "to_julian preserves and reflects chronological order", "statement": "For valid dates a and b, the second component of a.to_julian() is less than that of b.to_julian() iff a is before b in (year, month, day) order; hence distinct dates have distinct Julian dates.", "quantifier": "all pairs of valid dates in the overflow-free range", "why_tests_cant": "pairs of dates are unbounded", "anchors": ["crates/tofas/src/calendar.rs: GregorianDate::to_julian"]}
{"id": "C04", "title": "to_julian cannot overflow on a date accepted by new", "statement": "Calling to_julian on any date returned by new neither panics on integer overflow (debug) nor wraps (release). ", "quantifier": "all i32 dates accepted by new", "why_tests_cant": "overflow starts only at an exact year boundary far outside tests", "anchors": ["crates/tofas/src/calendar.rs: GregorianDate::new, GregorianDate::to_julian"]}
{"id": "C05", "title": "Calendar date survives conversion to Julian date and back", "statement": "For every accepted date (overflow-free range), from_julian applied to the two binary64 numbers returned by to_julian gives back the same date with fraction of day exactly 0.0.", "quantifier": "all valid dates with year <= 1465000 or so", "why_tests_cant": "hundreds of millions of dates, integer and floating-point steps interact", "anchors": ["crates/tofas/src/calendar.rs: GregorianDate::to_julian, GregorianDate::from_julian"]}
{"id": "C06", "title": "from_julian computes the civil date containing the instant", "statement": "In exact arithmetic, for dj = dj1+dj2 in [-32000, 536802341.5), from_julian returns a valid calendar day and a fraction f with 0<=f<1 such that (Julian date of that midnight) + f = dj exactly.", "quantifier": "all real pairs (dj1,dj2) whose sum is in range", "why_tests_cant": "continuum of inputs; every sign/split combination of the two parts", "anchors": ["crates/tofas/src/calendar.rs: GregorianDate::from_julian"]}
{"id": "C07", "title": "from_julian accuracy in binary64", "statement": "With IEEE-754 double arithmetic and both parts at most 2^31 in magnitude, from_julian never panics (in the overflow-free range), returns a valid calendar day and a fraction in [0,1], and the midnight's Julian date plus the fraction differs from the exact sum dj1+dj2 by at most a stated few units of 2^-53 (scaled by the smaller part).", "quantifier": "all pairs of binary64 numbers in range", "why_tests_cant": "2^128 float pairs; rounding cases such as ties and tiny negatives are too sparse to sample", "anchors": ["crates/tofas/src/calendar.rs: GregorianDate::from_julian"]}
{"id": "C08", "title": "Fraction of day returned by from_julian is in [0,1)", "statement": "The fraction returned by from_julian is at least 0 and strictly less than 1.", "quantifier": "all binary64 pairs in range", "why_tests_cant": "only inputs a fraction of an ulp before midnight violate it", "anchors": ["crates/tofas/src/calendar.rs: GregorianDate::from_julian"]}
{"id": "C09", "title": "Dates returned by from_julian are accepted by new", "statement": "Whenever from_julian returns Ok((date,_)), GregorianDate::new(date.year,date.month,date.day) is Ok(date).", "quantifier": "all Julian dates accepted by from_julian", "why_tests_cant": "depends on the agreement of two independent range limits (YEAR_MIN, DJ_MIN)", "anchors": ["crates/tofas/src/calendar.rs: GregorianDate::new, GregorianDate::from_julian, DJ_MIN, YEAR_MIN"]}
{"id": "C10", "title": "from_julian rejects exactly the out-of-range Julian dates", "statement": "from_julian returns Err(BadJulian) iff dj1+dj2 (as rounded to binary64) is not a number in [-32000, 1e9]; in particular NaN must not produce a date.", "quantifier": "all binary64 pairs, including NaN and infinities", "why_tests_cant": "special values and rounding of the sum at the limits", "anchors": ["crates/tofas/src/calendar.rs: GregorianDate::from_julian, DJ_MIN, DJ_MAX"]}
{"id": "C11", "title": "from_julian does not overflow on the range it accepts", "statement": "For every Julian date in [DJ_MIN, DJ_MAX] from_julian returns without integer overflow (panic in debug, silent wrong date in release).", "quantifier": "all Julian dates in [-32000, 1e9]", "why_tests_cant": "the failing region starts at JD 536802343, never sampled by the tests", "anchors": ["crates/tofas/src/calendar.rs: GregorianDate::from_julian"]}
{"id": "C12", "title": "from_julian is symmetric in its two parts", "statement": "from_julian(a,b) and from_julian(b,a) return identical results, bit for bit in binary64.", "quantifier": "all pairs of binary64 numbers (including NaN, infinities and signed zeros)", "why_tests_cant": "2^128 pairs", "anchors": ["crates/tofas/src/calendar.rs: GregorianDate::from_julian"]}
{"id": "C13", "title": "from_julian depends only on the total Julian date", "statement": "In exact arithmetic, if dj1+dj2 = dj1'+dj2' then from_julian(dj1,dj2) = from_julian(dj1',dj2') (date and fraction).  In binary64 two splits of one total give the same moment within 2^-53 (|smaller part| + |smaller part of the other| + 6) days.", "quantifier": "all real splits of the same Julian date", "why_tests_cant": "every way of splitting a date", "anchors": ["crates/tofas/src/calendar.rs: GregorianDate::from_julian"]}
{"id": "C14", "title": "from_julian is monotone", "statement": "In exact arithmetic, a later Julian date never yields an earlier (date, fraction) pair, and distinct Julian dates yield distinct pairs. In binary64, rounding included, increasing either of the two parts, or both, never yields an earlier date, nor a smaller fraction on the same date.", "quantifier": "all ordered pairs of real Julian dates in range; all pairs of binary64 arguments of magnitude at most 2^51, ordered part by part, with sums from -32000 to 536802342", "why_tests_cant": "pairs over a continuum, crossing every month/leap boundary; a rounding inversion would show up in isolated pairs of neighbouring floats only", "anchors": ["crates/tofas/src/calendar.rs: GregorianDate::from_julian"]}
{"id": "C15", "title": "HMS fields are in range", "statement": "For every binary64 f in [0,1], HMS::from_fraction_of_day(f) gives minute < 60, 0 <= second < 60 and hour <= 24, with hour = 24 only when f = 1.0 (then 24:00:00).", "quantifier": "all binary64 f in [0,1]", "why_tests_cant": "rounding of 86400*f near whole seconds; 59 + 0.999.. could round to 60", "anchors": ["crates/tofas/src/calendar.rs: HMS::from_fraction_of_day"]}
{"id": "C16", "title": "HMS splits the seconds of day without loss", "statement": "For every binary64 f in [0,1], 3600*hour + 60*minute + second equals the binary64 product 86400*f exactly (the split adds no rounding error).", "quantifier": "all binary64 f in [0,1]", "why_tests_cant": "exactness for all 2^62 floats", "anchors": ["crates/tofas/src/calendar.rs: HMS::from_fraction_of_day"]}
{"id": "C17", "title": "Fraction of day survives conversion to HMS and back within EPSILON", "statement": "For every binary64 f in [0,1], |from_fraction_of_day(f).to_fraction_of_day() - f| <= 2^-52, and exactly f in exact arithmetic.", "quantifier": "all binary64 f in [0,1]", "why_tests_cant": "test_hms samples 1000 points of a 2^62 domain", "anchors": ["crates/tofas/src/calendar.rs: HMS::from_fraction_of_day, HMS::to_fraction_of_day"]}
{"id": "C18", "title": "HMS survives conversion to a fraction of day and back", "statement": "For every valid time of day (hour<24, minute<60, 0<=second<60), from_fraction_of_day(to_fraction_of_day(h)) = h.", "quantifier": "all valid HMS values", "why_tests_cant": "86400 whole-second values times a continuum of seconds; binary64 fails at scattered points", "anchors": ["crates/tofas/src/calendar.rs: HMS::from_fraction_of_day, HMS::to_fraction_of_day"]}
{"id": "C19", "title": "GregorianDateHMS round-trips", "statement": "In exact arithmetic, for every valid date up to 1465002-10-17 and every time of day, GregorianDateHMS::from_julian(to_julian(x)) = x, and for every Julian date from -31738.5 to 536802342.5 to_julian(from_julian(j)) has total j; errors are propagated (a bad Julian date gives BadJulian).", "quantifier": "all valid date-times and all real Julian dates in the stated ranges; the binary64 statements to 1465002-10-16 and from -32000 to 536802342", "why_tests_cant": "continuum; interaction of date and time parts at midnight", "anchors": ["crates/tofas/src/calendar.rs: GregorianDateHMS::from_julian, GregorianDateHMS::to_julian"]}
{"id": "C20", "title": "HMS::from_fraction_of_day rejects exactly the values outside [0,1]", "statement": "from_fraction_of_day(f) is Err(BadFract) iff f is not a number in [0,1].", "quantifier": "all binary64 values including NaN", "why_tests_cant": "special values", "anchors": ["crates/tofas/src/calendar.rs: HMS::from_fraction_of_day"]}
{"id": "C21", "title": "delta_at returns the TAI-UTC in force on the date", "statement": "For every valid date from 1960-01-01 on and fraction fd in [0,1], delta_at returns the value of TAI-UTC in force on that date according to the table, where each table entry takes effect on the first day of its month.", "quantifier": "all accepted dates with 1960 <= year < 178956970 (12*year fits i32) and all fractions", "why_tests_cant": "each of 42 change months is a boundary; test_delta_at checks one date", "anchors": ["crates/tofas/src/delta_at.rs: DeltaAt::delta_at, DAT_DATA"]}
{"id": "C22", "title": "delta_at error and None cases", "statement": "delta_at returns Err(BadFract) iff fd is not a number in [0,1]; otherwise None iff the year is before 1960; otherwise Some.", "quantifier": "all accepted dates with year < 178956970 and all binary64 fractions including NaN", "why_tests_cant": "special values; every year", "anchors": ["crates/tofas/src/delta_at.rs: DeltaAt::delta_at"]}
{"id": "C23", "title": "delta_at is a step function of whole seconds from 1972 and piecewise linear before", "statement": "For dates from February 1972, delta_at does not depend on the day or fraction, is a whole number of seconds and never decreases as the month advances; for earlier dates in one table segment it is an affine function of MJD+fd with the tabulated rate.", "quantifier": "all pairs of accepted dates with year < 178956970", "why_tests_cant": "pairs over all months", "anchors": ["crates/tofas/src/delta_at.rs: DeltaAt::delta_at, DAT_DATA"]}
{"id": "C24", "title": "delta_at does not panic", "statement": "delta_at never panics: the table index is always in range and the month arithmetic cannot overflow, for every date accepted by new whose year is below 178956970.", "quantifier": "all accepted dates and all fractions", "why_tests_cant": "overflow boundary at an extreme year; index arithmetic for all dates", "anchors": ["crates/tofas/src/delta_at.rs: DeltaAt::delta_at"]}
{"id": "C25", "title": "Time-scale conversions shift the total by exactly the requested offset", "statement": "In exact arithmetic: total(TT::from_ut1(u,dt)) = total(u)+dt/86400; total(UT1::from_tt(t,dt)) = total(t)-dt/86400; total(TAI::from_utc_delta_at(u,d)) = total(u)+d/86400; total(TT::from(tai)) = total(tai)+32.184/86400; TDB::from_tt shifts by dtr/86400. Hence conversions preserve order and differences for a fixed offset.", "quantifier": "all real pairs and offsets", "why_tests_cant": "the shift is applied to one of two parts chosen by comparison; continuum of inputs", "anchors": ["crates/tofas/src/time.rs: TT::from_ut1, UT1::from_tt, TAI::from_utc_delta_at, From<TAI> for TT, TDB::from_tt"]}
{"id": "C26", "title": "UT1/TT conversion round-trips", "statement": "UT1::from_tt(TT::from_ut1(u,dt),dt) has the same total as u (exact arithmetic), and the same two parts whenever the offset does not change which part is larger; symmetrically for TT. In binary64, with a smaller part of at most half a day and an offset of at most 40000 s, the total comes back within 3*2^-53 day (29 ps).", "quantifier": "all real pairs and offsets; all finite binary64 pairs and offsets within those limits", "why_tests_cant": "branch choice may differ on the way back", "anchors": ["crates/tofas/src/time.rs: TT::from_ut1, UT1::from_tt"]}
{"id": "C27", "title": "Time-scale conversions keep the larger part bit-identical", "statement": "In binary64, each conversion leaves the larger of the two parts bit-identical and the other part is the correctly rounded sum, so the only error is half an ulp of the small part (plus that of the offset quotient).", "quantifier": "all finite binary64 pairs and offsets of magnitude at most 1e15; the numerical error bound for a smaller part of at most a day and an offset of at most 86400 s", "why_tests_cant": "rounding for all floats", "anchors": ["crates/tofas/src/time.rs: TT::from_ut1, UT1::from_tt, TAI::from_utc_delta_at, From<TAI> for TT, TDB::from_tt"]}
{"id": "C28", "title": "anp normalises any angle to one turn", "statement": "anp(a) is in [0,2pi) and differs from a by a whole number of turns (exact arithmetic). In binary64 the result is in [0,TWO_PI] for every finite input.", "quantifier": "all real / all finite binary64 angles", "why_tests_cant": "tiny negative and huge angles", "anchors": ["crates/tofas/src/common.rs: anp, TWO_PI"]}
{"id": "C29", "title": "Earth rotation angle depends only on total UT1", "statement": "In exact arithmetic rotation_angle(dj1,dj2) = 2pi * frac(0.7790572732640 + 1.00273781191135448*(dj1+dj2-2451545)), in [0,2pi), for every split of the date. In binary64, for any libm, two splits of one UT1 date with parts up to 2^22 days give the same angle within 3.2e-10 rad, up to whole turns.", "quantifier": "all real splits of UT1", "why_tests_cant": "fractional-part algebra for all signs of both parts", "anchors": ["crates/tofas/src/earth.rs: rotation_angle"]}
{"id": "C30", "title": "Earth rotation angle is symmetric in its two parts", "statement": "rotation_angle(a,b) and rotation_angle(b,a) are bit-identical in binary64.", "quantifier": "all pairs of binary64 numbers", "why_tests_cant": "2^128 pairs", "anchors": ["crates/tofas/src/earth.rs: rotation_angle"]}
{"id": "C31", "title": "Matrix algebra laws", "statement": "compose is associative with identity() as two-sided unit; transpose is an involution and reverses compose; zero() annihilates. In binary64, entries finite and up to 2^500: each entry of compose is within 4*2^-53 times the sum of the sizes of its three terms, plus 2^-1072; transpose copies entries in any arithmetic.", "quantifier": "all real 3x3 matrices", "why_tests_cant": "nested index loops; continuum", "anchors": ["crates/tofas/src/common.rs: Mat3 compose, transpose, identity, zero"]}
{"id": "C32", "title": "apply is compatible with compose", "statement": "a.compose(b).apply(x) = a.apply(b.apply(x)) for all matrices and vectors (matrix acts on column vectors). In binary64 apply is the row action within 4*2^-53 times the sum of the sizes of the terms, plus 2^-1072.", "quantifier": "all real matrices and vectors", "why_tests_cant": "index order convention; symmetric or diagonal samples cannot distinguish it", "anchors": ["crates/tofas/src/common.rs: Mat3 apply, compose"]}
{"id": "C33", "title": "Elementary rotations are proper rotations", "statement": "For axis 0,1,2 and every angle, rotation(axis,theta) is orthogonal with determinant 1, fixes the axis, composes additively in the angle, has rotation(axis,-theta) as transpose and inverse; for axis>=3 it panics and never returns. In binary64, with sin and cos within 2^-52, every entry is within 2^-52 of the exact rotation by the same binary64 angle and the matrix is orthonormal within 2^-50 per entry.", "quantifier": "all axes (usize), all real angles, all finite binary64 angles", "why_tests_cant": "continuum of angles", "anchors": ["crates/tofas/src/common.rs: Mat3 rotation"]}
{"id": "C34", "title": "angle between vectors is a number in [0,pi]", "statement": "For non-zero vectors, angle(a,b) is a number in [0,pi], symmetric, invariant under positive scaling, 0 for parallel vectors.  The angle satisfies the triangle inequality: angle(a,c) <= angle(a,b) + angle(b,c) for non-zero vectors.", "quantifier": "all pairs of non-zero vectors", "why_tests_cant": "argument of acos may leave [-1,1] by rounding for isolated vectors", "anchors": ["crates/tofas/src/common.rs: Vector::angle, normalize, dot, norm"]}
{"id": "C35", "title": "All frame matrices are proper rotations", "statement": "polar_motion_matrix, nutation_matrix, the bias, precession and bias-precession matrices, precession_nutation, celestial_to_intermediate(_from_xys), celestial_to_terrestrial are orthogonal with determinant 1, for every date and pole position (exact arithmetic).", "quantifier": "all real dates, angles and pole coordinates", "why_tests_cant": "continuum; products of up to 14 rotations", "anchors": ["crates/tofas/src/frames.rs: celestial_to_terrestrial, celestial_to_intermediate, precession_nutation, bias_and_precession, nutation_matrix", "crates/tofas/src/earth.rs: polar_motion_matrix"]}
{"id": "C36", "title": "Celestial-to-intermediate matrix points at the CIP", "statement": "For x^2+y^2<1 the third row of celestial_to_intermediate_from_xys(x,y,s) is (x, y, sqrt(1-x^2-y^2)), for every s (exact arithmetic).  In binary64 every entry is within 1.8e-14 of that matrix for a pole within 1/2 of the origin and |s| <= 1, so the third row is the pole within 1.8e-14.", "quantifier": "all x,y,s with x^2+y^2<1", "why_tests_cant": "continuum; quadrant handling in atan2 and degenerate x=y=0", "anchors": ["crates/tofas/src/frames.rs: celestial_to_intermediate_from_xys"]}
{"id": "C37", "title": "Frame matrices degenerate correctly", "statement": "nutation_matrix(e,0,0), polar_motion_matrix(0,0,0) and the precession matrix at J2000.0 are the identity; celestial_to_terrestrial = W * R3(ERA) * Q as matrix product.", "quantifier": "all obliquities / all splits of J2000.0", "why_tests_cant": "continuum", "anchors": ["crates/tofas/src/frames.rs: nutation_matrix, bias_and_precession, celestial_to_terrestrial_from_cio_components", "crates/tofas/src/earth.rs: polar_motion_matrix"]}
{"id": "C38", "title": "CIP coordinates stay inside the unit disc", "statement": "For every date within +-10 Julian centuries of J2000.0 (exact arithmetic) the pole coordinates used by celestial_to_intermediate satisfy x^2+y^2<1, so no square root of a negative number or division by zero happens. In binary64, for every split of every date within 50 centuries with parts up to 2^22 days, all entries of the matrix are finite, the computed pole satisfies x^2+y^2<1 and its z is positive.", "quantifier": "all real dates in the interval; all binary64 splits of such dates with parts up to 2^22 days, every libm accurate to 2^-52", "why_tests_cant": "continuum of dates; depends on all series terms", "anchors": ["crates/tofas/src/frames.rs: celestial_to_intermediate, xy_from_bpn, precession_nutation"]}
{"id": "C39", "title": "Series evaluation never reads outside its tables", "statement": "EarthPosVel::from, nutation, and locator::cio never index out of bounds, for any input in any arithmetic.", "quantifier": "all inputs", "why_tests_cant": "18 tables with separately declared lengths", "anchors": ["crates/tofas/src/earth.rs: EarthPosVel::from, NE0..NS2", "crates/tofas/src/frames.rs: nutation, NALS, CLS, NLS", "crates/tofas/src/locator.rs: cio, KSS, SSS, NFARG"]}
{"id": "C40", "title": "Earth velocity is the time derivative of Earth position", "statement": "For each component, the heliocentric and barycentric velocities returned by EarthPosVel::from are exactly the derivatives of the returned positions with respect to the date in days (exact arithmetic).  Over a finite time h in days between any two dates within a century of J2000, the position at the second date is the position plus h times the velocity at the first within 0.000156 h^2 AU in each coordinate (and each velocity component changes by at most 0.000311 h); the same holds for the binary64 results up to 1.54e-10 + 1.4e-12 h AU for every split of the dates, and up to 2.6e-12 + 2.3e-14 h AU for modified Julian dates.", "quantifier": "all real dates and all components", "why_tests_cant": "an analytic identity between two sums of about 900 terms", "anchors": ["crates/tofas/src/earth.rs: EarthPosVel::from"]}
{"id": "C41", "title": "Date-range warning", "statement": "EarthPosVel::from sets warning = DateOutOfRange iff the date is at least 100 Julian years from J2000.0 or not a number; the warning never changes the numbers.", "quantifier": "all dates including NaN", "why_tests_cant": "boundary and special values", "anchors": ["crates/tofas/src/earth.rs: EarthPosVel::from"]}
{"id": "C42", "title": "Series functions depend only on the total date", "statement": "In exact arithmetic EarthPosVel::from, nutation, precession_rate, mean_obliquity, bias_and_precession, cio and celestial_to_intermediate give the same result for any two splits of the same date. In binary64, two splits of one date with parts up to 2^22 days give the same nutation within 1.1e-13 and 5e-14 rad, mean obliquity within 1.2e-15 rad, precession-nutation matrix within 4.8e-13 and, within ten centuries of J2000, celestial-to-intermediate matrix within 1.8e-12; the Earth position agrees within 1.6e-10 AU within a century of J2000.", "quantifier": "all real splits", "why_tests_cant": "continuum", "anchors": ["crates/tofas/src/earth.rs: EarthPosVel::from", "crates/tofas/src/frames.rs: nutation, precession_rate, mean_obliquity, bias_and_precession, celestial_to_intermediate", "crates/tofas/src/locator.rs: cio"]}
{"id": "C43", "title": "Earth-Sun distance is plausible throughout 1900-2100", "statement": "For every date with |t|<=100 Julian years the heliocentric distance returned is between 0.95 and 1.05 AU (exact arithmetic). In exact arithmetic the range is in fact 0.982 to 1.018 AU. The same range holds in binary64 for every split of the date with parts up to 2^22 days.", "quantifier": "all real dates in 1900-2100; all binary64 splits of such dates with parts up to 2^22 days, every libm accurate to 2^-52", "why_tests_cant": "continuum of dates; worst case phase alignment of about 1100 terms", "anchors": ["crates/tofas/src/earth.rs: EarthPosVel::from", "crates/tofas/src/epv00_data.rs: E0, E1, E2"]}
{"id": "C44", "title": "EllipsoidConverter::new accepts exactly the usable ellipsoids", "statement": "new(a,f) is Ok iff 0<=f<1 and the radius is positive (so that conversions are well defined); errors are reported in the order flattening, radius, eccentricity; the polar radius used is a*(1-f).  In binary64, for a >= 0 and 0 <= f < 1, new refuses f exactly when f = 1 - k/2^53 with k even and k <= 2^26, or with k = 3 modulo 4 and k(k+1) <= 3*2^52.", "quantifier": "all a, f including NaN, zero and infinities", "why_tests_cant": "special values; f so close to 1 that 1-e2 rounds to 0", "anchors": ["crates/tofas/src/ellipsoid.rs: EllipsoidConverter::new"]}
{"id": "C45", "title": "Geodetic to geocentric is the ellipsoid normal construction", "statement": "For every accepted ellipsoid with positive radius: at height 0 the result lies on the ellipsoid (x^2+y^2)/a^2+z^2/(a(1-f))^2=1; the surface normal there is zenith(); and at height h the result is the surface point plus h times zenith() (exact arithmetic).  In binary64 on WGS84 the point returned at height 0 satisfies the equation of the ellipsoid within 2.9e-14, and the point returned at height h (up to 10000 km) is that point plus h times the zenith returned, within 60 nanometres plus 7e-16 h.", "quantifier": "all ellipsoids, longitudes, latitudes and heights", "why_tests_cant": "continuum", "anchors": ["crates/tofas/src/ellipsoid.rs: geodetic_to_geocentric, Geodetic::zenith"]}
{"id": "C46", "title": "Geodetic to geocentric never fails on an accepted ellipsoid", "statement": "For a converter returned by new, geodetic_to_geocentric never returns BadCoordinates (exact arithmetic; every angle). In binary64, when radius and flattening are numbers (not NaN), it fails for no finite latitude, whatever the longitude and height; a NaN flattening passes new, and then every conversion fails.", "quantifier": "all accepted ellipsoids and all coordinates; in binary64 all finite latitudes, every libm accurate to 2^-52", "why_tests_cant": "continuum", "anchors": ["crates/tofas/src/ellipsoid.rs: geodetic_to_geocentric"]}
{"id": "C47", "title": "Geocentric to geodetic inverts geodetic to geocentric", "statement": "For |phi|<=pi/2, -pi<elong<=pi: converting to geocentric and back returns the same longitude (off the poles, heights above -a(1-f)^2), latitude and height (exact arithmetic; for flattening at most 0.006 and heights above -a/10 within 5 f^4 (|h|/a)^3/(1+h/a)^4 + 125 f^5 (h/a)^2/(1+h/a)^3 + 2e-16 rad in latitude, so 1e-10 rad at any height and 4e-16 rad within 10 km of the WGS84 ellipsoid; exactly on the surface, on the sphere, on the equator and at the poles).", "quantifier": "all ellipsoids and coordinates in the domain", "why_tests_cant": "test samples the southern hemisphere below 10 km only; non-iterative approximation error is continuous in all inputs", "anchors": ["crates/tofas/src/ellipsoid.rs: geocentric_to_geodetic, geodetic_to_geocentric"]}
{"id": "C48", "title": "Geocentric to geodetic symmetries", "statement": "Reflecting z negates the latitude and changes nothing else, in binary64 as well; rotating about the polar axis changes only the longitude (exact arithmetic); latitude is in [-pi/2,pi/2] and longitude in (-pi,pi].", "quantifier": "all points", "why_tests_cant": "continuum and signed zeros", "anchors": ["crates/tofas/src/ellipsoid.rs: geocentric_to_geodetic"]}
{"id": "C49", "title": "Conversion to degrees is normalised and denotes the same point", "statement": "Geodetic360::from(g) has lon in [-180,180) and lat in [-90,90]; for |phi|<=pi/2 it denotes the same point as g (same geocentric position after converting back). In binary64, for |elong| <= 7 rad and every latitude between the poles except the two largest numbers below pi/2, the degrees are within 3.4e-13 (up to turns) and 1.4e-13 of the true ones and converting back gives the angles within 1e-14 and 4e-15 rad.", "quantifier": "all longitudes and all latitudes in [-pi/2,pi/2]", "why_tests_cant": "wrap-around points, including both poles", "anchors": ["crates/tofas/src/ellipsoid.rs: From<&Geodetic> for Geodetic360, From<&Geodetic360> for Geodetic"]}
{"id": "C50", "title": "Fundamental arguments are the IERS polynomials modulo a turn, reduced to one turn", "statement": "Each of l03, lp03, f03, d03, om03 is congruent to its IERS polynomial (arcseconds to radians) modulo one turn and lies strictly within one turn of zero; ve03, e03 likewise in radians. In binary64, for any libm, |t| <= 1 century: each argument is its IERS polynomial, up to whole turns, within 2.9e-12 rad (l, F, D), 3e-13 (l', Earth), 4.6e-13 (Venus), 1.5e-14 (node), 1e-17 (precession); ten times that for |t| <= 10.", "quantifier": "all real t", "why_tests_cant": "operator precedence of % matters only outside one turn", "anchors": ["crates/tofas/src/fundargs.rs: l03, lp03, f03, d03, om03, ve03, e03, pa03"]}
{"id": "C51", "title": "Sun angle result is geometrically consistent", "statement": "In exact arithmetic, for every parameter set and delta_s, compute returns: sza in [0,pi] equal to the angle between the local zenith and the Sun direction rotated by the celestial-to-terrestrial matrix; |sun_e| = AU * |earth|; tt-utc = (dat+32.184)/86400 days; ut1-utc = dut1/86400 days.  The default request is 2007-04-05 00:00:00 UTC at 120 degrees west on the equator.", "quantifier": "all parameters and time offsets", "why_tests_cant": "continuum; a transposed matrix or swapped frame still gives plausible numbers", "anchors": ["crates/tofas_extras/src/sun_angle.rs: SunAngleCalculator::new, SunAngleCalculator::compute"]}
{"id": "C52", "title": "SunAngleCalculator::new does not panic", "statement": "SunAngleCalculator::new never panics for any date accepted by GregorianDate::new, any HMS value and any finite position.", "quantifier": "all parameters", "why_tests_cant": "HMS is not validated; expect() on a Result", "anchors": ["crates/tofas_extras/src/sun_angle.rs: SunAngleCalculator::new", "crates/tofas/src/calendar.rs: HMS::new", "crates/tofas/src/delta_at.rs: delta_at"]}
{"id": "C53", "title": "Offsetting by delta_s equals shifting the clock", "statement": "In exact arithmetic, compute(d) for time of day s gives the same times, Sun vector and zenith angle as compute(0) for time of day s+d seconds, whenever the two share the same delta AT. In binary64 two such runs report dates within 6e-11 days, the rotation angle within 2.6e-10 rad, Earth and Sun vectors within 3.8e-12 AU and 84 m, and zenith angles in [0.01, pi-0.01] within 1.9e-7 rad.", "quantifier": "all parameters and offsets", "why_tests_cant": "continuum", "anchors": ["crates/tofas_extras/src/sun_angle.rs: SunAngleCalculator::compute"]}
{"id": "C54", "title": "Displayed dates are unambiguous and sort chronologically", "statement": "Distinct dates print as distinct strings; for valid dates with years 0..9999 the string is 10 characters of the form YYYY-MM-DD and string order is chronological order. Every date, valid or not, prints as year, month and day joined by hyphens, the year in at least 4 characters and month and day in at least 2, sign included, with leading zeros only where the width needs them.", "quantifier": "all i32 dates / all valid dates", "why_tests_cant": "pairs of dates; padding of negative and long years", "anchors": ["crates/tofas/src/calendar.rs: Display for GregorianDate"]}
{"id": "C55", "title": "Displayed times are well formed", "statement": "For every HMS produced by from_fraction_of_day the displayed string is HH:MM:SS.ffffff, 15 characters, with the seconds field below 60.  A date with a time of day prints as 26 characters YYYY-MM-DD HH:MM:SS.ffffff, and sorting such strings by bytes never puts a later time first.  Seconds that are not finite print as NaN, inf or -inf filled with zeros to nine characters.", "quantifier": "all binary64 fractions", "why_tests_cant": "rounding of seconds to 6 digits", "anchors": ["crates/tofas/src/calendar.rs: Display for HMS"]}
{"id": "C56", "title": "Scan loop terminates and visits exactly the requested offsets", "statement": "With scan on and a positive step, the tool evaluates compute at delta0, delta0+step, ... while <= delta1 and then stops; without scan it evaluates at most once.", "quantifier": "all delta0, delta1, delta_step", "why_tests_cant": "unbounded iteration; non-positive or absorbed steps loop forever", "anchors": ["crates/tofas_extras/examples/sun_angle_tool.rs: main"]}
{"id": "C57", "title": "CIO locator depends on x,y only through -xy/2", "statement": "In exact arithmetic cio(tt,x,y) + x*y/2 is independent of x and y, and is a function of the total date only.  In binary64 the locators at two poles for one date differ by half the difference of the products of coordinates within 4e-12 rad, or 3.4e-16 rad for a modified Julian date.", "quantifier": "all dates, x, y", "why_tests_cant": "continuum", "anchors": ["crates/tofas/src/locator.rs: cio"]}
{"id": "C58", "title": "Nutation and obliquity magnitudes", "statement": "For every date within one Julian century of J2000.0, |dpsi| < 20 arcsec, |deps| < 11 arcsec and the mean obliquity is between 23.4 and 23.5 degrees (exact arithmetic). The same holds in binary64 for every split of the date with parts up to 2^22 days.", "quantifier": "all real dates in the interval; all binary64 splits of such dates with parts up to 2^22 days, every libm accurate to 2^-52", "why_tests_cant": "continuum; worst-case alignment of 77 terms", "anchors": ["crates/tofas/src/frames.rs: nutation, mean_obliquity"]}
{"id": "C59", "title": "Earth position is the sum over all rows of its tables", "statement": "In exact arithmetic the heliocentric and barycentric positions are the trigonometric sums T^0, T*T^1, T^2 over every row of the tables E0,E1,E2 (plus S0,S1,S2), rotated from the ecliptic series frame to ICRF; the declared term counts NE*, NS* drop only zero rows.", "quantifier": "all real dates", "why_tests_cant": "a wrong count or index drops terms far below any test tolerance", "anchors": ["crates/tofas/src/earth.rs: EarthPosVel::from, NE0..NS2", "crates/tofas/src/epv00_data.rs"]}
{"id": "C60", "title": "Nutation is the IAU 2000B series", "statement": "In exact arithmetic nutation(tt) is the sum over the 77 rows of (a+bt) sin arg + c cos arg (and the cosine series for obliquity) in units of 0.1 microarcsecond, with Delaunay arguments linear in time, plus the fixed planetary offsets; the reductions modulo a turn have no effect.", "quantifier": "all real dates", "why_tests_cant": "continuum of dates, 77 terms, reduction of angles with either sign", "anchors": ["crates/tofas/src/frames.rs: nutation, NALS, CLS"]}
{"id": "C61", "title": "CIO locator and terrestrial matrix are the IERS 2003 ones", "statement": "In exact arithmetic cio(tt,x,y) = S(t) - xy/2 with S the published series evaluated at the un-reduced IERS fundamental arguments; and for dates within 50 centuries celestial_to_terrestrial is W(xp,yp,0) R3(ERA) Q(x,y,s) with (x,y) the pole of N P B.", "quantifier": "all real dates, pole coordinates", "why_tests_cant": "continuum; 66 terms; mistakes in the reduction of the arguments would be invisible or not depending on t", "anchors": ["crates/tofas/src/locator.rs: cio", "crates/tofas/src/fundargs.rs", "crates/tofas/src/frames.rs: celestial_to_terrestrial"]}
{"id": "C62", "title": "Displayed positions are well formed", "statement": "For finite latitude, longitude and height with |lat|<=90, |lon|<=180, |height|<=99999 the displayed position is 32 characters sDD.dddddd,sDDD.dddddd,sDDDDD.dd; each number is within half a unit of the last digit of the field it shows.  A coordinate that is not finite prints as NaN or a signed inf, filled with zeros to the width of its field, and leaves the other fields as they are.", "quantifier": "all binary64 positions", "why_tests_cant": "padding, signs and rounding over all floats", "anchors": ["crates/tofas/src/ellipsoid.rs: Display for Geodetic360"]}
{"id": "C63", "title": "Vector operations", "statement": "In exact arithmetic neg, scale, add, sub act componentwise, dot is the scalar product, norm the Euclidean length and normalize divides by it; norm is zero only for the zero vector, is multiplicative for scaling, satisfies the triangle and Cauchy-Schwarz inequalities, and a normalized non-zero vector has length one. In binary64 add and dot are symmetric and norm is even bit for bit for every input, and for components up to 2^500 and length at least 2^-400 norm has relative error at most 3*2^-53 and every coordinate of normalize is within 2^-50 of the exact one. In binary64, coordinates up to 2^500: forward error bounds of dot (four roundings), add, sub, scale (one rounding) and neg (exact).", "quantifier": "all real vectors; all binary64 vectors in the stated range", "why_tests_cant": "continuum of vectors; the relative error bound covers every exponent combination", "anchors": ["crates/tofas/src/common.rs: Vector for Vec3"]}
{"id": "C64", "title": "Accuracy of the Earth rotation angle and of the constants", "statement": "In binary64 the literals for pi, a turn and an arc second are within one unit in the last place of the true values. For every two-part UT1 date with parts of magnitude at most 2^22 days, in any split, the binary64 Earth rotation angle is within 1.6e-10 rad, up to whole turns, of 2 pi (0.7790572732640 + 1.00273781191135448 d) evaluated exactly; for a modified Julian date split (2400000.5, x), |x| <= 100000, within 7e-12 rad.", "quantifier": "all pairs of finite binary64 numbers in the stated ranges, every libm", "why_tests_cant": "2^120 date pairs; rounding of the remainder, of the sum of fractions and of the final reduction interact, and the worst split is not known in advance", "anchors": ["crates/tofas/src/earth.rs: rotation_angle", "crates/tofas/src/common.rs: anp, TWO_PI", "crates/tofas/src/common.rs: AS2R"]}
{"id": "C65", "title": "Accuracy of the binary64 nutation", "statement": "If libm's sin and cos are accurate to 2^-52, then for every two-part TT date with parts of magnitude at most 2^22 days, in any split, nutation in binary64 does not panic and returns angles within 5.3e-14 rad (longitude) and 2.5e-14 rad (obliquity) of the exact IAU 2000B luni-solar series with its planetary bias; for a modified Julian date split (2400000.5, x), |x| <= 100000, within 6.7e-16 and 2.9e-16 rad.", "quantifier": "all pairs of finite binary64 numbers in the stated ranges, every libm of the stated accuracy", "why_tests_cant": "the error of 77 terms with reduced arguments varies from date to date and from split to split; a test sees a few dates", "anchors": ["crates/tofas/src/frames.rs: nutation", "crates/tofas/src/fundargs.rs"]}
{"id": "C66", "title": "Accuracy of the binary64 CIO locator", "statement": "If libm's sin and cos are accurate to 2^-52, then for every two-part TT date with parts of magnitude at most 2^22 days and all x, y in [-1, 1], cio in binary64 does not panic and is within 2e-12 rad of the exact IAU 2000 series minus x y / 2; for a modified Julian date split (2400000.5, d), |d| <= 100000, within 1.7e-16 rad.", "quantifier": "all finite binary64 dates and pole coordinates in the stated ranges, every libm of the stated accuracy", "why_tests_cant": "rounding errors of 66 terms and of a fifth-degree polynomial depend on the date and the split", "anchors": ["crates/tofas/src/locator.rs: cio", "crates/tofas/src/fundargs.rs"]}
{"id": "C67", "title": "Accuracy of the binary64 Earth ephemeris", "statement": "If libm's sin and cos are accurate to 2^-52, then for every two-part TDB date within 100 Julian years of J2000 with parts of magnitude at most 2^22 days, in any split, EarthPosVel::from in binary64 does not panic; every coordinate of the heliocentric and barycentric positions is within 7.7e-11 AU of the exact series over all table rows, and every coordinate of the velocities within 1.4e-12 AU/day of the derivative of that series. For a modified Julian date split the bounds are 1.3e-12 AU and 2.3e-14 AU/day.", "quantifier": "all pairs of finite binary64 numbers in the stated range, every libm of the stated accuracy", "why_tests_cant": "1951 terms per position, each rounded several times; which dates and splits are worst is unknown, and tests compare with another floating-point program", "anchors": ["crates/tofas/src/earth.rs: EarthPosVel::from", "crates/tofas/src/epv00_data.rs"]}
{"id": "C68", "title": "Accuracy and near-orthonormality of the binary64 frame matrices", "statement": "If libm's sin and cos are accurate to 2^-52, then for every two-part TT date with parts of magnitude at most 2^22 days, in any split, precession_nutation in binary64 does not panic, every entry is within 2.4e-13 of the exact product N P B of the nutation, precession and bias matrices, and its rows are orthonormal to 5e-13; for a modified Julian date split (2400000.5, d), |d| <= 100000, the bounds are 5e-14 and 1.1e-13. The bias, precession and bias-precession matrices are within 1.2e-14, 4e-14 and 5.5e-14. polar_motion_matrix is within 1.2e-14 of its exact product for all finite arguments.", "quantifier": "all finite binary64 dates in the stated range and all finite pole coordinates, every libm of the stated accuracy", "why_tests_cant": "a product of ten rounded rotations whose angles carry the rounding of a 77-term series; tests compare a few dates with another floating-point program", "anchors": ["crates/tofas/src/frames.rs: precession_nutation, bias_and_precession, nutation_matrix", "crates/tofas/src/earth.rs: polar_motion_matrix"]}
{"id": "C69", "title": "The celestial-to-terrestrial matrix end to end, exact and in binary64", "statement": "In exact arithmetic, within 50 Julian centuries of J2000, celestial_to_intermediate is the IERS matrix Q(X,Y,s) with (X,Y) the third row of nutation x precession x bias and s the IAU 2000 CIO series minus XY/2, and celestial_to_terrestrial is W(xp,yp,0) R3(ERA) Q. In binary64, for every libm accurate to 2^-52 (2^-51 for atan2, up to a turn): for every split with parts up to 2^22 days of TT within 10 centuries of J2000, celestial_to_intermediate does not panic and every entry is within 8.7e-13; with any UT1 of that size and any finite pole coordinates every entry of celestial_to_terrestrial is within 3.3e-10. With modified Julian date splits, |d| <= 100000, the bounds are 2e-13 and 1.45e-11. The matrix of a given pole with x^2+y^2 <= 1/4 and |s| <= 1 is within 1.8e-14, also where x^2+y^2 underflows. The rows of the binary64 celestial-to-terrestrial matrix are orthonormal within 1.9e-12.", "quantifier": "all finite binary64 dates in the stated ranges and all finite pole coordinates, every libm of the stated accuracy", "why_tests_cant": "the whole chain of series, rotations, arctangents and a square root near zero is involved; the worst dates are unknown and underflowing poles are never tried", "anchors": ["crates/tofas/src/frames.rs: celestial_to_terrestrial, celestial_to_intermediate, celestial_to_intermediate_from_xys, celestial_to_terrestrial_from_cio_components"]}
{"id": "C70", "title": "WGS84 geodetic to geocentric in binary64: accuracy", "statement": "With a libm accurate to 2^-52, for every finite longitude and latitude in radians and every height within 10000 km of the ellipsoid, geodetic_to_geocentric on WGS84 succeeds in binary64 and each coordinate is within 3e-8 m of the textbook position; starting from degrees (up to 360 either way) the position is within 2e-7 m and zenith() within 5e-15. More generally, on every ellipsoid with flattening in [0,1/8] and radius a in [2^-400,2^400], at every longitude, latitude and height |h| <= 2^400, each coordinate is within 5e-15 (a+|h|).", "quantifier": "all finite angles, all heights in the range", "why_tests_cant": "rounding errors vary over the continuum; the tests compare one point with a 1e-6 m tolerance or looser", "anchors": ["crates/tofas/src/ellipsoid.rs: geodetic_to_geocentric, zenith, From<Geodetic360> for Geodetic"]}
{"id": "C71", "title": "Binary64 TAI-UTC is within 1.6e-14 s of the exact formula", "statement": "delta_at in binary64, for every accepted date from 1960 on and every finite fraction of day in [0,1], returns a finite number within 1.6e-14 s of the exact (unrounded) value of the formula offset + (MJD + fraction - origin) * rate of the step that the code uses (the one in force a month earlier, see C21); in a month in which no step takes effect it is within 1.6e-14 s of TAI-UTC itself.", "quantifier": "all platforms' libm, both build profiles, all accepted dates 1960 <= year < 178956970, all finite binary64 fractions in [0,1]", "why_tests_cant": "The error bound must hold for every fraction of every day of the 12 years with a drifting UTC; the reference values of a test are themselves printed decimals, so a test tolerance hides the last digits, and a reordering of the formula that loses digits for some days only would pass.", "anchors": ["crates/tofas/src/delta_at.rs:68-101"]}
{"id": "C72", "title": "End-to-end binary64 accuracy of the Sun angle calculator", "statement": "For every accepted date from 1901 to 2098, every time of day (0<=h<24, 0<=m<60, 0<=s<60 finite), every place with longitude and latitude up to 360 degrees and height up to 1e7 m, and every offset up to 360 days, SunAngleCalculator::new and compute succeed in binary64 and in exact arithmetic on the same numbers, and: the first parts of all dates agree exactly, the second parts to 1e-11 (UTC), 2e-11 (TAI, UT1), 3e-11 (TT) days; TAI-UTC to 1.7e-14 s; the rotation angle to 1.3e-10 rad up to whole turns; the Earth vector to 1.9e-12 AU per coordinate; the position to 2e-7 m; the Sun vector to 42 m per coordinate; the argument given to acos to 5.9e-10 of the cosine of the exact angle. For exact angles in [0.01, pi-0.01] the angle returned is finite and within 9.1e-8 rad, and within 6e-10/sin(angle) rad; at any angle within 4.3e-5 rad whenever the argument of acos is in [-1,1].", "quantifier": "all libm with error at most one unit in the last place, both profiles, all binary64 inputs in the stated ranges", "why_tests_cant": "The project has no reference for the whole calculation, and a single comparison cannot bound rounding over a continuum of times and places; a lossy rewrite (summing the two-part date before use, single-precision constant) changes digits only for some inputs.", "anchors": ["crates/tofas_extras/src/sun_angle.rs: SunAngleCalculator::new, SunAngleCalculator::compute"]}
{"id": "C73", "title": "Accuracy of the binary64 geocentric to geodetic conversion on WGS84", "statement": "For every point 5750 km to 6500000 km from the centre, geocentric_to_geodetic on the WGS84 converter gives in binary64 a latitude within 1.7e-14 rad and a height within 2.4e-15 times the distance from the centre of what its formulas give in exact arithmetic, also where rounding makes it take the other branch near the axis, and a longitude within 2^-51 rad up to whole turns unless 0 < x^2+y^2 < 1e-300. Measured against the geodetic coordinates themselves (textbook map from longitude, latitude, height to the point), for heights from -500 km to 6490000 km: latitude within t + 1.8e-14 rad and height within (|h|+1.01a) 2.5e-15 m, where t = 5 f^4 (|h|/a)^3/(1+h/a)^4 + 125 f^5 (h/a)^2/(1+h/a)^3 is at most 1e-10; within 10 km of the ellipsoid latitude within 2e-14 rad and height within 1.7e-8 m.", "quantifier": "all libm with atan and atan2 accurate to one unit in the last place, all binary64 coordinates in the stated range", "why_tests_cant": "The error of a fourteen-step formula with cancellation and two branches has to be bounded for all points; a test samples a few points, usually with exact-looking coordinates far from the branch boundary.", "anchors": ["crates/tofas/src/ellipsoid.rs: EllipsoidConverter::geocentric_to_geodetic"]}
{"id": "C74", "title": "Geodetic coordinates on WGS84 exist and are unique, and geocentric to geodetic to geocentric returns to the point", "statement": "Every point 5900 km or more from the centre of the Earth has a geodetic longitude, latitude and height (500 km below the ellipsoid or higher); no two triples with heights above -5700 km give the same point, except that the longitude is arbitrary on the axis. In binary64, for every finite point from 5900 to 6490000 km from the centre, the computed geodetic coordinates are those of the point within 1e-10 rad and 2.5e-15 of the distance; converting them back gives each Cartesian coordinate within 2 mm up to 16300 km from the centre, and within 0.2 micrometres for points within 10 km of the ellipsoid.", "quantifier": "all finite binary64 points with distance in the stated range; all real coordinates for existence and uniqueness; every mathematical library accurate to 2^-52 (2^-51 for acos and atan2)", "why_tests_cant": "existence, uniqueness and error bounds range over a three dimensional continuum of points, including points on and near the axis and the underflow region of x^2+y^2; tests sample a few.", "anchors": ["crates/tofas/src/ellipsoid.rs: EllipsoidConverter::geodetic_to_geocentric, geocentric_to_geodetic"]}
{"id": "C75", "title": "Geodetic to geocentric to geodetic returns to the place on WGS84", "statement": "In binary64, for every finite geodetic longitude, latitude in [-pi/2, pi/2] and height from 400 km below to 10000 km above the WGS84 ellipsoid, geodetic_to_geocentric succeeds and geocentric_to_geodetic of its result gives the latitude within 1.1e-10 rad and the height within 0.1 micrometres, and, where the cosine of the latitude is at least 1e-6, the longitude (up to whole turns) within 1.2e-14 rad over the cosine of the latitude; within 9999 m of the ellipsoid the latitude is within 3.1e-14 rad; within 10 km the height is within 14.2 nanometres. With a libm whose sine and cosine are accurate to a relative error of 2^-52 and whose atan2 returns the principal argument, a longitude in [-pi, pi] comes back within 1.1e-15 rad at every place within 10 km of the ellipsoid, poles included, with no turn added.", "quantifier": "all finite binary64 longitudes, latitudes and heights in the stated ranges; every mathematical library accurate to 2^-52 (2^-51 for acos and atan2)", "why_tests_cant": "the bound holds for every place including the poles and for longitudes outside (-pi, pi]; a round trip test samples a grid.", "anchors": ["crates/tofas/src/ellipsoid.rs: EllipsoidConverter::geodetic_to_geocentric, geocentric_to_geodetic"]}
{"id": "C76", "title": "The Sun angle tool prints the numbers of the exact calculation", "statement": "For flags that give a calendar date of 1901-2098, a time of day, a place with |latitude|, |longitude| <= 360 degrees and |height| <= 10000 km and offsets within 360 days, sun_angle_tool without --scan prints the fourteen lines of the report in which every printed number is the number of the exact calculation at the requested time plus --delta0, up to rounding to the printed decimals and a stated tolerance; with --scan it prints a line with the interval and step and the reports for delta0, delta0 + step, ... up to delta1 in order; leftover arguments and dates outside the calendar give an error and no output.", "quantifier": "all flags in the stated ranges, both build profiles, every way of breaking rounding ties in the formatter, every mathematical library accurate to 2^-52 (2^-51 for acos and atan2)", "why_tests_cant": "the claim joins parsing of defaults, the whole astronomical calculation in binary64, the loop and the text formatting for every date, place and step; a test compares a few outputs.", "anchors": ["crates/tofas_extras/examples/sun_angle_tool.rs: main", "crates/tofas_extras/src/sun_angle.rs: SunAngleResultBundle (Display), SunAngleCalculator::new, compute"]}
{"id": "C77", "title": "The Sun angle tool reports for the requested time by default", "statement": "Without --delta0, --delta1 and --scan, sun_angle_tool reports for the date and time given on the command line.", "quantifier": "all flags without --scan and without offsets", "why_tests_cant": "the default offset of ten minutes shows only in the second line of the report and in numbers that look plausible.", "anchors": ["crates/tofas_extras/examples/sun_angle_tool.rs: main"]}
{"id": "C78", "title": "The Sun angle tool reports bad times as errors and never ends silently", "statement": "Flags that do not describe a time of day give an error message, and a run that succeeds prints at least one report.", "quantifier": "all flags", "why_tests_cant": "needs the inputs outside the tested ranges.", "anchors": ["crates/tofas_extras/examples/sun_angle_tool.rs: main", "crates/tofas_extras/src/sun_angle.rs: SunAngleCalculator::new"]}
{"id": "C79", "title": "julian_tool gregorian prints the Julian date of the date and time", "statement": "For every date of the Gregorian calendar in the years 0 to 9999 and every time of day (by default 12:00:00), julian_tool gregorian prints the date, the time, the Julian date within half a unit of the sixth decimal plus 5e-10 and the fraction of day within half a unit of the sixth decimal plus 1e-15; a missing --year, --month or --day and a date outside the calendar give an error and no output.", "quantifier": "all dates of the years 0 to 9999, all hours, minutes and finite non-negative seconds below 60; for the errors all arguments", "why_tests_cant": "3.6 million days times every binary64 time of day.", "anchors": ["crates/tofas_extras/examples/julian_tool.rs: gregorian"]}
{"id": "C80", "title": "julian_tool julian prints the date and time of a Julian date", "statement": "For every pair of binary64 numbers of magnitude at most 2^51 whose sum is a Julian date of the years 0 to 9999, julian_tool julian prints the sum, a calendar date and a time of day (hour below 24) that denote the instant, and it rejects everything that is not a Julian date in range.", "quantifier": "all pairs of binary64 numbers", "why_tests_cant": "the instants just before midnight and the values that are not numbers are the exceptions.", "anchors": ["crates/tofas_extras/examples/julian_tool.rs: julian", "crates/tofas/src/calendar.rs: GregorianDate::from_julian, HMS::from_fraction_of_day"]}
{"id": "C81", "title": "Mean obliquity and precession-rate corrections, exact and in binary64", "statement": "In exact arithmetic mean_obliquity is the IAU 1980 polynomial 84381.448 - 46.8150 t - 0.00059 t^2 + 0.001813 t^3 arcseconds and precession_rate is (-0.29965 t, -0.02524 t) arcseconds, t in Julian centuries of TT from J2000. In binary64, for any libm and every split with parts up to 2^22 days they are within 6e-16, 3.2e-19 and 2.7e-20 rad; for modified Julian date splits with |d| <= 100000, within 1.9e-16, 4.3e-21 and 3.6e-22 rad.", "quantifier": "all real dates; all finite binary64 dates in the stated ranges, any libm", "why_tests_cant": "the split of the date changes the rounding; a bound over all splits needs an error analysis", "anchors": ["crates/tofas/src/frames.rs: mean_obliquity, precession_rate"]}
{"id": "C82", "title": "The Earth follows the published Kepler ellipse", "statement": "From 1900 to 2100, in exact arithmetic, the heliocentric position computed by EarthPosVel::from is that of an ellipse with a = 1.000001018 AU, e = 0.0167086, perihelion at 102.93735 degrees, mean longitude of the IERS Conventions and obliquity 84381.409 arcseconds, obtained from Kepler's equation, within 0.00065 AU in each equatorial coordinate. The distance is a(1 - e cos u) within 0.00113 AU, and the sine of the Sun's declination never exceeds 0.399. In binary64, for every split with parts up to 2^22 days, the same holds within 0.00066 AU in each coordinate, 0.00114 AU in distance and 0.3991 for the sine of the declination.", "quantifier": "all TDB dates with |t| <= 100 Julian years, exact reals; all binary64 splits of such dates with parts up to 2^22 days, every libm accurate to 2^-52", "why_tests_cant": "a wrong digit in one of 1500 table rows or a swapped axis shows up only at some dates; a physical reference for all dates needs a proof", "anchors": ["crates/tofas/src/earth.rs: EarthPosVel::from", "crates/tofas/src/epv00_data.rs"]}
{"id": "C83", "title": "The Earth's speed", "statement": "From 1900 to 2100, in exact arithmetic, the speed of the Earth computed by EarthPosVel::from, relative to the Sun and to the barycentre, lies between 0.0168 and 0.0176 AU per day. In binary64, for every split with parts up to 2^22 days, the speeds lie between 0.01679 and 0.01761 AU per day.", "quantifier": "all TDB dates with |t| <= 100 Julian years, exact reals; all binary64 splits of such dates with parts up to 2^22 days, every libm accurate to 2^-52", "why_tests_cant": "a unit error or a wrong sign in one derivative term is visible only at some dates", "anchors": ["crates/tofas/src/earth.rs: EarthPosVel::from"]}
{"id": "C84", "title": "The Sun stays near the barycentre", "statement": "From 1900 to 2100, in exact arithmetic, the difference of the barycentric and the heliocentric Earth vectors computed by EarthPosVel::from is at most 0.016 AU in position and 0.000015 AU per day in velocity. In binary64, for every split with parts up to 2^22 days, the bounds are 0.01601 AU and 0.00001501 AU per day.", "quantifier": "all TDB dates with |t| <= 100 Julian years, exact reals; all binary64 splits of such dates with parts up to 2^22 days, every libm accurate to 2^-52", "why_tests_cant": "the extremes are reached only when the giant planets align", "anchors": ["crates/tofas/src/earth.rs: EarthPosVel::from"]}
{"id": "C85", "title": "Nutation agrees with the textbook four-term formulas", "statement": "Within a Julian century of J2000.0, in exact arithmetic, the nutation in longitude and in obliquity computed by nutation differ from the four-term low-precision formulas of the textbooks (node, twice the mean longitudes of the Sun and of the Moon, twice the node) by at most 0.55 and 0.15 arcseconds. In binary64, for every split with parts up to 2^22 days, the bounds are 0.551 and 0.151 arcseconds.", "quantifier": "all TT dates with |t| <= 1 Julian century, exact reals; all binary64 splits of such dates with parts up to 2^22 days, every libm accurate to 2^-52", "why_tests_cant": "a wrong sign, amplitude or argument in one of the main terms shows at some phases only", "anchors": ["crates/tofas/src/frames.rs: nutation"]}
{"id": "C86", "title": "The celestial pole agrees with the leading terms of the IERS series", "statement": "Within a Julian century of J2000.0, in exact arithmetic, the X and Y coordinates of the pole in the third row of the matrix of precession_nutation differ by at most 1 arcsecond from the precession polynomial and the two largest periodic terms published in the IERS Conventions.  The locator s of the celestial intermediate origin equals -xy/2 plus the leading terms of the IERS series (polynomial to t^3 and the two node terms) within 0.001 arcsec, same dates. In binary64, for every split with parts up to 2^22 days, X and Y are within 1.001 arcseconds.", "quantifier": "all TT dates with |t| <= 1 Julian century, exact reals; all binary64 splits of such dates with parts up to 2^22 days, every libm accurate to 2^-52", "why_tests_cant": "an error in the order or the sign of one rotation can be small at the tested dates", "anchors": ["crates/tofas/src/frames.rs: precession_nutation, PrecessionNutation::from_tt, bias_and_precession, nutation"]}
{"id": "C87", "title": "The Sun zenith angle agrees with the Astronomical Almanac", "statement": "For every place, date and time from 1900 to 2100, the solar zenith angle returned by SunAngleCalculator equals the one given by the low-precision formulas of the Astronomical Almanac (mean longitude, mean anomaly, equation of the centre, obliquity) with mean sidereal time after Meeus, within 0.143 degrees. The same holds for the binary64 program with any accurate libm when the Sun is at least 1.2 degrees from zenith and nadir.", "quantifier": "all accepted dates, times of day, offsets in seconds and positions in degrees with the instant within 36524 days of 2000-01-01 12h UT; binary64: usual inputs (1901-2098), every libm accurate to 2^-51", "why_tests_cant": "The whole chain from civil date to zenith angle (calendar, leap seconds, time scales, Earth series, precession, nutation, CIO, Earth rotation, polar motion, geodetic zenith) is compared with an independent textbook route over two centuries and the whole globe; a test can only compare single instants.", "anchors": ["crates/tofas_extras/src/sun_angle.rs: SunAngleCalculator::new, SunAngleCalculator::compute", "crates/tofas/src/earth.rs", "crates/tofas/src/frames.rs", "crates/tofas/src/locator.rs", "crates/tofas/src/delta_at.rs"]}
{"id": "C88", "title": "Outside the tropics the Sun never stands overhead", "statement": "For a request whose moment is within 36524 days of 2000-01-01 12h UT and whose latitude is in [-90, 90] degrees, the zenith angle returned by SunAngleCalculator::compute is at least |latitude| - 23.6 degrees and at most 180 - |latitude| + 23.6 degrees (exact arithmetic). In binary64 the same holds, and the angle is finite, for dates 1901-2098 and latitudes of at least 25 degrees north or south.", "quantifier": "all dates, times, offsets, places in range", "why_tests_cant": "continuum of places and times; a swapped latitude and longitude or a wrong frame shows only at some of them", "anchors": ["crates/tofas_extras/src/sun_angle.rs: SunAngleCalculator::compute"]}
{"id": "C89", "title": "Time order survives binary64 rounding", "statement": "Two binary64 dates that share their larger part keep that part, and their order, under every time-scale conversion (parts and offsets up to 1e15). SunAngleCalculator::compute with the same request and two offsets: the later offset never gives an earlier UTC, TAI, TT or UT1, and gives a strictly later one as soon as the offsets differ by 6 microseconds.", "quantifier": "all dates 1901-2098, all pairs of offsets up to 360 days", "why_tests_cant": "rounding at every ulp of the date; needs all pairs", "anchors": ["crates/tofas/src/time.rs", "crates/tofas_extras/src/sun_angle.rs: SunAngleCalculator::compute"]}
{"id": "C90", "title": "The zenith angle never changes faster than the Earth turns", "statement": "For one request and two offsets whose moments are within 36524 days of 2000-01-01 12h UT, the two zenith angles returned by SunAngleCalculator::compute differ by at most 0.0042 degrees per second between the offsets (exact arithmetic). In binary64, for dates 1901-2098 and latitudes of at least 25 degrees north or south, both angles are finite and differ by at most that plus 2e-7 radians.", "quantifier": "all requests, all pairs of offsets in range", "why_tests_cant": "no jump at any of the uncountably many moments; a test samples some", "anchors": ["crates/tofas_extras/src/sun_angle.rs: SunAngleCalculator::compute", "crates/tofas/src/frames.rs", "crates/tofas/src/locator.rs", "crates/tofas/src/earth.rs"]}
{"id": "C91", "title": "Day and night between 65 south and 65 north", "statement": "For latitudes between -65 and 65 degrees, in every 24 hours between 1900 and 2100 there is a moment at which compute returns a zenith angle of at most 89.7 degrees, one of at least 90.3 degrees, and one of exactly 90 degrees (exact arithmetic). In binary64, for the same latitudes, in every 24 hours and a second there are whole seconds with at most 89.75 and at least 90.25 degrees.", "quantifier": "all places in the band, all 24-hour spans", "why_tests_cant": "existential inside universal over a continuum of places and days", "anchors": ["crates/tofas_extras/src/sun_angle.rs: SunAngleCalculator::compute"]}
{"id": "C92", "title": "Midnight sun and polar night", "statement": "For every accepted request with a year from 1901 to 2098, a latitude phi from -90 to 90 degrees and a moment (clock time plus offset) within the requested date, compute succeeds. If the date is in June the zenith angle lies between 21.1 - phi and 158.9 - phi degrees; if it is in December, between 21.1 + phi and 158.9 + phi degrees. So beyond latitude 70 the Sun never sets in the June or December of that hemisphere's summer and never rises in the winter one. In binary64 the same bounds hold for the usual inputs at latitudes of 25 degrees or more, north or south.  From 23 March to 20 September the zenith angle lies strictly between -phi and 180 - phi degrees, and from 25 September to 18 March between phi and 180 + phi degrees: the Sun does not set at the North Pole and does not rise at the South Pole in the former half-year, and conversely in the latter (binary64 as before).", "quantifier": "all dates in June and December of 1901-2098, all times of day, all places", "why_tests_cant": "A test samples a few dates and places; the bound must hold at every minute of 12000 dates at every longitude.", "anchors": ["crates/tofas_extras/src/sun_angle.rs: SunAngleCalculator::new, compute", "crates/tofas/src/calendar.rs: to_julian", "crates/tofas/src/earth.rs: EarthPosVel::from", "crates/tofas/src/frames.rs: celestial_to_terrestrial"]}
{"id": "C93", "title": "The Earth is nearest the Sun in January and farthest in July", "statement": "For every accepted request with a year from 1901 to 2098 and a moment within the requested date, the Earth vector in the result of compute has length at most 0.987 astronomical units if the date is in January and at least 1.0134 if it is in July. In binary64, for the usual inputs, the returned vector is finite and its length obeys the bounds 0.98701 and 1.01339.", "quantifier": "all dates in January and July of 1901-2098, all times of day", "why_tests_cant": "Tests compare single dates; a drift of the anomaly or a wrong calendar term would show only in other years.", "anchors": ["crates/tofas_extras/src/sun_angle.rs: SunAngleCalculator::compute", "crates/tofas/src/earth.rs: EarthPosVel::from", "crates/tofas/src/calendar.rs: to_julian"]}
{"id": "C94", "title": "Moving over the ground moves the Sun by no more than the angle moved", "statement": "Over any arithmetic, two accepted requests for the same date and time give results that agree in every field but the position and the zenith angle, and in the zenith angle as well when latitude and longitude agree (the height does not matter). In exact arithmetic, within 36524 days of noon UT of 2000 January 1: the two zenith angles differ by at most the angle between the two verticals and add up to at least that angle; a change of latitude changes the zenith angle by at most as many degrees; at the antipodes the zenith angle is the supplement; whole turns of longitude change nothing. In binary64, for the usual inputs at two places of latitude 25 to 90 degrees north or south, the two zenith angles are finite and obey the two bounds, and the antipodal relation, within 2e-7 rad.", "quantifier": "all pairs of places, all dates and times", "why_tests_cant": "The relation concerns pairs of runs, and equality must hold for every pair of places.", "anchors": ["crates/tofas_extras/src/sun_angle.rs: SunAngleCalculator::new, compute", "crates/tofas/src/ellipsoid.rs: zenith", "crates/tofas/src/common.rs: angle"]}
{"id": "C95", "title": "Solar time: the Sun is up at local noon and down at local midnight", "statement": "There are a declination and an equation of time, functions of the moment alone and bounded by 23.46 and 4.43 degrees from 1900 to 2100, such that for every accepted request the zenith angle returned by compute is, within 0.143 degrees, the one of the spherical triangle with this declination and with the hour angle (UT - 12h) * 15 degrees per hour + east longitude + equation of time. Hence between latitudes -65 and 65, at local mean noon (UT plus four minutes per degree of east longitude) the zenith angle is at most 88.8 degrees and at local mean midnight at least 91.2 degrees, on every day. In binary64 the noon and midnight bounds hold for the usual inputs at latitudes of 25 to 65 degrees north or south. At all latitudes from -65 to 65 the binary64 angle at local noon and midnight is acos of a finite number, and when that number is in [-1,1] the angle is at most 88.81 or at least 91.19 degrees.", "quantifier": "all places in the band, all days from 1900 to 2100", "why_tests_cant": "Every day and every longitude is covered, with one declination and one equation of time for all places; tests sample.", "anchors": ["crates/tofas_extras/src/sun_angle.rs: SunAngleCalculator::new, compute", "crates/tofas/src/earth.rs: rotation_angle", "crates/tofas/src/frames.rs: celestial_to_terrestrial"]}
{"id": "C96", "title": "Accuracy of the binary64 geocentric to geodetic conversion on any ellipsoid of flattening up to 0.006", "statement": "EllipsoidConverter::new accepts in binary64 every finite equatorial radius a from 1e-6 to 1e12 and flattening f from 0 to 0.006. For every finite point from 0.9 a to 1000 a from the centre, geocentric_to_geodetic then gives a latitude within 1.8e-14 rad and a height within 3e-15 times the distance from the centre of what its formulas give in exact arithmetic on the same a and f, also where rounding makes it take the other branch near the axis, and a longitude within 2^-51 rad up to whole turns unless 0 < x^2+y^2 < 1e-300. Measured against the geodetic coordinates themselves (textbook map from longitude, latitude, height to the point), for heights from -a/12 to 990 a: latitude within t + 1.9e-14 rad and height within (|h|+1.01a) 3.1e-15, where t = 5 f^4 (|h|/a)^3/(1+h/a)^4 + 125 f^5 (h/a)^2/(1+h/a)^3 is at most 1e-9; within a/600 of the ellipsoid latitude within 2.2e-14 rad and height within 3.2e-15 a.", "quantifier": "all libm with atan and atan2 accurate to one unit in the last place, all binary64 radii, flattenings and coordinates in the stated ranges", "why_tests_cant": "The bound ranges over all ellipsoids and all points, including spheres and nearly spherical ellipsoids whose constants are subnormal; the project's test uses WGS84 only.", "anchors": ["crates/tofas/src/ellipsoid.rs: EllipsoidConverter::new, geocentric_to_geodetic"]}
{"id": "C97", "title": "Geodetic coordinates exist and are unique on any moderately flattened ellipsoid, and both round trips hold in binary64", "statement": "On any ellipsoid of flattening 0 to 0.006, every point 0.92 equatorial radii or more from the centre has geodetic longitude, latitude and height, and two sets of geodetic coordinates above the depth of 0.89 radii with the same Cartesian position are equal (the longitude away from the axis). In binary64, equatorial radius 1e-6 to 1e12: geocentric to geodetic and back returns each coordinate within 1.4e-9 of the distance for every point from 0.92 to 989 radii from the centre, and within 3.2e-14 of the radius within a 600th of the radius of the surface; geodetic to geocentric and back returns the latitude within 1.2e-9 rad, the height within 1.2e-14 of the radius plus height, and the longitude within 1.3e-14 rad over the cosine of the latitude, from a 16th of the radius below to 989 radii above the surface, and the latitude within 3.5e-14 rad, the height within 1.2e-14 of the radius, within a 601st of the radius of the surface.", "quantifier": "for all ellipsoids (radius, flattening), all Cartesian positions, all geodetic positions in range, all math libraries within the stated accuracy", "why_tests_cant": "The ellipsoid itself is an input: tests cover a handful of reference ellipsoids and some positions; the claim is for a continuum of ellipsoids and every position.", "anchors": ["crates/tofas/src/ellipsoid.rs: EllipsoidConverter::geocentric_to_geodetic", "crates/tofas/src/ellipsoid.rs: EllipsoidConverter::geodetic_to_geocentric", "crates/tofas/src/ellipsoid.rs: EllipsoidConverter::new"]}
{"id": "C98", "title": "Nutation and the CIO locator are the published IAU 2000 series, term by term", "statement": "With the 77 terms of IAU 2000B and the 66 terms of s + XY/2 of the IERS Conventions 2003 written out in the specification rather than read from the tables of the source, nutation(tt) returns the two sums of the former, and cio(tt,x,y) the sum of the latter minus xy/2: exactly in real arithmetic at every date, and in binary64, for modified Julian dates from 1585 to 2132, within 6.7e-16 and 2.9e-16 rad (nutation) and 1.7e-16 rad (locator).", "quantifier": "all dates; every one of the 143 terms", "why_tests_cant": "a slip in one small coefficient or multiplier changes the result by less than the tolerance of a usual test at most dates", "anchors": ["crates/tofas/src/frames.rs: nutation", "crates/tofas/src/locator.rs: cio"]}
{"id": "C99", "title": "The Earth ephemeris gives the published reference values", "statement": "At the date of the IAU SOFA test of EPV00, TDB 2400000.5 + 53411.52501161, however that date is split in two, the exact heliocentric and barycentric positions and velocities of EarthPosVel agree with the twelve published 19-digit values within 2e-17 AU (3 micrometres) and 1e-18 AU per day. In binary64, at the two decimal literals and with any libm accurate to 2^-52, the results are within 1.31e-12 AU and 2.4e-14 AU per day of the published values.", "quantifier": "all splits of the reference date; all 2574 terms of the tables contribute", "why_tests_cant": "the test suite of the project only prints the ephemeris; a slip in one of some 7700 table entries is invisible without a reference accurate to the last digits", "anchors": ["crates/tofas/src/earth.rs: EarthPosVel", "crates/tofas/src/epv00_data.rs"]}
{"id": "C100", "title": "The origin of the intermediate frame is a non-rotating origin", "statement": "The celestial-to-intermediate matrix puts its first axis at a non-rotating origin on the equator of the pole, which is what the CIO locator series is for. In exact arithmetic, within a century of J2000, the matrix at every date is a frame that never spins about its own third axis, up to a turn about that axis of at most 1.8e-9 rad; the turn is zero at J2000 and is the error the locator has accumulated since. In binary64, for every split of the date with parts up to 2^22 days, one such frame, the exact matrix at J2000, is within 1.9e-9 of every result, entry by entry.", "quantifier": "Every date within a century of J2000, every split in binary64, every math library within the stated accuracy.", "why_tests_cant": "That a frame does not rotate is a statement about derivatives at every date and about the pole, the locator and their series together; a reference value compares one date and knows nothing of the accumulated angle.", "anchors": ["crates/tofas/src/frames.rs: celestial_to_intermediate", "crates/tofas/src/locator.rs: cio"]}
{"id": "C101", "title": "The project's own tests cannot fail by chance", "statement": "Whatever numbers in [0,1) the random generator draws, and however many, test_calendar and test_hms pass in binary64, in both build profiles and with any libm; test_rotation passes with any libm accurate to 2^-52. test_ellipsoid passes with any such libm whose sine and cosine have a relative error of at most 2^-52 and whose atan2 returns the principal argument. The tests without random numbers and without reference tables (test_delta_at, test_earth, test_geodetic_display) pass with any libm at all. The two tests against reference tables that do not involve libm (test_rotation_angle and test_precession_rate, 1000 rows each) pass with any libm at all.", "quantifier": "all lists of draws in [0,1), all platforms' libm, both build profiles, every way of breaking rounding ties in the formatter", "why_tests_cant": "A randomised test passing says nothing about the draws it did not make: ten million draws of the calendar test leave almost all of its 2^104 inputs untried, and a test that fails once in 10^9 runs would never be traced.", "anchors": ["crates/tofas/src/tests.rs:test_ellipsoid", "crates/tofas/src/tests.rs:test_calendar", "crates/tofas/src/tests.rs:test_hms", "crates/tofas/src/tests.rs:test_rotation", "crates/tofas/src/tests.rs:test_earth", "crates/tofas/src/tests.rs:test_delta_at", "crates/tofas/src/tests.rs:test_geodetic_display", "crates/tofas/src/tests.rs:test_rotation_angle", "crates/tofas/src/tests.rs:test_precession_rate"]}
{"id": "C102", "title": "Debug and release builds agree unless the debug build panics", "statement": "On every input and over any arithmetic, each function whose behaviour can depend on the build profile (to_julian, from_julian, their DateHMS counterparts, delta_at, the conversion to degrees, the printing of positions, SunAngleCalculator::new, and both command-line tools) either panics in a debug build or returns in a debug build exactly what it returns in a release build. For accepted dates before 1465073-03-01 the two builds of SunAngleCalculator::new agree outright.", "quantifier": "all inputs, all arithmetics (exact and binary64 with any libm), both build profiles", "why_tests_cant": "tests run in one profile at a time; agreement of the two on every input, including the inputs where wrapping changes intermediate values, cannot be sampled", "anchors": ["crates/tofas/src/calendar.rs:to_julian", "crates/tofas/src/calendar.rs:from_julian", "crates/tofas/src/delta_at.rs:delta_at", "crates/tofas/src/ellipsoid.rs:From<&Geodetic> for Geodetic360", "crates/tofas_extras/src/sun_angle.rs:new"]}
{"id": "C103", "title": "The Sun angle tool reads its command line in any order and nothing else", "statement": "A command line made of options of sun_angle_tool, each at most once, each followed by a text that reads as a number of its type, and possibly --scan, in any order, runs the tool with the flags it writes: whole numbers from an optional sign and digits (i32, or 0 to 255 without minus sign), floats as the binary64 nearest to the decimal (an infinity if too big), inf, infinity and nan in any case. Every other command line ends with an error and no output, except one whose words are a rearrangement of such a line. In particular a word that is neither an option nor a number, and an option given twice, are errors.", "quantifier": "all lists of arguments, all items in all orders, both build profiles", "why_tests_cant": "there is no test of the tools; the order of the options and the texts of the numbers cannot be enumerated", "anchors": ["crates/tofas_extras/examples/sun_angle_tool.rs: main"]}
{"id": "C104", "title": "julian_tool reads its command line and rejects what it does not understand", "statement": "julian_tool gregorian (or g) and julian (or j) read their options in any order; a missing or other subcommand, a missing required option and an argument that is not understood give an error and no output.", "quantifier": "all lists of arguments", "why_tests_cant": "there is no test of the tools, and a typing error in an option name is not something one thinks of testing", "anchors": ["crates/tofas_extras/examples/julian_tool.rs: main, gregorian, julian"]}
{"id": "C105", "title": "julian_tool takes a date to a Julian date and back, through the printed text", "statement": "For every date of the years 1 to 9998 and every time of day, the text that julian_tool gregorian prints after \"Julian date:\" is accepted by julian_tool julian --jd, which prints a calendar date and a time of day within 0.0434 s of the original ones.", "quantifier": "all dates of the years 1 to 9998, all times of day, options in any order, every way of breaking rounding ties in the formatter, both build profiles", "why_tests_cant": "needs all dates and times, and the agreement of formatting, parsing and two calendar conversions", "anchors": ["crates/tofas_extras/examples/julian_tool.rs: main, gregorian, julian"]}
{"id": "C106", "title": "Nutation, locator and rotation matrices meet the published reference values", "statement": "At TT = UT1 = 2400000.5 + 53736 the program gives the published values of the IAU SOFA tests of NUT00B, S00, C2I00B and C2T00B. In exact arithmetic the nutation angles agree to 6.8e-16 and 3e-16 rad, the CIO locator (at the published pole) to 1.8e-16 rad, and every entry of the celestial-to-intermediate and celestial-to-terrestrial matrices to 2.1e-13 and 1.46e-11. The binary64 program does not panic there and agrees to 1.4e-15, 6e-16, 3.5e-16 rad, 4.1e-13 and 3e-11 with every libm that is accurate to 2^-52.", "quantifier": "every libm with an absolute error of at most 2^-52 (exact arithmetic for the first part), at the one date the published values exist for", "why_tests_cant": "The tests of the repository compare with tables of unstated origin, with the one libm of the machine. Together with C60, C61 and C69, which give the closed form for all dates, the reference values detect a misprinted coefficient that the closed form shares with the program.", "anchors": ["crates/tofas/src/locator.rs: cio", "crates/tofas/src/frames.rs: nutation, celestial_to_intermediate, celestial_to_terrestrial"]}
{"id": "C107", "title": "The printed fraction of day is the shortest text that reads back to the last bit", "statement": "Printing a float with {} and reading the text gives the same float, for every float including zeros with their sign, infinities and NaN, so that two floats printed alike are the same. A finite float other than zero is printed with a minus sign exactly when it is negative, without an exponent or a superfluous zero, with at most 17 significant digits; no text that reads as the float has fewer significant digits, and none with as few is closer to it. In particular the line \"Fraction of day:\" of julian_tool julian determines the fraction computed by from_julian to the last bit.", "quantifier": "all binary64 numbers; every way of deciding between two shortest texts that are equally close; for the tool all pairs of Julian dates and both build profiles", "why_tests_cant": "there are 2^64 floats; the shortest text is found by a search that is only right if 17 digits always suffice and if the candidates next to the float are the only ones to try", "anchors": ["crates/tofas_extras/examples/julian_tool.rs: julian"]}
{"id": "C108", "title": "The Earth of the ephemeris obeys the law of gravitation", "statement": "The heliocentric velocity returned by EarthPosVel::from has a derivative with respect to either part of the date, and within a century of J2000 that acceleration is the inverse-square pull of the Sun (minus the square of the Gaussian gravitational constant times r over |r| cubed, r being the returned heliocentric position) to within 1.1 per cent of it, and the sum of the pull of the Sun and of a Moon of 1/81.3 Earth masses on a circular orbit of 384400 km at the mean longitude F + Omega - p_A of the IERS conventions to within half a per cent of it, as vectors in the equatorial frame.  In binary64 each velocity component changes between two dates by the elapsed days times the pull at an intermediate moment, within 1.54e-6 AU per day per day plus 2.8e-12.", "quantifier": "all pairs of real numbers (a, b) whose sum is within 100 Julian years of J2000; exact arithmetic", "why_tests_cant": "Compares the second derivative of a sum of some 2000 terms with a law of nature over two centuries; a test can only difference positions at chosen dates, and a wrong amplitude, phase or frequency of one lunar or solar term shows only at some dates.", "anchors": ["crates/tofas/src/earth.rs: EarthPosVel::from", "crates/tofas/src/epv00_data.rs: E0, E1, E2"]}
{"id": "C109", "title": "One sunrise and one sunset a day", "statement": "Between 65 degrees south and 65 degrees north, from 1900 to 2100, the solar zenith angle of compute passes 90 degrees exactly once in the twelve hours before local mean noon and exactly once in the twelve hours after it, and is below 90 degrees exactly between these two moments. In binary64 with an accurate libm, for latitudes of 25 to 65 degrees north or south, the angle is on the right side of 90 degrees except within 0.02 seconds of the two moments.  From half an hour after local mean midnight to half an hour before local mean noon the zenith angle decreases, from half an hour after noon to half an hour before midnight it increases; in binary64 for offsets at least a quarter of a second apart. From half an hour after local midnight to half an hour before local noon, and likewise in the afternoon, the Sun is at least 0.98 degrees from zenith and nadir, so in these hours the binary64 statements hold at all latitudes from -65 to 65; in the other two hours at low latitudes they hold when the number given to acos is in [-1,1].", "quantifier": "all accepted requests with a latitude of -65 to 65 degrees, every local mean noon from 1900 to 2100 and every real offset within twelve hours of it; in binary64 all usual inputs and every binary64 offset", "why_tests_cant": "A test samples the zenith angle at some offsets; that it changes sides exactly twice in every day at every place needs its rate near the horizon at every moment.", "anchors": ["crates/tofas_extras/src/sun_angle.rs: SunAngleCalculator::new, compute", "crates/tofas/src/earth.rs: rotation_angle", "crates/tofas/src/frames.rs: celestial_to_terrestrial"]}
{"id": "C110", "title": "Reference-table tests of rotation matrices pass with any libm accurate to one unit in the last place", "statement": "test_polar_motion_matrix, test_nutation_matrix, test_bias_and_precession and test_celestial_to_terrestrial_from_cio_components (1000 rows each, tolerance EPSILON) pass whenever sine and cosine are accurate to less than one unit in the last place.", "quantifier": "all libms with results within one unit in the last place of the exact sine and cosine", "why_tests_cant": "a test run uses the one libm of the machine; that the tests pass there says nothing about another platform", "anchors": ["crates/tofas/src/tests.rs:test_polar_motion_matrix", "crates/tofas/src/tests.rs:test_nutation_matrix", "crates/tofas/src/test_data.rs:POM00_DATA", "crates/tofas/src/test_data.rs:NUMAT_DATA", "crates/tofas/src/earth.rs:polar_motion_matrix", "crates/tofas/src/frames.rs:nutation_matrix", "crates/tofas/src/tests.rs:test_bias_and_precession", "crates/tofas/src/test_data.rs:BP00_DATA", "crates/tofas/src/frames.rs:bias_and_precession", "crates/tofas/src/tests.rs:test_celestial_to_terrestrial_from_cio_components", "crates/tofas/src/test_data.rs:C2TCIO_DATA", "crates/tofas/src/frames.rs:celestial_to_terrestrial_from_cio_components"]}
