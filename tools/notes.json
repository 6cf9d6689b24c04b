{
 "C01": {
  "note": "Proved for the year range in which the int arithmetic is defined (C04 gives the exact bound)."
 },
 "C02": {
  "note": "Integer part; the floating-point split of the MJD is C07."
 },
 "C03": {
  "note": "cldj and clyd; caldj and calyd by C05."
 },
 "C04": {
  "note": "The claim is false of the code: exact domains are proved and C04_no_overflow_refuted gives witnesses."
 },
 "C05": {
  "note": ""
 },
 "C06": {
  "note": "Agreement holds from 1901-01-01 to 2100-02-28; the documented start 1900-03-01 is refuted."
 },
 "C20": {
  "note": "Exact real arithmetic, and rounding errors in binary64 for any libm accurate to k: dcs2c within 3k+1.5u of the direction, dcc2s within 4k+2.6u, both round trips."
 },
 "C21": {
  "note": "Exact real arithmetic. At a null position dc62s reports the speed as the distance (C21_distance_is_length_refuted). C21_ds2c6_binary and C21_dc62s_binary bound the errors of the binary64 conversions in both directions."
 },
 "C22": {
  "note": "Exact real arithmetic. The round trip is refuted at exactly half a turn, and proved everywhere else. Binary64: the matrix is within about 1e-14 of the rotation for vectors of ordinary length."
 },
 "C23": {
  "note": "All strings; exact real arithmetic, and binary64 with a libm accurate to k (C23_deuler_binary: Frobenius error at most 6.03 k + 27.6 u; a correctly rounded libm is shown to qualify)."
 },
 "C24": {
  "note": "Values in exact real arithmetic; aliasing for every arithmetic and every placement in memory; rounding errors in binary64, entry by entry and for products of near-rotations."
 },
 "C25": {
  "note": "As C24; rounding errors in binary64 and binary32. dvn is not safe when the output starts strictly inside the input (refuted); it does not normalise vectors below about 1e-162 (returned unchanged, modulus 0) or above about 1e154 (null vector, infinite modulus; refuted)."
 },
 "C09": {
  "note": "Exact real arithmetic (defined exactly for ndp<=9 and fewer than 2^31 hours) and IEEE arithmetic for all six routines (binary64, and binary32 with the widening to double), with explicit error bounds."
 },
 "C10": {
  "note": "Exact real arithmetic, all ints; binary64: same status as the exact seconds, days within 6e-16 and radians within 5.1e-15. A NaN seconds argument is accepted as OK (refuted)."
 },
 "C11": {
  "note": "Exact real arithmetic, where rounding may carry to 24h, which dtf2d reports as bad hours; binary64: fields with up to 9 decimals (8 for arc) converted to days or radians and back are returned unchanged, for every set of fields and any seconds value within one unit in the last place."
 },
 "C12": {
  "note": "Real arithmetic, and IEEE binary64/binary32 for every value (exact with respect to the stored 2 pi); the half-open range is refuted (drange(-pi) = +pi)."
 },
 "C13": {
  "note": "Real arithmetic, and IEEE binary64/binary32 for every finite value; the half-open range is refuted in binary64."
 },
 "C26": {
  "note": "Exact real arithmetic, also the triangle inequality; rounding errors in binary64: dsepv within 2k+6.2u and dsep within 8.1k+9.3u of the angle, at every angle."
 },
 "C27": {
  "note": "Exact real arithmetic; dbear also in IEEE binary64 (C27_dbear_binary): going from the first place along the returned bearing by the sine of the separation misses the second by at most 12.8 k + 33 u for longitudes up to 8 rad. dpav returns 0 seen from a pole, where it differs from dbear (refuted there, proved elsewhere). C27_dpav_binary: dpav within (2.002 k + 1.1e-14)/cos(latitude) for near-unit vectors."
 },
 "C28": {
  "note": "Exact real arithmetic, and IEEE binary64 for every finite angle (C28_*_binary): each conversion lands within 13.5 k + 16.4 u of the exact direction and each round trip within 27 k + 26.5 u, for a libm accurate to k."
 },
 "C29": {
  "note": "Exact real arithmetic; zd and pa also in IEEE binary64 (C29_zd_binary: within 9.6 k + 9.5 u of the angle to the zenith; C29_pa_binary). altaz's parallactic angle on the vertical is pi - ha instead of 0."
 },
 "C30": {
  "note": "Exact real arithmetic; where the squared cosine of elevation exceeds the code's 1e-30 floor. Binary64: azimuth and elevation are bit for bit those of de2h, for every input."
 },
 "C31": {
  "note": "Exact real arithmetic. Cartesian forms for a non-polar tangent point. The documented meaning of the two antistar statuses is refuted (interchanged). In binary64: the status outside a sliver of 5k+14u at each limit, ds2tp and dtp2s errors, and the round trip, for libm accurate to k. C31_dv2tp_binary: the vector form within 6e-13 and 1e-12 for stars within 60 degrees."
 },
 "C32": {
  "note": "Exact real arithmetic; non-polar stars. Refuted: second solution for a star at the pole with xi=0; dtpv2c's count at a double root."
 },
 "C33": {
  "note": "Exact real arithmetic, latitudes and declinations within +-pi/2; adjusted inputs within 2e-12, unchanged when 1e-12 away from critical values."
 },
 "C14": {
  "note": "Integer model with bounds-checked arrays and overflow outcome; all call histories from an initialised array, ncand < INT_MAX. The final combination written in the header comment is refuted."
 },
 "C15": {
  "note": "Integer model with bounds-checked arrays and overflow outcome; all call histories from an initialised state, n < INT_MAX."
 },
 "C34": {
  "note": "Exact real arithmetic (directions recovered exactly, the coordinates themselves away from the poles) and rounding errors in binary64 for any libm accurate to k, years 3 to 3999: each conversion within 20k+104u of the exact direction, both round trips within 40k+208u."
 },
 "C35": {
  "note": "Real instance: the J2000 galactic matrix is within 1e-6 of the frame built from the adopted pole and is orthogonal only to about 4e-11; hence the tolerances. Binary64: each conversion lands within 7.1k+20u of its exact result, and round trips follow."
 },
 "C36": {
  "note": "Real instance, the precession polynomials restated independently in S_Frame.v; binary64: prec, prebn and precl within 6.03k+48u of the frame rotation for epochs 0 to 4000, ecmat within 6.03k+34u, preces within 14k+69u of the exact direction; nut within 6.03k+27.6u+1e-14 and prenut within 12.1k+86u+1e-14 over 1800-2200."
 },
 "C37": {
  "status": "partial",
  "note": "Real instance, and binary64 error bounds of every conversion and round trip. The documented lower-case designations j (result) and b (given) are refuted: the code does not fold their case and returns 0."
 },
 "C38": {
  "note": "Real instance. The calendar dates of the table are checked against the calendar specification. dtt's documented fixed value before 1972 is refuted. In binary64: dat is exact from 1972 on for every finite date, and within 2e-12 s before; dtt within 3e-12 s."
 },
 "C53": {
  "note": "Real instance; the literals for seconds-to-radians differ from pi/43200 in the 25th figure, hence the 1e-15 tolerances, for |UT1| up to 1e7 days. Includes the equation of the equinoxes. Binary64: gmst within 2e-11 and gmsta within 4.2e-11 rad of the IAU 1982 expression over 1e6 days; eqeqx within 6e-15 rad over 1800-2200."
 },
 "C56": {
  "note": "Real instance, and IEEE binary64 with explicit error bounds (C56_*_binary) for any libm accurate to k."
 },
 "C57": {
  "note": "nutc80 is proved equal to the published series; nutc (194 terms) is bounded and compared with it term by term, over the reals. Binary64 over 1800-2200: nutc80 within 3e-15 rad of the published series, nutc within 4e-15 rad of the same series in exact arithmetic."
 },
 "C58": {
  "note": "Real instance; in binary64 within 2e-9 s for epochs -10000 to 10000, across the switches between models."
 },
 "C41": {
  "note": "Exact real arithmetic. Failure exactly when the determinant is zero. C41_xy2xy_binary bounds the rounding error of applying a model in binary64, C41_invf_binary that of inverting one, relative to the cancellation in its determinant."
 },
 "C42": {
  "note": "Exact real arithmetic; any number of samples. C42_pxy_binary bounds the rounding errors of the binary64 routine: predicted points and the three root mean squares, for up to a million samples."
 },
 "C43": {
  "note": "Exact real arithmetic, every point and coefficient. The least-change claim fails exactly on the double-root circle 27*k*r^2 = -4 (C43_least_change_everywhere_refuted). C43_pcd_binary bounds the rounding error of applying distortion in binary64."
 },
 "C55": {
  "note": "Exact real arithmetic; agreement with Hardie's polynomial in sec z - 1. In binary64 within 390k+4e-13 for every finite zenith distance."
 },
 "C51": {
  "note": "Exact real arithmetic; and in binary64 with an accurate libm, position within 2e-8 m + 4.4e7 k and velocity within the sidereal rate times that (heights up to 100 km); the distances geoc gives within 1.4e-8 m + 2.1e7 k."
 },
 "C52": {
  "note": "Exact real arithmetic; the fixed velocities are checked against their published definition to 2e-4 km/s. In binary64 to 3e-4 km/s plus the libm error; rverot to 1.4k+7u."
 },
 "C54": {
  "note": "Exact real arithmetic. The claim that the azimuth correction is defined at the exact pole is refuted; the exact domain is given. Binary64: the true direction to about 8e-15 everywhere, poles included; the azimuth correction is not bounded in binary64."
 },
 "C59": {
  "note": "Exact real arithmetic; and in binary64 with an accurate libm, the direction is within 8.3 k + 16 u of the straight-line motion, for up to a century, proper motions up to 2e-4 rad/yr and radial velocities up to 500 km/s."
 },
 "C60": {
  "note": "Exact real arithmetic. C60_earth_newcomb pins the position to Newcomb's ellipse less the Moon's pull (4.5e-5 AU, 1901-2099); C60_earth_velocity pins the velocity to the rate of change of that path (7.1e-11 AU/s = 11 m/s)."
 },
 "C44": {
  "note": "Termination for every Num instance (floating point included); the rest in the real instance. Two _refuted theorems show permitted arguments for which a denominator is zero."
 },
 "C45": {
  "note": "Real instance; the two literals are proved to be atan 1 and atan 4 to 1e-15."
 },
 "C46": {
  "note": "Real instance; terrestrial means 0<=A<=0.0005, -1e-6<=B<=0 radians. C46_solves_binary and C46_refz_binary carry the result to IEEE binary64 for any libm with absolute error at most 1e-15 (up to 83 degrees the computed value is within 1.4e-15 rad of the exact one, beyond within 7.1e-14)."
 },
 "C47": {
  "note": "Real instance."
 },
 "C61": {
  "note": "Real instance. C61_refv_binary bounds the rounding error of the binary64 vector by 2.4e-15 for every vector of length at most 1.001 and terrestrial coefficients."
 },
 "C48": {
  "note": "Search theorems hold for every Num instance; coordinates in the real instance. obs(\"\") selects the first station."
 },
 "C16": {
  "note": "Exact real arithmetic, every size n, any workspace contents; det is the recursive first-column expansion, characterised as normalised, row-linear and alternating. Outcome and determinant are independent of the right-hand side in any arithmetic."
 },
 "C17": {
  "note": "Every matrix without an inverse, with a nonzero kernel vector, or with |det| < 1e-20 is reported with determinant 0; whatever is reported has a pivot or leading determinant below 1e-20 under row pivoting. Refuted: that only singular matrices are reported (the criterion is absolute)."
 },
 "C19": {
  "note": "Exact real arithmetic, all m, n, all factorisations and all edits of w that set values to zero. Covariance given as propagation of unit errors, symmetric, positive semidefinite, inverse of the normal matrix when no w is zero."
 },
 "C39": {
  "note": "Exact real arithmetic. Six coefficients: the unique minimum. Four coefficients: minimum over both parities for three or more samples, or when the result is not the null model. Refuted for two samples nearer than 1e-5: FIT_OK with the null model."
 },
 "C40": {
  "note": "FIT_INSUFFICIENT exactly for too few samples; collinear (six) or coincident (four, three samples or more) measured points give FIT_NONE; FIT_NONE implies nearly singular normal equations; the model is untouched on failure. Refuted for two coincident points with four coefficients."
 },
 "C49": {
  "note": "Derivative statement at every date for epv with its own tables and for any tables; positions characterised as the Poisson series of the tables in the ICRS frame. Exact arithmetic (real instance)."
 },
 "C50": {
  "note": "Exact arithmetic. The theory is a separate specification (S_Moon.v) with angles in degrees and no reduction to one turn; closeness by an error calculus over the series, derivative by differentiating every argument and term. moon's radial rate omits the cosine of the parallax, which is most of the 3e-8.",
  "status": "proved"
 },
 "C62": {
  "note": "Amplitude sums of the actual tables evaluated in the kernel, triangle inequality about the mean circular motion. Exact arithmetic."
 },
 "C63": {
  "note": "Amplitude sum of the parallax series; exact arithmetic."
 },
 "C07": {
  "note": "IEEE binary64, every finite double; the fraction in [0,1) is refuted (tiny negative MJD gives 1.0); NaN and MJDs from 534459924 up reach undefined behaviour."
 },
 "C08": {
  "note": "IEEE binary64; assumes only that std::pow(10,k) is within 1/2 of 10^k for k=0..9 (hypothesis pow10_good, met by a concrete pow)."
 },
 "C18": {
  "note": "Real arithmetic, with the program's floating-point equality tests read as a relative tolerance eps (0 and 2^-53 included). Rank-deficient matrices: refuted in binary64 by a 3 x 3 matrix; proved for runs that never cancel more than one superdiagonal element (_partial, ghost flag q_skip).",
  "status": "proved"
 },
 "C64": {
  "note": "Real arithmetic with the program's decimal constants; the table is generated from the source by tools/gen_rcc.py. C64_value is the functional specification; the bounds follow from exact sums of amplitudes and of amplitude times frequency.",
  "status": "proved"
 },
 "C65": {
  "note": "The engine is a parameter with the contract of generate_canonical<float> (a float of [0, 1)). The seed arithmetic is read over the reals (sign also in binary32). Found: an infinite seed makes the cast to int undefined; seeds s and 10|s|+9 start the same sequence. Concurrent calls with SLALIB_THREAD_SAFE = 0 (the default) are a data race and outside the model.",
  "status": "proved"
 },
 "C66": {
  "note": "Pair theorem over the reals with float-valued draws; NaN finding in binary32: an engine that yields 0.5 twice in a row makes both deviates NaN (0 * inf), the guard max(r, 1e-20) does not help. That the engine's points are uniform is not expressible; given that, the theorem's radius and direction statements are the Box-Muller law.",
  "status": "proved"
 },
 "C67": {
  "note": "Proved for the header numbers as parameters; C67_this_version is the instance 2.5-7.",
  "status": "proved"
 },
 "C68": {
  "note": "In binary32. Found: the documented delay is not kept when it is not whole (wait(0.25f) returns at once, wait(1.25f) sleeps one second); from 2^31 seconds, for infinities and NaN the cast is undefined. The sleep itself (std::this_thread) is outside the model: the modelled effect is the duration passed to it.",
  "status": "proved"
 },
 "C69": {
  "note": "Exact arithmetic."
 },
 "C70": {
  "note": "Exact arithmetic; the source keeps some quantities in single precision, which the model does not."
 },
 "C71": {
  "note": "Exact arithmetic. The derivative is that of the unreduced theory, which C70_evp_theory ties to the returned positions."
 },
 "C72": {
  "note": "Exact arithmetic. The theories are in S_Moon.v; the coefficient tables are those extracted from the source."
 },
 "C73": {
  "note": "Exact arithmetic. The rows of the short tables are matched with those of the long ones inside the kernel; the rest is bounded by its amplitudes. The bound is the sum of all amplitudes left out, so it is not the typical difference."
 },
 "C74": {
  "note": "Exact real arithmetic; positions for both pairs, velocities for earth and evp only. The bounds add up every neglected amplitude, so they exceed the typical differences several times.",
  "status": "proved"
 }
}