{"id": "C01", "title": "Gregorian date to MJD is an exact day count", "statement": "For every valid proleptic Gregorian date from 4700 BC on (as far as int arithmetic does not overflow) cldj() returns G2J_OK and the MJD equal to the signed number of days between that date and 1858 November 17, so consecutive calendar days map to consecutive MJDs.", "quantifier": "all years >= -4699 up to the 32-bit overflow limit, all months and days valid for the month", "why_tests_cant": "There are more than 500 million valid dates; the closed-form integer formula must agree with day-by-day counting on every one.", "anchors": ["src/cldj.cc:cldj", "src/caldj.cc:caldj"]}
{"id": "C02", "title": "MJD to Gregorian date is the inverse of Gregorian date to MJD", "statement": "For every whole MJD accepted by djcl() (and not overflowing int) the returned year/month/day is a valid Gregorian date whose cldj() is the given MJD; conversely djcl(cldj(date)) is the date.", "quantifier": "every integral MJD in the accepted non-overflowing range; every valid date in the common range", "why_tests_cant": "Two independent closed forms with truncating divisions have to invert each other on half a billion values.", "anchors": ["src/djcl.cc:djcl", "src/cldj.cc:cldj"]}
{"id": "C03", "title": "Status and output discipline of the calendar conversions", "statement": "cldj/caldj/clyd/calyd return G2J_BAD_YEAR, G2J_BAD_MONTH, G2J_BAD_DAY exactly in the documented cases (year checked before month before day); for a bad year or month the output variable keeps its old value; for a bad day the output is still computed and continues the day count linearly.", "quantifier": "all int triples (year, month, day) and all prior contents of the output", "why_tests_cant": "The claim is about every triple, including invalid ones, and about what is not written.", "anchors": ["src/cldj.cc:cldj", "src/clyd.cc:clyd", "src/slalib.cc:validate_gregorian_day", "src/caldj.cc:caldj", "src/calyd.cc:calyd"]}
{"id": "C04", "title": "No signed overflow for accepted calendar inputs", "statement": "A call of cldj/clyd/djcl/djcal whose argument passes the routine's own range check never performs signed 32-bit overflow. (The documented range of djcl/djcal is MJD < 1e9.)", "quantifier": "all accepted arguments", "why_tests_cant": "Overflow appears only on extreme inputs; one needs the exact boundary of the safe region.", "anchors": ["src/djcl.cc:djcl", "src/djcal.cc:djcal", "src/cldj.cc:cldj", "src/clyd.cc:clyd"]}
{"id": "C05", "title": "Two-digit year defaults", "statement": "caldj/calyd treat years 0..49 as 2000..2049 and 50..99 as 1950..1999, and every other year unchanged; otherwise they behave exactly like cldj/clyd.", "quantifier": "all ints", "why_tests_cant": "Boundary behaviour for every int.", "anchors": ["src/slalib.cc:process_year_defaults", "src/caldj.cc:caldj", "src/calyd.cc:calyd"]}
{"id": "C06", "title": "Year and day-in-year in the aligned Julian calendar", "statement": "clyd returns (year, day) such that day is the ordinal day, 1..365 or 366, in a Julian-calendar year with leap years every four years, the pair counting days exactly like the Gregorian date and agreeing with the ordinary Gregorian day-of-year from 1900 March 1 to 2100 February 28.", "quantifier": "all valid Gregorian dates with year >= -4711 and no overflow", "why_tests_cant": "Unbounded date range, closed form with nested truncations.", "anchors": ["src/clyd.cc:clyd", "src/calyd.cc:calyd"]}
{"id": "C07", "title": "djcl splits a double MJD exactly into day and fraction", "statement": "For every finite double MJD above -2395520 and below 534459924 the date returned by djcl() is the calendar date of floor(mjd) and the fraction is in [0,1] and equals mjd - floor(mjd) to within 2^-54 (exactly for mjd >= 0). The documented range [0,1) fails for tiny negative MJDs. Doubles outside the accepted range and infinities are rejected; NaN and accepted MJDs from 534459924 up have undefined behaviour.", "quantifier": "every binary64 value", "why_tests_cant": "2^63 double inputs; rounding of fmod()+1 decides the boundary.", "anchors": ["src/djcl.cc:djcl", "src/slalib.h:Date"]}
{"id": "C08", "title": "djcal rounds and carries correctly", "statement": "djcal(ndp, mjd) returns a valid date n and fraction digits i with 0 <= i < 10^ndp such that n*10^ndp + i is the scaled MJD rounded to an integer, within half a unit plus one rounding error of the product; so rounding up at midnight carries into day, month and year.", "quantifier": "every ndp up to 9 and every finite binary64 MJD above -2395520 and at most 534459923", "why_tests_cant": "Carry happens at measure-zero inputs and must be right for all.", "anchors": ["src/djcal.cc:djcal"]}
{"id": "C09", "title": "Days/radians to sexagesimal fields are canonical", "statement": "dd2tf, cd2tf, dr2tf, dr2af, cr2tf, cr2af produce a sign and fields with 0<=minutes<60, 0<=seconds<60, 0<=fraction<10^ndp, hours>=0 (never 60 seconds or 60 minutes) whose mixed-radix value is the magnitude rounded to the requested resolution: exactly in real arithmetic, and in IEEE arithmetic to half a unit plus a stated relative error (2^-53 for days, 3e-16 and 4e-16 for radians in double, 9e-8 in float).", "quantifier": "all finite angles/intervals whose scaled value fits int, all ndp with 0 <= 10^ndp in int range", "why_tests_cant": "Rounding carries through three radices.", "anchors": ["src/dd2tf.cc:dd2tf", "src/dr2tf.cc:dr2tf", "src/dr2af.cc:dr2af", "src/cd2tf.cc:cd2tf"]}
{"id": "C10", "title": "Sexagesimal to days/radians: status and value", "statement": "dtf2d/dtf2r return the exact mixed-radix value always, and a status that is OK iff every field is in range (bad seconds reported in preference to minutes in preference to hours); daf2r gives degrees precedence over arcminutes over arcseconds.", "quantifier": "all int fields and all real seconds", "why_tests_cant": "Status priority over all combinations of bad fields.", "anchors": ["src/dtf2d.cc:dtf2d", "src/dtf2r.cc:dtf2r", "src/daf2r.cc:daf2r", "src/caf2r.cc:caf2r"]}
{"id": "C11", "title": "Sexagesimal round trip", "statement": "Converting days to h,m,s,fraction with dd2tf and back with dtf2d returns the original magnitude to within half a unit of the last requested digit, with the reported sign.", "quantifier": "all intervals below one day, all ndp", "why_tests_cant": "Needs exact error accounting for all inputs.", "anchors": ["src/dd2tf.cc:dd2tf", "src/dtf2d.cc:dtf2d"]}
{"id": "C12", "title": "drange normalises into +/- pi", "statement": "drange(a) differs from a by a multiple of 2pi and lies in [-pi,+pi] (the half-open range is refuted: drange(-pi)=+pi). In IEEE arithmetic the reduction by the stored 2pi is exact for every finite input, the result is within [-PI,PI] and is a itself whenever |a| < PI; a non-finite input gives NaN.", "quantifier": "all reals; every finite binary64 input", "why_tests_cant": "All double inputs, including huge ones.", "anchors": ["src/drange.cc:drange", "src/range.cc:range"]}
{"id": "C13", "title": "dranrm normalises into 0..2pi", "statement": "dranrm(a) differs from a by a multiple of 2pi and lies in [0,2pi); in IEEE arithmetic the result is always in [0, 2PI], with 2PI itself attained for tiny negative angles, contradicting the half-open range.", "quantifier": "all reals; every finite binary64 input", "why_tests_cant": "All double inputs.", "anchors": ["src/dranrm.cc:dranrm", "src/ranorm.cc:ranorm"]}
{"id": "C14", "title": "combn enumerates all combinations exactly once", "statement": "Starting from list[0]<1, repeated calls of combn(nsel,ncand,list) return CPS_OK with ascending nsel-subsets of 1..ncand, all C(ncand,nsel) of them, each exactly once, the first being 1..nsel and the last ncand-nsel+1..ncand; the next call returns CPS_NO_MORE with the first combination again and the cycle repeats.", "quantifier": "all 1 <= nsel <= ncand, every number of calls", "why_tests_cant": "Unbounded sizes and histories.", "anchors": ["src/combn.cc:combn"]}
{"id": "C15", "title": "permut enumerates all permutations exactly once", "statement": "Starting from state[0]<0, repeated calls of permut(n,...) return CPS_OK with permutations of 1..n, all n! of them, each exactly once, the first n..1, the last 1..n; the next call returns CPS_NO_MORE with the first permutation and the cycle repeats with period n!. No access is out of bounds in any such history.", "quantifier": "all n >= 1, every number of calls", "why_tests_cant": "Unbounded sizes and histories.", "anchors": ["src/permut.cc:permut"]}
{"id": "C16", "title": "dmat solves simultaneous equations, inverts and gives the determinant", "statement": "If dmat/smat return success then the returned vector solves the given system, the returned matrix is the inverse of the given matrix and the returned value is its determinant (exact arithmetic).", "quantifier": "all n >= 1, all n x n matrices and right-hand sides", "why_tests_cant": "Unbounded size; Gauss-Jordan with pivoting and in-place unscrambling.", "anchors": ["src/dmat.cc:dmat", "src/smat.cc:smat"]}
{"id": "C17", "title": "dmat reports singularity", "statement": "dmat returns failure and zero determinant for every singular matrix; it reports failure for a nonsingular matrix only when a pivot or a running determinant is below 1e-20.", "quantifier": "all n x n matrices", "why_tests_cant": "Claim about all singular matrices of all sizes.", "anchors": ["src/dmat.cc:dmat", "src/smat.cc:smat"]}
{"id": "C18", "title": "svd factorises", "statement": "svd always returns, with U's columns orthonormal and V orthogonal whether or not it converged; the status is 0 or the index of an element of w. If it returns 0, all w >= 0, and for a matrix of at most two columns or one whose smallest singular value is not lost in the tolerance of the convergence test, every element of U W V^T is within 62 n eps |A| of the matrix given (exactly equal when the tests are exact and the columns independent, so that svdsol then gives a least-squares solution). If m < n nothing is written and -1 is returned. For a rank-deficient matrix a status of 0 does not mean that U W V^T is the matrix.", "quantifier": "all m >= n, all real matrices, all tolerances eps >= 0 of the test an + |x| == an, all previous contents of w, v and ws", "why_tests_cant": "Unbounded size and iteration count.", "anchors": ["src/svd.cc:svd"]}
{"id": "C19", "title": "svdsol solves least squares, svdcov gives the covariance", "statement": "Given a factorisation A = U W V^T, svdsol returns the least-squares solution over the span of the retained singular vectors and svdcov returns V W^-2 V^T, symmetric positive semidefinite, ignoring zero w.", "quantifier": "all sizes and all decompositions", "why_tests_cant": "Unbounded sizes.", "anchors": ["src/svdsol.cc:svdsol", "src/svdcov.cc:svdcov"]}
{"id": "C20", "title": "Spherical/Cartesian conversion round trip", "statement": "dcs2c returns the unit vector of a direction; dcc2s returns longitude in (-pi,pi] and latitude in [-pi/2,pi/2]; dcc2s(dcs2c(s)) is s for s in range and dcs2c(dcc2s(v)) is v/|v| for v nonzero; the zero vector gives (0,0).", "quantifier": "all directions and vectors", "why_tests_cant": "Continuum of inputs.", "anchors": ["src/dcs2c.cc:dcs2c", "src/dcc2s.cc:dcc2s", "src/cs2c.cc:cs2c", "src/cc2s.cc:cc2s"]}
{"id": "C21", "title": "Spherical/Cartesian position-velocity conversion", "statement": "ds2c6 returns position and its time derivative for spherical coordinates moving with the given rates; dc62s inverts it away from the poles and the origin; singular inputs give the documented zero/fallback fields.", "quantifier": "all position/velocity 6-vectors", "why_tests_cant": "Derivative statement over a continuum.", "anchors": ["src/ds2c6.cc:ds2c6", "src/dc62s.cc:dc62s", "src/cs2c6.cc:cs2c6", "src/cc62s.cc:cc62s"]}
{"id": "C22", "title": "Axial vector and rotation matrix", "statement": "dav2m returns a proper rotation (orthogonal, determinant +1) that fixes the axis, rotates by the magnitude, and is the identity for the zero vector; dm2av recovers the axial vector for angles below pi; at exactly pi dm2av returns zero, so the round trip fails there.", "quantifier": "all axial vectors", "why_tests_cant": "Continuum; exceptional set.", "anchors": ["src/dav2m.cc:dav2m", "src/dm2av.cc:dm2av"]}
{"id": "C23", "title": "deuler composes elementary rotations", "statement": "deuler(order, phi, theta, psi) is the product of the elementary rotations named by up to three leading characters of order (case-insensitive letters or digits), stopping at the first unrecognised character; it is always a proper rotation.", "quantifier": "all strings and all angles", "why_tests_cant": "All strings.", "anchors": ["src/deuler.cc:deuler", "src/euler.cc:euler"]}
{"id": "C24", "title": "Matrix kernels and aliasing", "statement": "dmxv, dimxv and dmxm compute Mv, M^T v and AB, and give the same answer when the output array is one of (or overlaps) the inputs as documented.", "quantifier": "all matrices, vectors and memory placements", "why_tests_cant": "Every aliasing pattern.", "anchors": ["src/dmxv.cc:dmxv", "src/dimxv.cc:dimxv", "src/dmxm.cc:dmxm", "src/mxv.cc:mxv", "src/imxv.cc:imxv", "src/mxm.cc:mxm"]}
{"id": "C25", "title": "Vector kernels", "statement": "dvdv is the dot product, dvxv the right-handed cross product (also in place), dvn the modulus and unit vector, with the zero vector giving modulus 0 and the zero vector.", "quantifier": "all vectors", "why_tests_cant": "Continuum and aliasing.", "anchors": ["src/dvdv.cc:dvdv", "src/dvxv.cc:dvxv", "src/dvn.cc:dvn", "src/vn.cc:vn", "src/vxv.cc:vxv"]}
{"id": "C26", "title": "Angular separation is a metric angle", "statement": "dsep/dsepv return the true angle between two directions: in [0,pi], symmetric, zero iff the directions coincide, pi iff opposite, cosine equal to the dot product of the unit vectors, invariant under any rotation.", "quantifier": "all pairs of directions / nonzero vectors", "why_tests_cant": "Continuum.", "anchors": ["src/dsep.cc:dsep", "src/dsepv.cc:dsepv"]}
{"id": "C27", "title": "Bearing and position angle", "statement": "dbear and dpav return the bearing in (-pi,pi] of the second direction as seen from the first (north zero, east positive), 0 for coincident directions, and agree with each other.", "quantifier": "all pairs of directions", "why_tests_cant": "Continuum.", "anchors": ["src/dbear.cc:dbear", "src/dpav.cc:dpav", "src/bear.cc:bear", "src/pav.cc:pav"]}
{"id": "C28", "title": "Equatorial/horizon conversion round trip", "statement": "de2h returns azimuth in [0,2pi) and elevation in [-pi/2,pi/2] of the rotated direction; dh2e inverts de2h as a direction for every latitude, hour angle and declination.", "quantifier": "all directions and latitudes", "why_tests_cant": "Continuum.", "anchors": ["src/de2h.cc:de2h", "src/dh2e.cc:dh2e", "src/e2h.cc:e2h", "src/h2e.cc:h2e"]}
{"id": "C29", "title": "Zenith distance and parallactic angle agree with the horizon conversion", "statement": "zd equals pi/2 minus de2h elevation and pa equals the parallactic angle of the same spherical triangle (and altaz's) wherever it is defined; pa is 0 at the zenith.", "quantifier": "all directions and latitudes", "why_tests_cant": "Cross-routine consistency over a continuum.", "anchors": ["src/zd.cc:zd", "src/pa.cc:pa", "src/altaz.cc:altaz"]}
{"id": "C30", "title": "altaz velocities and accelerations are derivatives", "statement": "altaz gives the same azimuth and elevation as de2h, and its velocity (acceleration) fields are the first (second) derivatives with respect to hour angle of its azimuth, elevation and parallactic angle.", "quantifier": "all hour angles, declinations and latitudes away from the zenith", "why_tests_cant": "Derivative statement.", "anchors": ["src/altaz.cc:altaz"]}
{"id": "C31", "title": "Tangent-plane projection round trip", "statement": "ds2tp and dtp2s (and dv2tp, dtp2v) are inverse on the hemisphere around the tangent point, and the status classifies front/back/too-far exactly by the projected denominator against 1e-6.", "quantifier": "all tangent points and stars", "why_tests_cant": "Continuum; boundary cases.", "anchors": ["src/ds2tp.cc:ds2tp", "src/dtp2s.cc:dtp2s", "src/dv2tp.cc:dv2tp", "src/dtp2v.cc:dtp2v"]}
{"id": "C32", "title": "Tangent point recovery from a star", "statement": "Each solution returned by dtps2c/dtpv2c is a tangent point for which the given star projects to the given (xi, eta); the number of solutions reported is correct.", "quantifier": "all stars and standard coordinates", "why_tests_cant": "Continuum; case split on discriminant.", "anchors": ["src/dtps2c.cc:dtps2c", "src/dtpv2c.cc:dtpv2c"]}
{"id": "C33", "title": "Hour angle from azimuth / parallactic angle", "statement": "Every hour angle flagged valid by pda2h (pdq2h) puts the star at the requested azimuth (parallactic angle) for the adjusted latitude and declination, and if no solution is flagged none exists.", "quantifier": "all latitudes, declinations and angles", "why_tests_cant": "Continuum.", "anchors": ["src/pda2h.cc:pda2h", "src/pdq2h.cc:pdq2h"]}
{"id": "C34", "title": "Ecliptic/equatorial conversion round trip", "statement": "eqecl and ecleq at the same date are inverse directions.", "quantifier": "all dates and directions", "why_tests_cant": "Continuum.", "anchors": ["src/ecleq.cc:ecleq", "src/eqecl.cc:eqecl", "src/ecmat.cc:ecmat"]}
{"id": "C35", "title": "Galactic and supergalactic conversions round trip", "statement": "galeq/eqgal and galsup/supgal are mutual inverses up to the non-orthogonality of the published matrices, which is below 1e-9.", "quantifier": "all directions", "why_tests_cant": "Continuum.", "anchors": ["src/galeq.cc:galeq", "src/eqgal.cc:eqgal", "src/galsup.cc:galsup", "src/supgal.cc:supgal"]}
{"id": "C36", "title": "Precession and nutation matrices are rotations", "statement": "prec, precl, prebn, nut, prenut and ecmat always return proper rotation matrices; precession over a zero interval is the identity; prenut is nutation after precession.", "quantifier": "all epochs", "why_tests_cant": "Continuum.", "anchors": ["src/prec.cc:prec", "src/precl.cc:precl", "src/prebn.cc:prebn", "src/nut.cc:nut", "src/prenut.cc:prenut", "src/ecmat.cc:ecmat"]}
{"id": "C37", "title": "Epoch conversions invert each other", "statement": "epj/epj2d and epb/epb2d are mutual inverses, and epco converts between Besselian and Julian epochs consistently with them for the documented arguments B, b, J, j.", "quantifier": "all epochs; all character pairs", "why_tests_cant": "All character pairs.", "anchors": ["src/epj.cc:epj", "src/epj2d.cc:epj2d", "src/epb.cc:epb", "src/epb2d.cc:epb2d", "src/epco.cc:epco"]}
{"id": "C38", "title": "TAI-UTC is the published leap-second table", "statement": "dat(utc) from 1972 on is the integer 10 plus the number of leap seconds inserted at or before that date, constant between and stepping by exactly one second on the published dates; before 1972 it follows the published linear segments; dtt adds 32.184.", "quantifier": "all UTC dates", "why_tests_cant": "Every instant.", "anchors": ["src/dat.cc:dat", "src/dtt.cc:dtt"]}
{"id": "C39", "title": "fitxy minimises the residuals", "statement": "When fitxy reports FIT_OK the returned six- or four-coefficient model minimises the sum of squared residuals among all models of that kind (for the four-coefficient case over both parities).", "quantifier": "all sample sets", "why_tests_cant": "Optimality over all models and all sample sizes.", "anchors": ["src/fitxy.cc:fitxy", "src/dmat.cc:dmat"]}
{"id": "C40", "title": "fitxy reports insufficient or degenerate data", "statement": "fitxy returns FIT_INSUFFICIENT for too few samples and FIT_NONE when no unique solution exists.", "quantifier": "all sample sets", "why_tests_cant": "Degenerate configurations.", "anchors": ["src/fitxy.cc:fitxy"]}
{"id": "C41", "title": "Linear-model inversion, application and decomposition", "statement": "invf returns the inverse of xy2xy's map whenever its determinant is nonzero and reports failure otherwise; dcmpf's zero points, scales, nonperpendicularity and orientation reconstruct the model exactly.", "quantifier": "all six-coefficient models and points", "why_tests_cant": "Continuum.", "anchors": ["src/invf.cc:invf", "src/xy2xy.cc:xy2xy", "src/dcmpf.cc:dcmpf"]}
{"id": "C42", "title": "pxy residual statistics", "statement": "pxy returns the predicted coordinates by the model and the RMS of the residuals in x, y and total.", "quantifier": "all sample sets", "why_tests_cant": "Any number of samples.", "anchors": ["src/pxy.cc:pxy"]}
{"id": "C43", "title": "Radial distortion removal inverts application", "statement": "Applying pcd to unpcd's result returns the starting point; unpcd undoes pcd wherever the distortion is locally increasing; of the points that pcd maps to the given one, unpcd returns the nearest, except on the circle where the cubic has an exact double root, where it returns the far one.", "quantifier": "all points and distortion coefficients", "why_tests_cant": "Cubic equation, case analysis.", "anchors": ["src/pcd.cc:pcd", "src/unpcd.cc:unpcd"]}
{"id": "C44", "title": "Refraction integration terminates and computes the ray integral", "statement": "refro returns for every argument after at most 32766 integrand samples; out-of-range arguments act as the documented bounds; the result is odd and 2*pi-periodic in zenith distance, zero at the zenith and without air, constant beyond 93 degrees; it is the sum of the tropospheric and stratospheric refraction integrals along the ray of constant r n sin z, by adaptive Simpson quadrature to half the requested precision. The safe bounds are documented to keep the computation defined: refuted.", "quantifier": "all arguments including extreme ones", "why_tests_cant": "Termination for all inputs.", "anchors": ["src/refro.cc:refro"]}
{"id": "C45", "title": "refco agrees with refro at its two fitting points", "statement": "A tan z + B tan^3 z from refco equals refro exactly at z = atan 1 and z = atan 4.", "quantifier": "all atmospheric parameters", "why_tests_cant": "Continuum.", "anchors": ["src/refco.cc:refco", "src/refro.cc:refro"]}
{"id": "C46", "title": "refz inverts the refraction law, is continuous and flat beyond 93 degrees", "statement": "For terrestrial coefficients and zenith distances up to 83 degrees the observed zenith distance returned by refz satisfies the A tan z + B tan^3 z law to 2e-10 radians; the function is odd there, has no jump at 83 degrees, is continuous, and beyond 93 degrees the refraction is constant.", "quantifier": "all zenith distances and coefficients", "why_tests_cant": "Continuity statement.", "anchors": ["src/refz.cc:refz"]}
{"id": "C47", "title": "Dispersion and quick refraction coefficients respect their guards", "statement": "atmdsp returns the input coefficients for radio wavelengths, for equal wavelengths and for zero pressure, and otherwise maps Green's coefficients for one wavelength to Green's coefficients for the other; refcoq returns zero coefficients for zero pressure, otherwise Green's coefficients for the refractivity of moist air with arguments held to the documented bounds, which for ordinary air are in the range the refz and refv theorems assume.", "quantifier": "all arguments", "why_tests_cant": "Continuum.", "anchors": ["src/atmdsp.cc:atmdsp", "src/refcoq.cc:refcoq"]}
{"id": "C48", "title": "Observatory lookup", "statement": "obs(n) for 0<=n<85 returns entry n whatever the identifier, otherwise false with '?' and zeros; with n<0 obs returns the first station whose identifier starts with id, or false if there is none or id is null; each full identifier selects its own station; identifiers and names respect their documented lengths and alphabet; coordinates are valid angles and stations that share a site have nearly equal coordinates.", "quantifier": "all ints and all strings", "why_tests_cant": "All strings.", "anchors": ["src/obs.cc:obs"]}
{"id": "C49", "title": "Earth ephemeris velocity is the derivative of position", "statement": "epv's velocities are the time derivatives (AU/day) of its positions for every date, for both heliocentric and barycentric vectors.", "quantifier": "all dates (and all coefficient tables)", "why_tests_cant": "Derivative statement.", "anchors": ["src/epv.cc:epv"]}
{"id": "C50", "title": "Moon ephemeris velocity is the derivative of position", "statement": "At every date within ten centuries of 1900 dmoon's velocity (AU/s) is the time derivative of the lunar theory's ecliptic position, turned to the equator with the frame of date that turns the position, within 2e-15 AU per day; away from the isolated instants at which an argument is a whole number of turns it is exactly the derivative of the ecliptic position dmoon computes. For every year and day, moon's velocity is the derivative of its theory's position within 3e-8 AU per day (0.005 percent of the speed).", "quantifier": "all dates within ten centuries of 1900 (dmoon); all years, days and day fractions whose time arithmetic does not overflow (moon)", "why_tests_cant": "Derivative statement.", "anchors": ["src/dmoon.cc:dmoon", "src/moon.cc:moon"]}
{"id": "C51", "title": "Observer position and velocity", "statement": "geoc returns the geocentric distances of a point on the reference ellipsoid at the given height; pvobs returns a velocity that is the time derivative of its position at the sidereal rotation rate.", "quantifier": "all latitudes, heights, times", "why_tests_cant": "Continuum.", "anchors": ["src/geoc.cc:geoc", "src/pvobs.cc:pvobs"]}
{"id": "C52", "title": "Radial velocity components", "statement": "rverot is the projection on the line of sight of the eastward rotation velocity; rvgalc, rvlg, rvlsrd, rvlsrk are projections of a fixed velocity (220 and 300 km/s towards galactic longitude 90 degrees, (9,12,7) km/s in galactic axes, 20 km/s towards 18h +30 degrees of 1900), hence bounded by its speed, zero at right angles and odd under reversing the direction.", "quantifier": "all directions", "why_tests_cant": "Continuum.", "anchors": ["src/rverot.cc:rverot", "src/rvgalc.cc:rvgalc", "src/rvlg.cc:rvlg", "src/rvlsrd.cc:rvlsrd", "src/rvlsrk.cc:rvlsrk"]}
{"id": "C53", "title": "Sidereal time", "statement": "gmst and gmsta return angles in [0,2pi) and agree with each other when the date is split, whichever way it is split.", "quantifier": "all dates and all splits", "why_tests_cant": "Continuum.", "anchors": ["src/gmst.cc:gmst", "src/gmsta.cc:gmsta"]}
{"id": "C54", "title": "Polar motion", "statement": "polmo with zero pole offsets returns the input position and zero azimuth correction; in general it is a rotation of the observer's direction; at the exact pole the azimuth correction must still be defined.", "quantifier": "all positions and pole offsets", "why_tests_cant": "Continuum and the singular point.", "anchors": ["src/polmo.cc:polmo"]}
{"id": "C55", "title": "Air mass", "statement": "airmas is even in zenith distance, 1 at the zenith, nondecreasing up to its clamp and constant beyond it.", "quantifier": "all zenith distances", "why_tests_cant": "Monotonicity over a continuum.", "anchors": ["src/airmas.cc:airmas"]}
{"id": "C56", "title": "E-terms of aberration and the B1950 galactic conversion", "statement": "etrms is the elliptic part of annual aberration for the Earth's orbit at the epoch; addet adds it to a direction and subet takes it off, and the two undo each other to third order in the E-terms (below 2e-17 radian for any epoch from 1000 to 3000); eg50 and ge50 go between FK4 B1950 positions and IAU 1958 galactic coordinates, inverting each other to 1e-10.", "quantifier": "all directions, all epochs (bounds: epochs 1000 to 3000)", "why_tests_cant": "Error bounds over the whole sphere and all epochs.", "anchors": ["src/etrms.cc:etrms", "src/addet.cc:addet", "src/subet.cc:subet", "src/eg50.cc:eg50", "src/ge50.cc:ge50"]}
{"id": "C57", "title": "Nutation series", "statement": "nutc80 returns the 106-term IAU 1980 nutation series and mean obliquity at every date; nutc's result is bounded by about 19.5 and 10.1 arcseconds plus its secular terms, and over 1900-2100 the two agree to within 0.38 arcsecond in longitude, 0.05 in obliquity and 0.05 in mean obliquity, the disagreement the documentation states.", "quantifier": "all dates; the comparison: all dates from 1900 to 2100", "why_tests_cant": "106 and 194 trigonometric terms at every date; a wrong small coefficient is invisible at any single date.", "anchors": ["src/nutc80.cc:nutc80", "src/nutc.cc:nutc"]}
{"id": "C58", "title": "ET-UT estimate is continuous", "statement": "dt follows the three documented parabolic models, changes model at one epoch in 979 and one in 1708, and has no jump there (below a nanosecond).", "quantifier": "all epochs", "why_tests_cant": "Continuity over all epochs.", "anchors": ["src/dt.cc:dt"]}
{"id": "C59", "title": "Space motion is a straight line", "statement": "pm gives the direction, at the new epoch, of a point moving uniformly from the given direction with the tangential velocity of the proper motions and the radial velocity times parallax; right ascension is in 0..2pi; equal epochs or pure radial motion leave the direction unchanged.", "quantifier": "all positions, motions, parallaxes, velocities and epochs", "why_tests_cant": "Continuum of arguments.", "anchors": ["src/pm.cc:pm"]}
{"id": "C60", "title": "Low-precision Earth", "statement": "earth depends only on the instant, however the year, day and fraction express it; between 1800 and 2199 the distance stays within 0.983..1.017 AU and the speed within 29.27..30.31 km/s; between 1901 and 2099 the position is that of Newcomb's ellipse shifted away from the mean Moon to 4.5e-5 AU, and the velocity is the rate of change of that path to 11 m/s; ecor is the projection of that velocity and position on the line of sight.", "quantifier": "all years, days and fractions in the stated ranges; all directions", "why_tests_cant": "Every date and direction.", "anchors": ["src/earth.cc:earth", "src/ecor.cc:ecor"]}
{"id": "C61", "title": "refv turns the vector towards the zenith by the refraction", "statement": "refv keeps the azimuth at every elevation, leaves the zenith alone, keeps the vector's length to fourth order in the refraction, and above 3 degrees elevation lowers the zenith distance by atan of the first Newton correction of the two-term law; the result satisfies the law to 3 microarcseconds within 30 degrees of the zenith and to 1 milliarcsecond within 70. The documented 1 microarcsecond within 30 degrees is refuted. Below 3 degrees the correction is held constant.", "quantifier": "all directions and coefficients in the stated ranges", "why_tests_cant": "Accuracy over a continuum of directions and coefficients.", "anchors": ["src/refv.cc:refv"]}
{"id": "C62", "title": "Earth's computed orbit stays physical", "statement": "For every date within a thousand years of J2000, epv puts the Earth between 0.95 and 1.05 AU from the Sun, moving at 0.0167 to 0.0177 AU per day, and the Sun within 0.016 AU of the solar-system barycentre.", "quantifier": "all real dates with |date - 51544.5| <= 365250", "why_tests_cant": "A corrupted row in a table of several thousand numbers may show only at dates no test samples; the bound must hold on a continuum of dates.", "anchors": ["src/epv.cc:epv"]}
{"id": "C63", "title": "Moon's computed distance stays physical", "statement": "For every date within ten centuries of 1900, dmoon puts the Moon between 0.00236 and 0.00282 AU from the geocentre.", "quantifier": "all real dates with |centuries since 1900| <= 10", "why_tests_cant": "Must hold on a continuum of dates, through the interference of dozens of periodic terms.", "anchors": ["src/dmoon.cc:dmoon"]}
{"id": "C64", "title": "The relativistic clock correction is the published series, and makes a sound time scale", "statement": "rcc returns the sum of the diurnal terms, the 787-row Fairhead-Bretagnon Poisson series and the planetary mass adjustment for any date, universal time and observer. Within a millennium of J2000 it is the annual sine of 1.657 ms up to 63.6 + 111|t| microseconds plus the observer's share. The observer's share is linear in the two distances, vanishes at the geocentre, stays below 2.4 microseconds within 6400 km of it, and only depends on the local solar time. The geocentric correction changes by less than 32 microseconds a day, so TDB minus the correction runs forward.", "quantifier": "every real date, universal time, longitude and pair of distances; every pair of dates within a millennium of J2000 for the rate", "why_tests_cant": "787 sines of incommensurable frequencies have no worst date a test could pick; the bounds and the monotonicity concern every date and every pair of dates", "anchors": ["src/rcc.cc: rcc"]}
{"id": "C65", "title": "Pseudo-random numbers: range, seeding and threads", "statement": "Every value random returns, in every history, lies in [0, 1). The seed counts in the first call only, its sign does not count, and every finite seed gives an odd integer seed between 316227 and 3162279 without overflow. With thread-local state every interleaving gives each thread the numbers its own calls would give it alone.", "quantifier": "every engine that keeps the standard's contract, every finite seed, every history of calls, every schedule of any number of threads", "why_tests_cant": "hidden state makes the result depend on the whole history and on the schedule; the engine is implementation defined", "anchors": ["src/random.cc: random", "src/slalib.h: SLALIB_THREAD_LOCAL"]}
{"id": "C66", "title": "Normal deviates: pairs, scaling and termination", "statement": "gresid returns stdev times the next term of a sequence no stdev enters. Its calls pair up: a pair takes the first point of the stream inside the unit circle and returns the Box-Muller deviates, in the same direction with squared length -2 ln r. A call returns exactly when a deviate is left over or the stream reaches the circle. Threads do not disturb each other.", "quantifier": "every engine that keeps the contract, every state, every history of standard deviations, every schedule", "why_tests_cant": "the result depends on hidden state and on an unbounded rejection loop; normality is a property of the transformation for every point", "anchors": ["src/gresid.cc: gresid"]}
{"id": "C67", "title": "Version number and string", "statement": "The version integer is M*1000000 + N*1000 + R, gives the three numbers back and orders like versions; the version string reads back as the same three numbers.", "quantifier": "every triple of version numbers the format has room for", "why_tests_cant": "a test sees the one version that is compiled in; the encoding must stay sound for every future one", "anchors": ["src/veri.cc: veri", "src/vers.cc: vers", "src/slalib.h: SLALIB_PACKAGE_VERSION_MAJOR"]}
{"id": "C68", "title": "Waiting rounds to whole seconds", "statement": "wait sleeps the whole number of seconds nearest to the request, not at all below half a second or for a negative one.", "quantifier": "every finite float of magnitude up to 2147483520", "why_tests_cant": "needs all floats; halves and the conversion to int are boundary cases of rounding", "anchors": ["src/wait.cc: wait"]}
{"id": "C69", "title": "Earth ephemeris: the four vectors share one frame chosen by the epoch argument", "statement": "evp(date, deqx) returns barycentric and heliocentric velocity and position of the Earth. For deqx > 0 each of the four vectors is the vector of date multiplied by the one IAU 1976 precession matrix from the Julian epoch of the date to deqx. For deqx <= 0 all are referred to the mean equator and equinox of date, whatever the value of deqx. Hence no length, distance or angle among the vectors depends on deqx.", "quantifier": "every date and every deqx", "why_tests_cant": "A test compares a few dates and epochs; one vector left out of the rotation, or rotated the wrong way, is invisible for epochs near the date, and the claim is about every pair.", "anchors": ["src/evp.cc: evp", "src/prec.cc: prec", "src/dmxv.cc: dmxv"]}
{"id": "C70", "title": "Earth ephemeris: distance, speed and place of the Earth", "statement": "For every date within ten centuries of 1900 evp puts the Earth between 0.982 and 1.019 AU from the Sun, moving at 1.94e-7 to 2.04e-7 AU/s, opposite (to 5.5e-4 AU) to the place of Newcomb's unperturbed Sun; the barycentric vectors differ from the heliocentric ones by at most 0.0107 AU and 1.16e-10 AU/s; and both positions agree, to 2e-9 and 8.3e-9 AU, with the published theory evaluated without any reduction of angles.", "quantifier": "every date with |(date - 15019.5)/36525| <= 10 (and every deqx for the distances and speeds)", "why_tests_cant": "The bounds must hold at every instant of two thousand years, including the instants at which a reduced angle jumps by a turn.", "anchors": ["src/evp.cc: evp"]}
{"id": "C71", "title": "Earth ephemeris: velocity is the rate of change of position relative to the stars", "statement": "The heliocentric and barycentric velocities of evp are, to 4.1e-12 and 7.1e-12 AU/s (0.6 and 1.1 m/s), the time derivatives of its positions once the turning of the axes of date (general precession about the pole of the ecliptic) is taken off.", "quantifier": "every date with |(date - 15019.5)/36525| <= 10", "why_tests_cant": "The velocity comes from separate truncated series and separately rounded constants; that they stay consistent with the position series at every date is a statement about all dates, and a sign or rate wrong in one small term shows only at some of them.", "anchors": ["src/evp.cc: evp"]}
{"id": "C72", "title": "Moon positions are those of the lunar theories", "statement": "Within ten centuries of 1900 dmoon's position is that of the full lunar theory (mean arguments with additive terms, the three series in longitude, latitude and parallax, distance from the parallax) at the given date, turned to the mean equator and equinox of date, within 2e-15 AU; for every year and day, moon's position is that of the short theory at the epoch the calendar arguments denote, within 5e-12 AU.", "quantifier": "all dates within ten centuries of 1900 (dmoon); all years, days and day fractions whose time arithmetic does not overflow (moon)", "why_tests_cant": "Holds at every instant, including those where an argument wraps; tests sample dates.", "anchors": ["src/dmoon.cc:dmoon", "src/moon.cc:moon"]}
{"id": "C73", "title": "The two Moon routines agree", "statement": "For every instant of the years 1901 to 2099, the position moon gives for the year, day of year and fraction and the position dmoon gives for the Modified Julian Date of the same instant differ by at most 2e-5 AU (0.8 percent of the distance).", "quantifier": "all years 1901 to 2099, all days of the year, all fractions of a day", "why_tests_cant": "Worst-case agreement of two 125-term and 72-term series over two centuries; tests sample instants.", "anchors": ["src/moon.cc:moon", "src/dmoon.cc:dmoon"]}
{"id": "C74", "title": "The Earth ephemerides agree", "statement": "Within fifty Julian years of J2000.0 the heliocentric Earth position epv gives and the one evp gives for equinox 2000 differ by at most 0.0024 AU; for every instant of the years 1901 to 2099 the position earth gives for the year, day of year and fraction and the one evp gives, of date, for the Modified Julian Date of the same instant differ by at most 6.3e-4 AU, and the velocities of the two by at most 4.3e-10 AU per second; where the two ranges overlap, the position of earth precessed to J2000.0 and that of epv differ by at most 0.0031 AU.", "quantifier": "all dates within 18262.5 days of J2000.0 (epv and evp); all years 1901 to 2099, all days of the year and fractions of a day (earth and evp)", "why_tests_cant": "Worst-case agreement, over a century and over two, of a 1800-term series, of a perturbed ellipse precessed to J2000 and of a low-precision ellipse; tests sample instants.", "anchors": ["src/epv.cc:epv", "src/evp.cc:evp", "src/earth.cc:earth"]}
