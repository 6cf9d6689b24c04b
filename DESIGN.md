# Formal model of cyberhull/slalib-cpp in Rocq

The code under study is a C++ port of the SLALIB positional-astronomy library (`/repo/src`). It is a library of pure functions: there is no I/O, no concurrency and (apart from the generator state of `random`/`gresid`) no state. What users rely on is that calendar arithmetic, enumeration, linear algebra and spherical geometry are right for *every* argument. Those are the properties in `properties.jsonl`.

## Modelling approach

* **Integer code** (calendar, `combn`, `permut`, table lookups, status logic) is modelled over `Z` with C++'s truncating `/` and `%` (`Z.quot`, `Z.rem`). Every 32-bit signed operation is range-checked in the model: overflow is the distinct outcome `None` (undefined behaviour), never a wrapped or ideal value.
* **Floating-point code** is written once, generically over a record `Num` of numeric operations (literals, + - * /, sqrt, fabs, fmod, trunc, round, comparisons, int casts, libm functions). It is instantiated
  * with the reals `R` (exact arithmetic; the libm functions are the real functions; `atan2` is defined from `atan`): geometry, algebra, derivative and optimality theorems;
  * with Flocq's IEEE-754 `binary_float` (binary64 and binary32, round to nearest even): theorems about rounding, ranges and boundary cases for every finite input. `fmod`, `trunc`, `round` and the int casts are defined on mantissa/exponent pairs; trigonometric libm functions are left abstract (an argument of the instance), and no binary64 theorem uses them unless stated.
* **Arrays written in place**: where aliasing or bounds matter (`mxv`, `mxm`, `vxv`, `permut`, ...) a store model with explicit addresses is used.
* **Undefined behaviour** (signed overflow, double to int out of range, out-of-bounds access) is an explicit `None` outcome.
* When the documented property is false of the code the theorem is a refutation (`..._refuted`) with a concrete witness, next to the strongest true statement.

### Simplifications in the real instance
* The decimal literals of pi and 2*pi denote the exact constants in the real instance (they denote the nearest double in the binary64 instance). All other literals are taken at their exact decimal value.
* IEEE signed zeros, infinities and NaN do not exist in the real instance; theorems there carry the guards (nonzero denominators, arguments in the domain of `sqrt`/`asin`) under which the real operation is what the C++ operation approximates.

## Layout

`theories/M_*.v` models (definitions only, each citing file and lines), `S_*.v` independent specifications, `L_*.v` lemmas and proofs, `P_*.v` the property theorems (each closed by `exact`, with `Print Assumptions` beneath) and the non-vacuity examples.

## Plan per property

* **C01** Gregorian date to MJD is an exact day count. Model cldj over Z with C++ truncating / and % and an explicit undefined-behaviour outcome for 32-bit overflow. Spec: independent day counter (sum of year lengths and month lengths from the leap-year rule). Proof: algebra over Z for all dates.
* **C02** MJD to Gregorian date is the inverse of Gregorian date to MJD. Model of djcl's integer part over Z; prove both compositions with cldj are the identity against the same day-count spec; the double part is C07.
* **C03** Status and output discipline of the calendar conversions. Model returns (status, output variable) with the old output as an argument; theorem is a full case characterisation.
* **C04** No signed overflow for accepted calendar inputs. Same models with the overflow outcome: exact boundary theorems, and a refutation witness for the documented range.
* **C05** Two-digit year defaults. Z model of process_year_defaults; theorem by cases.
* **C06** Year and day-in-year in the aligned Julian calendar. Z model of clyd; spec: Julian-calendar day number; theorem by Z arithmetic.
* **C07** djcl splits a double MJD exactly into day and fraction. Generic numeric model instantiated with Flocq binary64 (exact fmod defined on mantissa/exponent); theorem for every finite input.
* **C08** djcal rounds and carries correctly. Same; rounding expressed with the reals under B2R.
* **C09** Days/radians to sexagesimal fields are canonical. Same (binary64) and exact-real instance; field ranges and mixed-radix value.
* **C10** Sexagesimal to days/radians: status and value. Generic model; status part over Z and reals, value part in the real instance.
* **C11** Sexagesimal round trip. Real instance; combination of C09 and C10.
* **C12** drange normalises into +/- pi. Generic model, real instance and binary64 instance.
* **C13** dranrm normalises into 0..2pi. Generic model, real and binary64 instances; refutation of the half-open range by a computed witness.
* **C14** combn enumerates all combinations exactly once. List-of-Z state machine; successor proved to be the colexicographic successor; counting by induction.
* **C15** permut enumerates all permutations exactly once. State machine with memory-bounds-checked arrays; mixed-radix counter and bijection digits to permutations.
* **C16** dmat solves simultaneous equations, inverts and gives the determinant. Model of the in-place Gauss-Jordan routine over index functions, generic n; invariant relating the working matrix to the exchanged original, with the product of pivots equal to a leading minor.
* **C17** dmat reports singularity. Contrapositive of C16 plus a greedy row choice that describes partial pivoting without the program's state.
* **C18** svd factorises. M_Svd.v models the three phases of svd.cc over any Num; Householder reflections and Givens rotations are isometries (L_SvdA, L_SvdD), loop invariants A = U B V^T for bidiagonal B through the reduction (L_SvdB), the accumulation (L_SvdC) and every QR sweep (L_SvdE); negligible elements dropped cost eps*an each. Refutation by vm_compute in binary64.
* **C19** svdsol solves least squares, svdcov gives the covariance. Models of svdsol and svdcov over index functions; residual written in the coordinates of V by the orthogonality of the factors.
* **C20** Spherical/Cartesian conversion round trip. Generic numeric model. Real instance: exact theorems over all arguments. Binary64 instance: error bounds (P_Float2) for every finite input with norm between 1e-130 and 1e150, relative to a stated accuracy of sin, cos and atan2.
* **C21** Spherical/Cartesian position-velocity conversion. Generic numeric model, real instance (exact arithmetic); theorem over all real arguments satisfying the stated guards. Binary64 ds2c6: errors relative to magnitudes, carried through sums and products.
* **C22** Axial vector and rotation matrix. Generic numeric model, real instance (exact arithmetic); theorem over all real arguments satisfying the stated guards. Binary64 instance of dav2m: distance of the computed matrix from the exact rotation, bounded by the library's error and rounding (L_FloatAv, P_Float10).
* **C23** deuler composes elementary rotations. Generic numeric model, real instance (exact arithmetic); theorem over all real arguments satisfying the stated guards. Also in binary64 by an error calculus (L_Flt) and a Frobenius-norm induction over the string (L_FloatMat).
* **C24** Matrix kernels and aliasing. Generic numeric model, real instance (exact arithmetic); theorem over all real arguments satisfying the stated guards. Also rounding errors in binary64 (L_FltVec, L_FloatMat).
* **C25** Vector kernels. Generic numeric model, real instance (exact arithmetic); theorem over all real arguments satisfying the stated guards. Also rounding errors in binary64 and binary32 (L_FltVec, L_FloatVec).
* **C26** Angular separation is a metric angle. Generic numeric model. Real instance: exact theorems over all arguments. Binary64 instance: absolute error bounds (P_Float2), uniform over all separations including 0 and pi.
* **C27** Bearing and position angle. Generic numeric model. Real instance: exact bearing. Binary64 instance of dbear: rounding of the two components by the analyser of L_Err, libm error by Lipschitz bounds, then the arctangent.
* **C28** Equatorial/horizon conversion round trip. Generic numeric model. Real instance: exact conversion and round trips. Binary64 instance: rounding of the vector by the analyser of L_Err, libm error by Lipschitz bounds, then hypotenuse and arctangents.
* **C29** Zenith distance and parallactic angle agree with the horizon conversion. Generic numeric model. Real instance: exact. Binary64 instance of zd and pa: as C28.
* **C30** altaz velocities and accelerations are derivatives. Generic numeric model, real instance (exact arithmetic); theorem over all real arguments satisfying the stated guards. Binary64 instance: the two routes give identical doubles, NaNs and infinities included (L_FloatAz, P_Float10).
* **C31** Tangent-plane projection round trip. Generic numeric model, real instance (exact arithmetic); theorem over all real arguments satisfying the stated guards. Binary64 instance: as C28, with a quotient bound for the projection.
* **C32** Tangent point recovery from a star. Generic numeric model, real instance (exact arithmetic); theorem over all real arguments satisfying the stated guards.
* **C33** Hour angle from azimuth / parallactic angle. Generic numeric model, real instance (exact arithmetic); theorem over all real arguments satisfying the stated guards.
* **C34** Ecliptic/equatorial conversion round trip. Models of eqecl/ecleq over the reals; spec: frame rotation by precession then obliquity applied to the unit vector (S_Frame.v).
* **C35** Galactic and supergalactic conversions round trip. Models with the literal matrices; spec: the frame built from the pole and node; numeric enclosures of sine and cosine (L_Trig.v) give the matrix error, then a Lipschitz bound for normalisation gives the direction error.
* **C36** Precession and nutation matrices are rotations. Models of prec, precl, prebn, nut, prenut, ecmat, preces; polynomials restated in S_Frame.v, matrices as products of elementary frame rotations.
* **C37** Epoch conversions invert each other. Models of epj, epj2d, epb, epb2d, epco (all characters); spec: the two epoch formulas; a refutation for the lower-case designations.
* **C38** TAI-UTC is the published leap-second table. Model of the if-chain; spec: list of leap-second dates (checked against the calendar spec of C01) and a count; segments before 1972. Binary64 instance: integer comparisons are exact, early segments by the analyser of L_Err.
* **C39** fitxy minimises the residuals. Model of both branches on top of dmat; normal equations give a Pythagorean identity for the misfit, by induction on the number of samples.
* **C40** fitxy reports insufficient or degenerate data. Degenerate sample sets give a kernel vector of the normal matrix, so dmat reports it (C17).
* **C41** Linear-model inversion, application and decomposition. Models of xy2xy, invf (None for the failure return), dcmpf. Spec: the affine map, and the four documented steps (zero point, scale, non-perpendicularity, orientation) composed; field identities plus atan2 facts. Binary64 xy2xy: errors relative to magnitudes.
* **C42** pxy residual statistics. pxy's loop as a fold over the sample list; spec: mean of squared residuals and its square root; list induction. In binary64 the running sums are followed by an invariant (relative error growing by 1.01 u per sample) and Cauchy's inequality turns the error of the residuals into one of their root mean square.
* **C43** Radial distortion removal inverts application. Models of pcd and unpcd (all three branches of the cubic). Spec: r(1+k r^2) scaling; monotonicity of the cubic, Cardano and trigonometric forms, comparison of the three roots. Binary64 pcd: errors relative to magnitudes.
* **C44** Refraction integration terminates and computes the ray integral. Generic model of refro with a ghost sample counter and fuel-free totality proof (strips double until 16384). Spec: Simpson's rule, a refinement relation and the ray invariant, written without the program's state. Atmosphere: derivative of the index proved with Coquelicot.
* **C45** refco agrees with refro at its two fitting points. refco modelled on top of refro; linear solve checked by field; literals by rational enclosures of sin and cos.
* **C46** refz inverts the refraction law, is continuous and flat beyond 93 degrees. Two Newton steps with a second-order remainder bound (mean value theorem); continuity by composition after writing refz as one expression. Binary64: interval error analysis of each Newton step with libm errors carried as input errors; no double lies between the rounded and the real 83 degree limit, so the branch is exactly the real one.
* **C47** Dispersion and quick refraction coefficients respect their guards. Closed formulas in S_Refr (water vapour, refractivity, Green's coefficients); equality by field.
* **C48** Observatory lookup. Table generated from the source by tools/gen_obs.py; strncmp modelled on NUL-terminated strings; search by induction on the table; coordinates by one pass over the 85 entries.
* **C49** Earth ephemeris velocity is the derivative of position. M_Eph.v (epv, tables generated into M_EphTab.v from epv.cc); velocity = derivative by differentiating the Poisson series (Coquelicot), generic in the tables.
* **C50** Moon ephemeris velocity is the derivative of position. M_Eph.v (dmoon, moon, tables in M_EphTab.v), S_Moon.v (the two lunar theories as functions of time); all arguments and series differentiated, the computed values shown close to the theory's (L_Moon3 to L_Moon8), then the spherical-to-Cartesian step and the frame of date.
* **C51** Observer position and velocity. Models of geoc and pvobs. Spec: foot of the vertical on the spheroid (ellipse equation and normal direction) plus height along it; velocity as derivable_pt_lim of the position. Binary64: the squared radius factor is rounded first, then the rest analysed with it as an input (L_FloatObs).
* **C52** Radial velocity components. Models of the five functions. Spec: minus the dot product with a velocity vector, the vectors given through the galactic frame of S_Frame.v and precession from 1900; numeric enclosures for the literals. Binary64 instance: as C28.
* **C53** Sidereal time. Models of gmst, gmsta, eqeqx; spec: IAU 1982 polynomial plus UT, equality modulo whole turns within a stated tolerance.
* **C54** Polar motion. Model of polmo with the 0/0 at the pole as None. Spec: frame_y x . frame_x y applied to the direction; azimuth correction as the difference of bearings of an arbitrary target. Binary64 instance: distance of the computed direction from the exact one (L_FloatPol, P_Float10).
* **C55** Air mass. Model of airmas; evenness, clamp and monotonicity by factoring the difference of the polynomial. Binary64 instance: analyser of L_Err after the cosine, Lipschitz bound before it.
* **C56** E-terms and B1950 galactic coordinates. Models of etrms, addet, subet, eg50, ge50; spec: aberration vector and normalised sums; second-order error estimate for the round trip. In binary64 (P_Float7): every result lands within a stated multiple of libm accuracy and rounding unit of the same exact direction, and the round trips close.
* **C57** Nutation series. Both series generated as tables/straight-line code from the source (tools/gen_nutc.py); the published IAU 1980 table is written separately in S_Nut.v; the 194-term series is compared with it row by row by a checked matching. Binary64: error analysis of the arguments, exact reduction, and of the whole series (L_FloatNut, L_FloatNutc; the loop over the tables is analysed by running the model over expressions).
* **C58** ET-UT. Model of dt; three parabolas and their meeting points. Binary64 instance: analyser of L_Err on each parabola, and the jump at the rounded switch.
* **C59** Space motion is a straight line. Model of pm. Spec: derivative of the direction along the proper motion (derivable_pt_lim), straight-line motion, normalisation. Binary64: error analysis of the moved vector, then the conversion back to angles (L_FloatPm).
* **C60** Low-precision Earth. Model of earth (int part with overflow outcome) and ecor. Spec: day count of the every-fourth-year calendar; triangle inequalities for the bounds; Newcomb's ellipse and the mean Moon for the position (C60_earth_newcomb); the derivative of that path for the velocity (C60_earth_velocity: second law for the truncated equation of the centre, then term by term).
* **C61** refv turns the vector towards the zenith by the refraction. refv modelled over Num; exact tangent form of the residual, bounded by monotone estimates; refutation at tan z = 0.577 with rational arithmetic. Binary64: interval error analysis in three ranges of the limited z component.
* **C62** Earth's computed orbit stays physical. Amplitude sums of the tables of M_EphTab.v by vm_compute, then the triangle inequality around the leading circular term.
* **C63** Moon's computed distance stays physical. Parallax bounds from amplitude sums, distance from the parallax, norm preserved by the frame up to the equinox correction.
* **C64** The relativistic clock correction is the published series, and makes a sound time scale. model rcc.cc over any Num with the table generated; prove equality with the series up to the decimal pi (argument reduction by fmod is harmless), amplitude and Lipschitz bounds by exact summation of the table, linearity in the observer's distances
* **C65** Pseudo-random numbers: range, seeding and threads. model the static variables as explicit state, the engine as a parameter, threads as a schedule over per-thread states; induction on histories and schedules
* **C66** Normal deviates: pairs, scaling and termination. model the static variables as state and the do-while loop with fuel; first-hit characterisation of the loop by induction; Box-Muller identities over the reals; float grid lemma (r is 0 or at least 2^-48)
* **C67** Version number and string. checked int arithmetic for veri, Coq strings and the standard library's decimal printer for the stringised macros
* **C68** Waiting rounds to whole seconds. model the argument of sleep_for; IEEE rounding half away via Flocq
* **C69** Earth ephemeris: the four vectors share one frame chosen by the epoch argument. Model: evp over reals (M_Evp.v, tables generated from the source). Proof: case split on the sign of the epoch, prec equals the specified IAU 1976 matrix, rotations preserve lengths.
* **C70** Earth ephemeris: distance, speed and place of the Earth. Model: M_Evp.v. Spec: S_Evp.v (Newcomb's Sun in degrees and arcseconds; Stumpff's theory as plain functions of time). Proof: each fmod by the source's 2 pi constants is within a stated angle of the unreduced one; amplitudes of all series are summed exactly; interval bounds by structure.
* **C71** Earth ephemeris: velocity is the rate of change of position relative to the stars. Proof: derivative of every series taken symbolically, compared with the source's velocity series: equation of the centre and its rate agree to the fifth power of the eccentricity, planetary part to second order, each rate constant compared with 86400 x 36525 times the table's; the equatorial axes add the obliquity and equinox rates and the precession.
* **C72** Moon positions are those of the lunar theories. S_Moon.v states both theories in degrees without reduction; L_Moon3 to L_Moon8 bound the difference from the model.
* **C73** The two Moon routines agree. S_Calendar.v gives the date of the instant; L_Moon9 and L_Moon10 match the tables and bound the differences of arguments, series, obliquity and equinox.
* **C74** The Earth ephemerides agree. (L_Agree, L_Agree2, L_Agree4) both theories are brought to Newcomb's ellipse. epv: the three leading terms of each coordinate against the ellipse expanded in the eccentricity, the tails bounded by their amplitudes in the kernel; evp: C70_evp_newcomb, then the IAU 1976 precession to J2000 compared with a turn about the pole of the ecliptic by expanding all the rotations to second order. earth: elements, equation of the centre and radius against Newcomb's. Velocities: radial and transverse rates of evp against those of an unperturbed ellipse, perturbation and Moon rates bounded by their amplitudes, then the angles and the eccentricity of the two ellipses compared.

## Trusted base

Coq 8.16.1 kernel; the axioms printed by `Print Assumptions` under each theorem (only those of the standard library's real numbers and classical logic: `ClassicalDedekindReals.sig_forall_dec`, `ClassicalDedekindReals.sig_not_dec`, `FunctionalExtensionality.functional_extensionality_dep`, and where used `Classical_Prop.classic`); and the reading of the C++ source by which the model was written. The code was not compiled or run. vcheck also lists `Coq.ssr.ssrunder.Under_rel.*` and `Coq.Reals.Rdefinitions.R*Impl.*`: these are sealed standard-library modules, not assumptions a theorem prints.

The IEEE theorems also trust that the compiler evaluates `double` as binary64 and `float` as binary32, round to nearest even, without extra precision or contraction, and that `fmod`, `trunc`, `round` are exact. The other libm functions are an arbitrary parameter (`libm` in NumB.v); theorems that need sin, cos or atan2 to be accurate say so by the hypothesis `libm_ok lm k` (S_Float.v), which L_FloatLibm.v shows to hold of a correctly rounded libm with k = 2^-52. Error bounds of longer straight-line code are computed by a verified interval analyser (`ana` in L_Err.v, soundness `ana_sound`), run by `vm_compute` inside the proofs; the analyser is not trusted.

## What is modelled and what is not

The list of modelled functions is the set of definitions in `theories/M_*.v`; each cites its source lines. By file:

* `M_Calendar`: process_year_defaults, cldj, caldj, clyd, calyd, the integer part of djcl and djcal.
* `M_Angle`: drange, dranrm, dd2tf, dr2tf, dr2af, dtf2d, dtf2r, daf2r, djcl, djcal.
* `M_Single`: cd2tf, cr2tf, cr2af with their float and double conversions.
* `M_Enum`: combn, permut.
* `M_Vec`: dvdv, dvxv, dvn, dmxv, dimxv, dmxm, dcs2c, dcc2s, ds2c6, dc62s, dav2m, dm2av, deuler. `M_Mem`: the same matrix and vector kernels over a store with addresses.
* `M_Sphere`: dsepv, dsep, dbear, dpav, de2h, dh2e, zd, pa, altaz, ds2tp, dtp2s, dtps2c, dtp2v, dv2tp, dtpv2c, pda2h, pdq2h.
* `M_Frame`: prec, precl, prebn, preces, nut, prenut, ecmat, ecleq, eqecl, galeq, eqgal, galsup, supgal, etrms, addet, subet, eg50, ge50. `M_Nutc`: nutc, nutc80.
* `M_Epoch`: epj, epj2d, epb, epb2d, epco, dat, dtt, dt, gmst, gmsta, eqeqx.
* `M_Plate`: xy2xy, invf, dcmpf, pxy, pcd, unpcd, airmas.
* `M_Site`: geoc, pvobs, polmo, rverot, rvgalc, rvlg, rvlsrd, rvlsrk, pm, earth, ecor.
* `M_Refr`: refro, refco, refcoq, refz, refv, atmdsp.
* `M_Obs`: obs (table generated from the source).
* `M_Lin`: dmat, smat, svdsol, svdcov. `M_Fit`: fitxy. `M_Svd`: svd (with one ghost flag, q_skip, that no computation reads).
* `M_Rcc` (table in `M_RccTab`, generated by tools/gen_rcc.py from the source): rcc.
* `M_Misc`: random, gresid (static variables as explicit state, the standard library's engine as a parameter, threads as schedules over per-thread states), veri, vers, wait (the duration passed to sleep_for).
* `M_Eph` (tables in `M_EphTab`, generated by tools/gen_eph.py from the source): epv, dmoon, moon.
* `M_Evp` (tables in `M_EvpTab`, generated by tools/gen_evp.py from the source): evp. The source keeps angles and series in `float` and the rest in `double`; the model has one number type, so single-precision rounding is not covered.

Single-precision twins (the functions without the leading `d`) have the same text with `float`; the generic model covers both, and the real-instance theorems do not distinguish them.

Not modelled as definitions of their own: the helpers of f77_utils.h (f_sign, f_nint, f_aint, f_anint, which appear inlined in the functions that call them) and the field accessors of slalib.h. Not modelled at all: tests/ and util/.

Outside every model: the C++ compiler, the accuracy of libm, and rounding in the real instance.

## Findings

Places where the code differs from its documentation or from what a caller would expect; each is a `_refuted` theorem or a stated guard.

* `drange(-pi)` is `+pi`; `dranrm` can return exactly 2*pi in binary arithmetic.
* `djcl` can return a fraction of exactly 1 (tiny negative MJD); a NaN MJD passes its range test and reaches an undefined conversion to int.
* `dtf2d` and `daf2r` report a NaN seconds argument as OK (the comparisons of the range test are all false).
* `ds2tp` interchanges the two antistar statuses.
* `dtps2c` second solution is wrong at the pole; `dtpv2c` misses the double root.
* `dpav` and `dbear` differ at a pole; `altaz` fixes the parallactic angle on the vertical.
* `epco` does not treat lower-case designations like upper-case ones; `dtt` does not use the documented fixed TAI-UTC before 1972.
* `combn`'s documentation misstates the final combination; `clyd`'s documented range starts too early.
* `dm2av` cannot recover the axis at exactly half a turn; `dc62s` reports the speed as distance at a null position; `dvn` is unsafe for partially overlapping arguments.
* `dvn` squares without scaling: a vector below about 1e-162 is returned unchanged with modulus 0, one above about 1e154 gives the null vector with infinite modulus.
* `djcl`/`djcal` overflow `int` for large dates; the calendar routines' accepted ranges include overflowing inputs.
* `unpcd` returns the far root on the circle 27*k*r^2 = -4 (for example k=-1/3 at (2/3,0) gives (-2,0) although (1,0) is nearer).
* `polmo` divides 0 by 0 for an observer exactly at a celestial pole: the azimuth correction is undefined there.
* `dcmpf`'s comment for step 4 repeats y''' where x''' is meant; the code is consistent with the corrected text.
* `refro`'s safe bounds do not keep it defined: a permitted lapse rate (about 1.86 K/km at sea level) makes the water vapour term divide by zero, and in hot air a permitted humidity does the same for the vapour pressure (also in `refcoq`).
* `refv` does not reach the documented 1 microarcsecond within 30 degrees of the zenith (about 1.4 for ordinary air).
* `dmat`/`smat` call a matrix singular on an absolute criterion (1e-20), so small but perfectly regular matrices are reported.
* `fitxy` with `sbr` set and two samples reports FIT_OK with an all-zero model when the measured points coincide or are nearer than 1e-5 (the failure of the first pass is not distinguished from a perfect fit).
* `moon`'s radial velocity leaves out the cosine of the parallax (its distance is 1/sin(parallax) but the rate is taken as if it were 1/parallax): a relative error up to 1.7e-4 of the radial rate.
* `svd` mishandles rank-deficient matrices: the cancellation of the superdiagonal beside a negligible w rotates ws[i] into f but never stores the companion ws[i] = c*ws[i], so that a run that cancels two or more elements returns 0 with U, w and V that do not multiply to A (3 x 3 example, off by more than 0.2).
* `gresid` returns NaN twice if its engine gives 0.5 twice in a row (log(0) is divided by the guard and multiplied by 0); the guard max(r, 1e-20) does not prevent it.
* `random` has undefined behaviour for an infinite first seed, and seeds s and 10|s|+9 start the same sequence.
* `wait` rounds its float argument to whole seconds, so it can return up to half a second early; beyond the range of `int` it is undefined.
