{
 "claims": [
  {
   "property": "C01",
   "status": "proved",
   "theorems": [
    "C01_cldj_counts_days",
    "C01_day_number_unique"
   ],
   "note": "Proved for the year range in which the int arithmetic is defined (C04 gives the exact bound)."
  },
  {
   "property": "C02",
   "status": "proved",
   "theorems": [
    "C02_djcl_is_the_date",
    "C02_djcl_of_cldj",
    "C02_cldj_of_djcl",
    "C02_djcal_same_date"
   ],
   "note": "Integer part; the floating-point split of the MJD is C07."
  },
  {
   "property": "C03",
   "status": "proved",
   "theorems": [
    "C03_cldj_status",
    "C03_cldj_linear_in_day",
    "C03_clyd_status",
    "C03_cldj_defined"
   ],
   "note": "cldj and clyd; caldj and calyd by C05."
  },
  {
   "property": "C04",
   "status": "proved",
   "theorems": [
    "C04_cldj_defined_iff",
    "C04_clyd_defined_iff",
    "C04_djcl_defined_iff",
    "C04_no_overflow_refuted"
   ],
   "note": "The claim is false of the code: exact domains are proved and C04_no_overflow_refuted gives witnesses."
  },
  {
   "property": "C05",
   "status": "proved",
   "theorems": [
    "C05_two_digit_years"
   ],
   "note": ""
  },
  {
   "property": "C06",
   "status": "proved",
   "theorems": [
    "C06_clyd_follows_julian",
    "C06_every_date_reached",
    "C06_day_in_year",
    "C06_clyd_agrees",
    "C06_agreement_1900_refuted"
   ],
   "note": "Agreement holds from 1901-01-01 to 2100-02-28; the documented start 1900-03-01 is refuted."
  },
  {
   "property": "C07",
   "status": "proved",
   "theorems": [
    "C07_djcl",
    "C07_djcl_rejects",
    "C07_djcl_not_finite",
    "C07_djcl_undefined",
    "C07_fraction_below_one_refuted"
   ],
   "note": "IEEE binary64, every finite double; the fraction in [0,1) is refuted (tiny negative MJD gives 1.0); NaN and MJDs from 534459924 up reach undefined behaviour."
  },
  {
   "property": "C08",
   "status": "proved",
   "theorems": [
    "C08_djcal"
   ],
   "note": "IEEE binary64; assumes only that std::pow(10,k) is within 1/2 of 10^k for k=0..9 (hypothesis pow10_good, met by a concrete pow)."
  },
  {
   "property": "C09",
   "status": "proved",
   "theorems": [
    "C09_dd2tf_canonical",
    "C09_dr2tf_canonical",
    "C09_dr2af_canonical",
    "C09_dd2tf_defined",
    "C09_fields_unique",
    "C09_dd2tf_binary",
    "C09_cd2tf_binary",
    "C09_dr2tf_binary",
    "C09_dr2af_binary",
    "C09_cr2tf_binary",
    "C09_cr2af_binary"
   ],
   "note": "Exact real arithmetic (defined exactly for ndp<=9 and fewer than 2^31 hours) and IEEE arithmetic for all six routines (binary64, and binary32 with the widening to double), with explicit error bounds."
  },
  {
   "property": "C10",
   "status": "proved",
   "theorems": [
    "C10_dtf2d_status",
    "C10_dtf2d_value",
    "C10_dtf2r",
    "C10_daf2r_status",
    "C10_daf2r_value",
    "C10_status_binary",
    "C10_time_binary",
    "C10_arc_binary",
    "C10_nan_binary_refuted"
   ],
   "note": "Exact real arithmetic, all ints; binary64: same status as the exact seconds, days within 6e-16 and radians within 5.1e-15. A NaN seconds argument is accepted as OK (refuted)."
  },
  {
   "property": "C11",
   "status": "proved",
   "theorems": [
    "C11_round_trip",
    "C11_total",
    "C11_time_binary",
    "C11_arc_binary"
   ],
   "note": "Exact real arithmetic, where rounding may carry to 24h, which dtf2d reports as bad hours; binary64: fields with up to 9 decimals (8 for arc) converted to days or radians and back are returned unchanged, for every set of fields and any seconds value within one unit in the last place."
  },
  {
   "property": "C12",
   "status": "proved",
   "theorems": [
    "C12_drange_real",
    "C12_drange_real_id",
    "C12_half_open_refuted",
    "C12_drange_binary",
    "C12_range_binary",
    "C12_drange_binary_id",
    "C12_range_binary_id",
    "C12_drange_not_finite"
   ],
   "note": "Real arithmetic, and IEEE binary64/binary32 for every value (exact with respect to the stored 2 pi); the half-open range is refuted (drange(-pi) = +pi)."
  },
  {
   "property": "C13",
   "status": "proved",
   "theorems": [
    "C13_dranrm_real",
    "C13_dranrm_real_id",
    "C13_dranrm_binary",
    "C13_ranorm_binary",
    "C13_half_open_refuted"
   ],
   "note": "Real arithmetic, and IEEE binary64/binary32 for every finite value; the half-open range is refuted in binary64."
  },
  {
   "property": "C14",
   "status": "proved",
   "theorems": [
    "C14_combn_enumerates",
    "C14_period",
    "C14_combn_invalid",
    "C14_documented_last_refuted"
   ],
   "note": "Integer model with bounds-checked arrays and overflow outcome; all call histories from an initialised array, ncand < INT_MAX. The final combination written in the header comment is refuted."
  },
  {
   "property": "C15",
   "status": "proved",
   "theorems": [
    "C15_permut_enumerates",
    "C15_permut_invalid"
   ],
   "note": "Integer model with bounds-checked arrays and overflow outcome; all call histories from an initialised state, n < INT_MAX."
  },
  {
   "property": "C16",
   "status": "proved",
   "theorems": [
    "C16_dmat",
    "C16_unique",
    "C16_determinant",
    "C16_matrix_only"
   ],
   "note": "Exact real arithmetic, every size n, any workspace contents; det is the recursive first-column expansion, characterised as normalised, row-linear and alternating. Outcome and determinant are independent of the right-hand side in any arithmetic."
  },
  {
   "property": "C17",
   "status": "proved",
   "theorems": [
    "C17_no_inverse",
    "C17_kernel",
    "C17_small_determinant",
    "C17_reported",
    "C17_only_singular_refuted"
   ],
   "note": "Every matrix without an inverse, with a nonzero kernel vector, or with |det| < 1e-20 is reported with determinant 0; whatever is reported has a pivot or leading determinant below 1e-20 under row pivoting. Refuted: that only singular matrices are reported (the criterion is absolute)."
  },
  {
   "property": "C18",
   "status": "proved",
   "theorems": [
    "C18_svd_wrong_shape",
    "C18_svd_orthogonal",
    "C18_svd_factorises",
    "C18_svd_factorises_any_rank_partial",
    "C18_svd_factorises_exact",
    "C18_svd_then_svdsol",
    "C18_svd_rank_deficient_refuted"
   ],
   "note": "Real arithmetic, with the program's floating-point equality tests read as a relative tolerance eps (0 and 2^-53 included). Rank-deficient matrices: refuted in binary64 by a 3 x 3 matrix; proved for runs that never cancel more than one superdiagonal element (_partial, ghost flag q_skip)."
  },
  {
   "property": "C19",
   "status": "proved",
   "theorems": [
    "C19_least_squares",
    "C19_discarded",
    "C19_shortest",
    "C19_covariance",
    "C19_covariance_form",
    "C19_normal"
   ],
   "note": "Exact real arithmetic, all m, n, all factorisations and all edits of w that set values to zero. Covariance given as propagation of unit errors, symmetric, positive semidefinite, inverse of the normal matrix when no w is zero."
  },
  {
   "property": "C20",
   "status": "proved",
   "theorems": [
    "C20_cs2c_binary",
    "C20_dcs2c_binary",
    "C20_dcc2s_binary",
    "C20_vector_round_trip_binary",
    "C20_angles_round_trip_binary",
    "C20_dcs2c_unit_vector",
    "C20_dcc2s_range",
    "C20_dcc2s_direction",
    "C20_dcc2s_dcs2c",
    "C20_dcc2s_poles_and_origin"
   ],
   "note": "Exact real arithmetic, and rounding errors in binary64 for any libm accurate to k: dcs2c within 3k+1.5u of the direction, dcc2s within 4k+2.6u, both round trips."
  },
  {
   "property": "C21",
   "status": "proved",
   "theorems": [
    "C21_ds2c6_binary",
    "C21_dc62s_binary",
    "C21_ds2c6_position",
    "C21_ds2c6_velocity",
    "C21_dc62s_ds2c6",
    "C21_ds2c6_dc62s",
    "C21_dc62s_pole",
    "C21_dc62s_origin",
    "C21_distance_is_length_refuted"
   ],
   "note": "Exact real arithmetic. At a null position dc62s reports the speed as the distance (C21_distance_is_length_refuted). C21_ds2c6_binary and C21_dc62s_binary bound the errors of the binary64 conversions in both directions."
  },
  {
   "property": "C22",
   "status": "proved",
   "theorems": [
    "C22_dav2m_binary",
    "C22_dav2m_rotation",
    "C22_dav2m_turns",
    "C22_dm2av_dav2m",
    "C22_dav2m_dm2av",
    "C22_half_turn",
    "C22_round_trip_refuted"
   ],
   "note": "Exact real arithmetic. The round trip is refuted at exactly half a turn, and proved everywhere else. Binary64: the matrix is within about 1e-14 of the rotation for vectors of ordinary length."
  },
  {
   "property": "C23",
   "status": "proved",
   "theorems": [
    "C23_deuler_binary",
    "C23_deuler_product",
    "C23_product_unique",
    "C23_deuler_rotation"
   ],
   "note": "All strings; exact real arithmetic, and binary64 with a libm accurate to k (C23_deuler_binary: Frobenius error at most 6.03 k + 27.6 u; a correctly rounded libm is shown to qualify)."
  },
  {
   "property": "C24",
   "status": "proved",
   "theorems": [
    "C24_dmxv_binary",
    "C24_dimxv_binary",
    "C24_dmxm_binary",
    "C24_rotation_binary",
    "C24_rotations_binary",
    "C24_mxv_binary",
    "C24_imxv_binary",
    "C24_mxm_binary",
    "C24_kernels",
    "C24_any_placement"
   ],
   "note": "Values in exact real arithmetic; aliasing for every arithmetic and every placement in memory; rounding errors in binary64, entry by entry and for products of near-rotations."
  },
  {
   "property": "C25",
   "status": "proved",
   "theorems": [
    "C25_dvdv_binary",
    "C25_vdv_binary",
    "C25_dvxv_binary",
    "C25_vxv_binary",
    "C25_dvn_binary",
    "C25_vn_binary",
    "C25_dvn_short_binary",
    "C25_dvn_any_length_refuted",
    "C25_dot_cross",
    "C25_dvn",
    "C25_any_placement",
    "C25_dvn_overlap_refuted"
   ],
   "note": "As C24; rounding errors in binary64 and binary32. dvn is not safe when the output starts strictly inside the input (refuted); it does not normalise vectors below about 1e-162 (returned unchanged, modulus 0) or above about 1e154 (null vector, infinite modulus; refuted)."
  },
  {
   "property": "C26",
   "status": "proved",
   "theorems": [
    "C26_dsepv_binary",
    "C26_dsep_binary",
    "C26_dsep_angle",
    "C26_dsepv_angle",
    "C26_symmetric",
    "C26_zero_iff_coincident",
    "C26_pi_iff_opposite",
    "C26_rotation_invariant",
    "C26_triangle"
   ],
   "note": "Exact real arithmetic, also the triangle inequality; rounding errors in binary64: dsepv within 2k+6.2u and dsep within 8.1k+9.3u of the angle, at every angle."
  },
  {
   "property": "C27",
   "status": "proved",
   "theorems": [
    "C27_dpav_binary",
    "C27_dbear_binary",
    "C27_dbear",
    "C27_bearing_determined",
    "C27_dpav",
    "C27_agree",
    "C27_dpav_pole",
    "C27_agree_at_pole_refuted"
   ],
   "note": "Exact real arithmetic; dbear also in IEEE binary64 (C27_dbear_binary): going from the first place along the returned bearing by the sine of the separation misses the second by at most 12.8 k + 33 u for longitudes up to 8 rad. dpav returns 0 seen from a pole, where it differs from dbear (refuted there, proved elsewhere). C27_dpav_binary: dpav within (2.002 k + 1.1e-14)/cos(latitude) for near-unit vectors."
  },
  {
   "property": "C28",
   "status": "proved",
   "theorems": [
    "C28_de2h_binary",
    "C28_dh2e_binary",
    "C28_round_trip_binary",
    "C28_round_trip_back_binary",
    "C28_de2h",
    "C28_horizon_determined",
    "C28_dh2e",
    "C28_dh2e_inverts_de2h",
    "C28_round_trip_angles",
    "C28_round_trip_back"
   ],
   "note": "Exact real arithmetic, and IEEE binary64 for every finite angle (C28_*_binary): each conversion lands within 13.5 k + 16.4 u of the exact direction and each round trip within 27 k + 26.5 u, for a libm accurate to k."
  },
  {
   "property": "C29",
   "status": "proved",
   "theorems": [
    "C29_zd_binary",
    "C29_pa_binary",
    "C29_zd",
    "C29_pa",
    "C29_pa_at_zenith",
    "C29_altaz_pa"
   ],
   "note": "Exact real arithmetic; zd and pa also in IEEE binary64 (C29_zd_binary: within 9.6 k + 9.5 u of the angle to the zenith; C29_pa_binary). altaz's parallactic angle on the vertical is pi - ha instead of 0."
  },
  {
   "property": "C30",
   "status": "proved",
   "theorems": [
    "C30_same_as_de2h_binary",
    "C30_same_as_de2h",
    "C30_velocities",
    "C30_accelerations"
   ],
   "note": "Exact real arithmetic; where the squared cosine of elevation exceeds the code's 1e-30 floor. Binary64: azimuth and elevation are bit for bit those of de2h, for every input."
  },
  {
   "property": "C31",
   "status": "proved",
   "theorems": [
    "C31_dv2tp_binary",
    "C31_status_binary",
    "C31_ds2tp_binary",
    "C31_dtp2s_binary",
    "C31_round_trip_binary",
    "C31_ds2tp",
    "C31_antistar_status_refuted",
    "C31_dtp2s",
    "C31_round_trip_plane",
    "C31_round_trip_sphere",
    "C31_dtp2v",
    "C31_cartesian_same"
   ],
   "note": "Exact real arithmetic. Cartesian forms for a non-polar tangent point. The documented meaning of the two antistar statuses is refuted (interchanged). In binary64: the status outside a sliver of 5k+14u at each limit, ds2tp and dtp2s errors, and the round trip, for libm accurate to k. C31_dv2tp_binary: the vector form within 6e-13 and 1e-12 for stars within 60 degrees."
  },
  {
   "property": "C32",
   "status": "proved",
   "theorems": [
    "C32_dtps2c_sound",
    "C32_dtps2c_complete",
    "C32_dtps2c_count",
    "C32_dtps2c_pole_none",
    "C32_dtps2c_pole_refuted",
    "C32_dtpv2c_sound",
    "C32_dtpv2c_same",
    "C32_dtpv2c_none",
    "C32_dtpv2c_count_refuted"
   ],
   "note": "Exact real arithmetic; non-polar stars. Refuted: second solution for a star at the pole with xi=0; dtpv2c's count at a double root."
  },
  {
   "property": "C33",
   "status": "proved",
   "theorems": [
    "C33_azimuth",
    "C33_azimuth_exact",
    "C33_parallactic",
    "C33_parallactic_exact"
   ],
   "note": "Exact real arithmetic, latitudes and declinations within +-pi/2; adjusted inputs within 2e-12, unchanged when 1e-12 away from critical values."
  },
  {
   "property": "C34",
   "status": "proved",
   "theorems": [
    "C34_eqecl_binary",
    "C34_ecleq_binary",
    "C34_round_trip_binary",
    "C34_eqecl",
    "C34_ecleq",
    "C34_round_trip",
    "C34_coordinates_recovered"
   ],
   "note": "Exact real arithmetic (directions recovered exactly, the coordinates themselves away from the poles) and rounding errors in binary64 for any libm accurate to k, years 3 to 3999: each conversion within 20k+104u of the exact direction, both round trips within 40k+208u."
  },
  {
   "property": "C35",
   "status": "proved",
   "theorems": [
    "C35_eqgal_binary",
    "C35_galeq_binary",
    "C35_galsup_binary",
    "C35_supgal_binary",
    "C35_rounding_binary",
    "C35_round_trip_binary",
    "C35_eqgal",
    "C35_galeq",
    "C35_galsup",
    "C35_supgal",
    "C35_galactic_round_trip",
    "C35_supergalactic_round_trip",
    "C35_pole_frame"
   ],
   "note": "Real instance: the J2000 galactic matrix is within 1e-6 of the frame built from the adopted pole and is orthogonal only to about 4e-11; hence the tolerances. Binary64: each conversion lands within 7.1k+20u of its exact result, and round trips follow."
  },
  {
   "property": "C36",
   "status": "proved",
   "theorems": [
    "C36_prec_binary",
    "C36_prebn_binary",
    "C36_precl_binary",
    "C36_ecmat_binary",
    "C36_preces_binary",
    "C36_nut_binary",
    "C36_prenut_binary",
    "C36_prec",
    "C36_prebn",
    "C36_precl",
    "C36_rotations",
    "C36_zero_interval",
    "C36_nut",
    "C36_prenut",
    "C36_ecmat",
    "C36_preces"
   ],
   "note": "Real instance, the precession polynomials restated independently in S_Frame.v; binary64: prec, prebn and precl within 6.03k+48u of the frame rotation for epochs 0 to 4000, ecmat within 6.03k+34u, preces within 14k+69u of the exact direction; nut within 6.03k+27.6u+1e-14 and prenut within 12.1k+86u+1e-14 over 1800-2200."
  },
  {
   "property": "C37",
   "status": "partial",
   "theorems": [
    "C37_epochs",
    "C37_julian_inverse",
    "C37_besselian_inverse",
    "C37_epco_partial",
    "C37_epco_otherwise_zero",
    "C37_epco_lowercase_refuted",
    "C37_epochs_binary",
    "C37_days_return_binary",
    "C37_years_return_binary",
    "C37_epco_binary"
   ],
   "note": "Real instance, and binary64 error bounds of every conversion and round trip. The documented lower-case designations j (result) and b (given) are refuted: the code does not fold their case and returns 0."
  },
  {
   "property": "C38",
   "status": "proved",
   "theorems": [
    "C38_leap_second_dates",
    "C38_dat_from_1972",
    "C38_dat_before_1972",
    "C38_dtt",
    "C38_dtt_fixed_before_1972_refuted",
    "C38_dat_binary",
    "C38_dtt_binary"
   ],
   "note": "Real instance. The calendar dates of the table are checked against the calendar specification. dtt's documented fixed value before 1972 is refuted. In binary64: dat is exact from 1972 on for every finite date, and within 2e-12 s before; dtt within 3e-12 s."
  },
  {
   "property": "C39",
   "status": "proved",
   "theorems": [
    "C39_six",
    "C39_four",
    "C39_four_close_pair_refuted"
   ],
   "note": "Exact real arithmetic. Six coefficients: the unique minimum. Four coefficients: minimum over both parities for three or more samples, or when the result is not the null model. Refuted for two samples nearer than 1e-5: FIT_OK with the null model."
  },
  {
   "property": "C40",
   "status": "proved",
   "theorems": [
    "C40_insufficient",
    "C40_unchanged",
    "C40_collinear",
    "C40_coincident",
    "C40_none",
    "C40_two_refuted"
   ],
   "note": "FIT_INSUFFICIENT exactly for too few samples; collinear (six) or coincident (four, three samples or more) measured points give FIT_NONE; FIT_NONE implies nearly singular normal equations; the model is untouched on failure. Refuted for two coincident points with four coefficients."
  },
  {
   "property": "C41",
   "status": "proved",
   "theorems": [
    "C41_xy2xy_binary",
    "C41_invf_binary",
    "C41_xy2xy",
    "C41_invf_inverse",
    "C41_invf_failure",
    "C41_invf_twice",
    "C41_dcmpf_recomposes",
    "C41_dcmpf_linear_part"
   ],
   "note": "Exact real arithmetic. Failure exactly when the determinant is zero. C41_xy2xy_binary bounds the rounding error of applying a model in binary64, C41_invf_binary that of inverting one, relative to the cancellation in its determinant."
  },
  {
   "property": "C42",
   "status": "proved",
   "theorems": [
    "C42_pxy_binary",
    "C42_pxy",
    "C42_pxy_bounds",
    "C42_zero_rms"
   ],
   "note": "Exact real arithmetic; any number of samples. C42_pxy_binary bounds the rounding errors of the binary64 routine: predicted points and the three root mean squares, for up to a million samples."
  },
  {
   "property": "C43",
   "status": "proved",
   "theorems": [
    "C43_pcd_binary",
    "C43_pcd",
    "C43_unpcd_undoes",
    "C43_unpcd_pcd",
    "C43_least_change",
    "C43_least_change_everywhere_refuted"
   ],
   "note": "Exact real arithmetic, every point and coefficient. The least-change claim fails exactly on the double-root circle 27*k*r^2 = -4 (C43_least_change_everywhere_refuted). C43_pcd_binary bounds the rounding error of applying distortion in binary64."
  },
  {
   "property": "C44",
   "status": "proved",
   "theorems": [
    "C44_terminates",
    "C44_clamps",
    "C44_odd",
    "C44_zenith",
    "C44_periodic",
    "C44_flat",
    "C44_vacuum",
    "C44_quadrature",
    "C44_surface",
    "C44_tropopause",
    "C44_stratosphere_gradient",
    "C44_troposphere_gradient",
    "C44_safe_bounds_refuted",
    "C44_humidity_refuted"
   ],
   "note": "Termination for every Num instance (floating point included); the rest in the real instance. Two _refuted theorems show permitted arguments for which a denominator is zero."
  },
  {
   "property": "C45",
   "status": "proved",
   "theorems": [
    "C45_fits",
    "C45_rays",
    "C45_vacuum"
   ],
   "note": "Real instance; the two literals are proved to be atan 1 and atan 4 to 1e-15."
  },
  {
   "property": "C46",
   "status": "proved",
   "theorems": [
    "C46_solves_binary",
    "C46_refz_binary",
    "C46_solves",
    "C46_odd",
    "C46_beyond",
    "C46_flat",
    "C46_continuous"
   ],
   "note": "Real instance; terrestrial means 0<=A<=0.0005, -1e-6<=B<=0 radians. C46_solves_binary and C46_refz_binary carry the result to IEEE binary64 for any libm with absolute error at most 1e-15 (up to 83 degrees the computed value is within 1.4e-15 rad of the exact one, beyond within 7.1e-14)."
  },
  {
   "property": "C47",
   "status": "proved",
   "theorems": [
    "C47_atmdsp_radio",
    "C47_atmdsp_same",
    "C47_atmdsp_vacuum",
    "C47_atmdsp_green",
    "C47_refcoq",
    "C47_refcoq_vacuum",
    "C47_refcoq_terrestrial"
   ],
   "note": "Real instance."
  },
  {
   "property": "C48",
   "status": "proved",
   "theorems": [
    "C48_number",
    "C48_exhausted",
    "C48_identifier",
    "C48_no_match",
    "C48_own_identifier",
    "C48_text",
    "C48_coordinates",
    "C48_sites"
   ],
   "note": "Search theorems hold for every Num instance; coordinates in the real instance. obs(\"\") selects the first station."
  },
  {
   "property": "C49",
   "status": "proved",
   "theorems": [
    "C49_velocity",
    "C49_velocity_any_tables",
    "C49_series"
   ],
   "note": "Derivative statement at every date for epv with its own tables and for any tables; positions characterised as the Poisson series of the tables in the ICRS frame. Exact arithmetic (real instance)."
  },
  {
   "property": "C50",
   "status": "proved",
   "theorems": [
    "C50_between_turns",
    "C50_moon_between_turns",
    "C50_velocity",
    "C50_moon_velocity"
   ],
   "note": "Exact arithmetic. The theory is a separate specification (S_Moon.v) with angles in degrees and no reduction to one turn; closeness by an error calculus over the series, derivative by differentiating every argument and term. moon's radial rate omits the cosine of the parallax, which is most of the 3e-8."
  },
  {
   "property": "C51",
   "status": "proved",
   "theorems": [
    "C51_pvobs_binary",
    "C51_geoc_binary",
    "C51_geoc",
    "C51_pvobs_position",
    "C51_pvobs_velocity"
   ],
   "note": "Exact real arithmetic; and in binary64 with an accurate libm, position within 2e-8 m + 4.4e7 k and velocity within the sidereal rate times that (heights up to 100 km); the distances geoc gives within 1.4e-8 m + 2.1e7 k."
  },
  {
   "property": "C52",
   "status": "proved",
   "theorems": [
    "C52_rverot_binary",
    "C52_velocities_binary",
    "C52_rverot",
    "C52_projection",
    "C52_velocities",
    "C52_projection_bounds"
   ],
   "note": "Exact real arithmetic; the fixed velocities are checked against their published definition to 2e-4 km/s. In binary64 to 3e-4 km/s plus the libm error; rverot to 1.4k+7u."
  },
  {
   "property": "C53",
   "status": "proved",
   "theorems": [
    "C53_range",
    "C53_gmst",
    "C53_gmsta",
    "C53_split",
    "C53_argument_order",
    "C53_equation_of_equinoxes",
    "C53_gmst_binary",
    "C53_gmsta_binary",
    "C53_eqeqx_binary"
   ],
   "note": "Real instance; the literals for seconds-to-radians differ from pi/43200 in the 25th figure, hence the 1e-15 tolerances, for |UT1| up to 1e7 days. Includes the equation of the equinoxes. Binary64: gmst within 2e-11 and gmsta within 4.2e-11 rad of the IAU 1982 expression over 1e6 days; eqeqx within 6e-15 rad over 1800-2200."
  },
  {
   "property": "C54",
   "status": "proved",
   "theorems": [
    "C54_direction_binary",
    "C54_polmo_direction",
    "C54_polmo_azimuth",
    "C54_no_offset",
    "C54_undefined_iff",
    "C54_defined_everywhere_refuted"
   ],
   "note": "Exact real arithmetic. The claim that the azimuth correction is defined at the exact pole is refuted; the exact domain is given. Binary64: the true direction to about 8e-15 everywhere, poles included; the azimuth correction is not bounded in binary64."
  },
  {
   "property": "C55",
   "status": "proved",
   "theorems": [
    "C55_airmas_binary",
    "C55_airmas",
    "C55_hardie"
   ],
   "note": "Exact real arithmetic; agreement with Hardie's polynomial in sec z - 1. In binary64 within 390k+4e-13 for every finite zenith distance."
  },
  {
   "property": "C56",
   "status": "proved",
   "theorems": [
    "C56_etrms_binary",
    "C56_addet_binary",
    "C56_subet_binary",
    "C56_round_trip_binary",
    "C56_eg50_binary",
    "C56_ge50_binary",
    "C56_eg50_round_trip_binary",
    "C56_etrms",
    "C56_small",
    "C56_addet",
    "C56_subet",
    "C56_round_trip",
    "C56_eg50",
    "C56_ge50",
    "C56_eg50_round_trip"
   ],
   "note": "Real instance, and IEEE binary64 with explicit error bounds (C56_*_binary) for any libm accurate to k."
  },
  {
   "property": "C57",
   "status": "proved",
   "theorems": [
    "C57_nutc80_binary",
    "C57_nutc_binary",
    "C57_nutc80_is_iau1980",
    "C57_nutc_bounded",
    "C57_nutc_near_nutc80"
   ],
   "note": "nutc80 is proved equal to the published series; nutc (194 terms) is bounded and compared with it term by term, over the reals. Binary64 over 1800-2200: nutc80 within 3e-15 rad of the published series, nutc within 4e-15 rad of the same series in exact arithmetic."
  },
  {
   "property": "C58",
   "status": "proved",
   "theorems": [
    "C58_dt_models_meet",
    "C58_dt_binary"
   ],
   "note": "Real instance; in binary64 within 2e-9 s for epochs -10000 to 10000, across the switches between models."
  },
  {
   "property": "C59",
   "status": "proved",
   "theorems": [
    "C59_pm_binary",
    "C59_pm",
    "C59_same_epoch",
    "C59_radial_only"
   ],
   "note": "Exact real arithmetic; and in binary64 with an accurate libm, the direction is within 8.3 k + 16 u of the straight-line motion, for up to a century, proper motions up to 2e-4 rad/yr and radial velocities up to 500 km/s."
  },
  {
   "property": "C60",
   "status": "proved",
   "theorems": [
    "C60_earth_newcomb",
    "C60_earth_velocity",
    "C60_instant",
    "C60_earth_bounds",
    "C60_ecor",
    "C60_ecor_bounds"
   ],
   "note": "Exact real arithmetic. C60_earth_newcomb pins the position to Newcomb's ellipse less the Moon's pull (4.5e-5 AU, 1901-2099); C60_earth_velocity pins the velocity to the rate of change of that path (7.1e-11 AU/s = 11 m/s)."
  },
  {
   "property": "C61",
   "status": "proved",
   "theorems": [
    "C61_refv_binary",
    "C61_direction",
    "C61_accuracy",
    "C61_microarcsecond_refuted",
    "C61_azimuth",
    "C61_low",
    "C61_zenith"
   ],
   "note": "Real instance. C61_refv_binary bounds the rounding error of the binary64 vector by 2.4e-15 for every vector of length at most 1.001 and terrestrial coefficients."
  },
  {
   "property": "C62",
   "status": "proved",
   "theorems": [
    "C62_orbit"
   ],
   "note": "Amplitude sums of the actual tables evaluated in the kernel, triangle inequality about the mean circular motion. Exact arithmetic."
  },
  {
   "property": "C63",
   "status": "proved",
   "theorems": [
    "C63_distance"
   ],
   "note": "Amplitude sum of the parallax series; exact arithmetic."
  },
  {
   "property": "C64",
   "status": "proved",
   "theorems": [
    "C64_value",
    "C64_table",
    "C64_annual",
    "C64_geocentre",
    "C64_observer",
    "C64_linear",
    "C64_day",
    "C64_rate",
    "C64_forward"
   ],
   "note": "Real arithmetic with the program's decimal constants; the table is generated from the source by tools/gen_rcc.py. C64_value is the functional specification; the bounds follow from exact sums of amplitudes and of amplitude times frequency."
  },
  {
   "property": "C65",
   "status": "proved",
   "theorems": [
    "C65_range",
    "C65_first_seed_only",
    "C65_seed_sign",
    "C65_seed_sign_binary32",
    "C65_seed_scale",
    "C65_integer_seed",
    "C65_arbitrary_seed_refuted",
    "C65_threads"
   ],
   "note": "The engine is a parameter with the contract of generate_canonical<float> (a float of [0, 1)). The seed arithmetic is read over the reals (sign also in binary32). Found: an infinite seed makes the cast to int undefined; seeds s and 10|s|+9 start the same sequence. Concurrent calls with SLALIB_THREAD_SAFE = 0 (the default) are a data race and outside the model."
  },
  {
   "property": "C66",
   "status": "proved",
   "theorems": [
    "C66_scaling",
    "C66_pair",
    "C66_returns",
    "C66_passes",
    "C66_threads",
    "C66_finite_refuted"
   ],
   "note": "Pair theorem over the reals with float-valued draws; NaN finding in binary32: an engine that yields 0.5 twice in a row makes both deviates NaN (0 * inf), the guard max(r, 1e-20) does not help. That the engine's points are uniform is not expressible; given that, the theorem's radius and direction statements are the Box-Muller law."
  },
  {
   "property": "C67",
   "status": "proved",
   "theorems": [
    "C67_veri",
    "C67_order",
    "C67_vers",
    "C67_this_version"
   ],
   "note": "Proved for the header numbers as parameters; C67_this_version is the instance 2.5-7."
  },
  {
   "property": "C68",
   "status": "proved",
   "theorems": [
    "C68_nearest",
    "C68_range_refuted",
    "C68_at_least_refuted"
   ],
   "note": "In binary32. Found: the documented delay is not kept when it is not whole (wait(0.25f) returns at once, wait(1.25f) sleeps one second); from 2^31 seconds, for infinities and NaN the cast is undefined. The sleep itself (std::this_thread) is outside the model: the modelled effect is the duration passed to it."
  },
  {
   "property": "C69",
   "status": "proved",
   "theorems": [
    "C69_evp_frame",
    "C69_evp_of_date",
    "C69_evp_lengths"
   ],
   "note": "Exact arithmetic."
  },
  {
   "property": "C70",
   "status": "proved",
   "theorems": [
    "C70_evp_orbit",
    "C70_evp_newcomb",
    "C70_evp_theory"
   ],
   "note": "Exact arithmetic; the source keeps some quantities in single precision, which the model does not."
  },
  {
   "property": "C71",
   "status": "proved",
   "theorems": [
    "C71_evp_velocity"
   ],
   "note": "Exact arithmetic. The derivative is that of the unreduced theory, which C70_evp_theory ties to the returned positions."
  },
  {
   "property": "C72",
   "status": "proved",
   "theorems": [
    "C72_position",
    "C72_moon_position"
   ],
   "note": "Exact arithmetic. The theories are in S_Moon.v; the coefficient tables are those extracted from the source."
  },
  {
   "property": "C73",
   "status": "proved",
   "theorems": [
    "C73_agree"
   ],
   "note": "Exact arithmetic. The rows of the short tables are matched with those of the long ones inside the kernel; the rest is bounded by its amplitudes. The bound is the sum of all amplitudes left out, so it is not the typical difference."
  },
  {
   "property": "C74",
   "status": "proved",
   "theorems": [
    "C74_epv_evp",
    "C74_earth_evp",
    "C74_earth_evp_velocity",
    "C74_earth_epv"
   ],
   "note": "Exact real arithmetic; positions for both pairs, velocities for earth and evp only. The bounds add up every neglected amplitude, so they exceed the typical differences several times."
  }
 ]
}