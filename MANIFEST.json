{
 "claims": [
  {
   "property": "C01",
   "status": "proved",
   "theorems": [
    "C01_product_is_composition",
    "C01_product_entries",
    "C01_apply_entries"
   ],
   "note": "Laws over the reals; entry formulas in every arithmetic."
  },
  {
   "property": "C02",
   "status": "proved",
   "theorems": [
    "C02_inverse",
    "C02_singular",
    "C02_singular_float"
   ],
   "note": "Inverse over the reals; singular case over the reals and in binary32."
  },
  {
   "property": "C03",
   "status": "proved",
   "theorems": [
    "C03_determinant_laws",
    "C03_det_is_the_determinant"
   ],
   "note": "Over the reals."
  },
  {
   "property": "C04",
   "status": "proved",
   "theorems": [
    "C04_row",
    "C04_col",
    "C04_matrix_index",
    "C04_vector_index",
    "C04_transpose",
    "C04_transpose_involutive",
    "C04_fromArray"
   ],
   "note": "In every arithmetic."
  },
  {
   "property": "C05",
   "status": "proved",
   "theorems": [
    "C05_crosstalk_formula",
    "C05_crosstalk"
   ],
   "note": "Over the reals."
  },
  {
   "property": "C06",
   "status": "proved",
   "theorems": [
    "C06_apply_rounding_error"
   ],
   "note": "binary32, any libm; guard: sum of absolute products at most 2^126."
  },
  {
   "property": "C07",
   "status": "proved",
   "theorems": [
    "C07_clip",
    "C07_positive",
    "C07_hasNegative"
   ],
   "note": "binary32, every input including NaN and infinities, any libm."
  },
  {
   "property": "C08",
   "status": "proved",
   "theorems": [
    "C08_XYZ_Yxy_XYZ",
    "C08_Yxy_XYZ_Yxy",
    "C08_chromaticity",
    "C08_luminance_exact"
   ],
   "note": "Over the reals; the luminance passes through untouched in every arithmetic."
  },
  {
   "property": "C09",
   "status": "proved",
   "theorems": [
    "C09_black_and_totality"
   ],
   "note": "In every arithmetic for the branch; totality over the reals."
  },
  {
   "property": "C10",
   "status": "proved",
   "theorems": [
    "C10_XYZ_Yuv_XYZ",
    "C10_Yuv_XYZ_Yuv"
   ],
   "note": "Over the reals, away from vanishing denominators."
  },
  {
   "property": "C11",
   "status": "partial",
   "theorems": [
    "C11_yuv_is_cie1976_refuted",
    "C11_yuv_is_cie1960_partial"
   ],
   "note": "REFUTED: toYuv does not return CIE 1976 (u',v'). What holds: it returns CIE 1960 (u,v)."
  },
  {
   "property": "C12",
   "status": "proved",
   "theorems": [
    "C12_sqrtf_terminates_and_brackets",
    "C12_sqrtf_nan"
   ],
   "note": "All 2^32 binary32 values, bit-exact rounding of every operation."
  },
  {
   "property": "C13",
   "status": "partial",
   "theorems": [
    "C13_correct_rounding_refuted",
    "C13_exact_root_partial",
    "C13_error_below_ulp_partial"
   ],
   "note": "REFUTED: sqrtf(3) is not the nearest float. What holds: exact roots are found, and the error is below one unit in the last place."
  },
  {
   "property": "C14",
   "status": "proved",
   "theorems": [
    "C14_mod360_real",
    "C14_mod360_float",
    "C14_mod360_float_congruent"
   ],
   "note": "Reals: exact. binary32: terminates exactly when |r| <= 2^33, loops for ever above that."
  },
  {
   "property": "C15",
   "status": "proved",
   "theorems": [
    "C15_lab_round_trip"
   ],
   "note": "Over the reals."
  },
  {
   "property": "C16",
   "status": "proved",
   "theorems": [
    "C16_is_cie_lab",
    "C16_grey",
    "C16_curve",
    "C16_L_monotone"
   ],
   "note": "Over the reals."
  },
  {
   "property": "C17",
   "status": "partial",
   "theorems": [
    "C17_lab_above_white_refuted",
    "C17_lab_clips_to_white_partial"
   ],
   "note": "REFUTED: components above the white point are lost. What holds: the round trip clips each component to the white point."
  },
  {
   "property": "C18",
   "status": "proved",
   "theorems": [
    "C18_hsv_round_trip"
   ],
   "note": "Over the reals."
  },
  {
   "property": "C19",
   "status": "proved",
   "theorems": [
    "C19_toHSV_ranges",
    "C19_fromHSV_ranges"
   ],
   "note": "Over the reals; hue is even < 360."
  },
  {
   "property": "C20",
   "status": "proved",
   "theorems": [
    "C20_zero_offset_temperatures",
    "C20_offset_point",
    "C20_zero_offset"
   ],
   "note": "Over the reals with an exact square root."
  },
  {
   "property": "C21",
   "status": "partial",
   "theorems": [
    "C21_planckian_spline_refuted",
    "C21_planckian_spline_partial",
    "C21_planckian_middle_partial"
   ],
   "note": "REFUTED between 2222 K and 4000 K (the code repeats the low-temperature piece). What holds: it follows the spline below 2222 K and from 4000 K up."
  },
  {
   "property": "C22",
   "status": "proved",
   "theorems": [
    "C22_white_and_primaries"
   ],
   "note": "Over the reals."
  },
  {
   "property": "C23",
   "status": "proved",
   "theorems": [
    "C23_round_trip",
    "C23_from_primaries",
    "C23_from_matrix",
    "C23_predefined"
   ],
   "note": "Over the reals; the ten predefined gamuts are checked to be non-singular."
  },
  {
   "property": "C24",
   "status": "proved",
   "theorems": [
    "C24_read_back"
   ],
   "note": "Over the reals."
  },
  {
   "property": "C25",
   "status": "proved",
   "theorems": [
    "C25_convert",
    "C25_white"
   ],
   "note": "Over the reals."
  },
  {
   "property": "C26",
   "status": "proved",
   "theorems": [
    "C26_bradford",
    "C26_cone_scaling"
   ],
   "note": "Over the reals."
  },
  {
   "property": "C27",
   "status": "partial",
   "theorems": [
    "C27_illuminants_refuted",
    "C27_illuminants_partial"
   ],
   "note": "REFUTED: Illuminant_B has X = 1.99072 (published 0.99072). What holds: the other constants agree."
  },
  {
   "property": "C28",
   "status": "proved",
   "theorems": [
    "C28_bt709_round_trip",
    "C28_bt709_ranges",
    "C28_bt709_monotone"
   ],
   "note": "Over the reals."
  },
  {
   "property": "C29",
   "status": "partial",
   "theorems": [
    "C29_bt709_decode_encode_refuted",
    "C29_bt709_decode_encode_partial"
   ],
   "note": "REFUTED just above 0.081, where decoding also steps down. What holds: exact elsewhere, never off by more than 0.0006."
  },
  {
   "property": "C30",
   "status": "proved",
   "theorems": [
    "C30_srgb_ranges",
    "C30_srgb_decode_monotone",
    "C30_srgb_encode_decode",
    "C30_srgb_decode_encode"
   ],
   "note": "Over the reals."
  },
  {
   "property": "C31",
   "status": "partial",
   "theorems": [
    "C31_srgb_exact_refuted",
    "C31_srgb_exact_partial"
   ],
   "note": "REFUTED at 0.0031308, where encoding also steps down. What holds: exact outside [0.0031308,0.0031309), monotone on either side."
  },
  {
   "property": "C32",
   "status": "proved",
   "theorems": [
    "C32_pq_encode_decode",
    "C32_pq_decode_encode",
    "C32_pq_dark",
    "C32_pq_monotone"
   ],
   "note": "Over the reals."
  },
  {
   "property": "C33",
   "status": "proved",
   "theorems": [
    "C33_hlg_encode_decode",
    "C33_hlg_decode_encode",
    "C33_hlg_monotone"
   ],
   "note": "Over the reals."
  },
  {
   "property": "C34",
   "status": "proved",
   "theorems": [
    "C34_slog_round_trip",
    "C34_slog2_round_trip",
    "C34_monotone",
    "C34_slog_saturates",
    "C34_outside_range"
   ],
   "note": "Over the reals."
  },
  {
   "property": "C35",
   "status": "partial",
   "theorems": [
    "C35_slog3_refuted",
    "C35_slog3_partial"
   ],
   "note": "REFUTED: the encoder puts the factor 261.5 inside the logarithm. What holds: the linear segment round-trips and decoding is the published formula."
  },
  {
   "property": "C36",
   "status": "proved",
   "theorems": [
    "C36_gamma_round_trip",
    "C36_linear",
    "C36_channels"
   ],
   "note": "Gamma over the reals; LINEAR and channel independence in every arithmetic."
  },
  {
   "property": "C37",
   "status": "proved",
   "theorems": [
    "C37_oklab_round_trip",
    "C37_oklab_scaling"
   ],
   "note": "Exact real arithmetic, all triples."
  },
  {
   "property": "C38",
   "status": "proved",
   "theorems": [
    "C38_ictcp_neutral",
    "C38_ictcp_intensity_range"
   ],
   "note": "Exact real arithmetic, all triples; the cone responses are those of the matrix in the code."
  },
  {
   "property": "C39",
   "status": "proved",
   "theorems": [
    "C39_euclidean_differences_are_metrics",
    "C39_E76_zero_iff_equal",
    "C39_symmetric_binary32",
    "C39_zero_binary32",
    "C39_E76_formula",
    "C39_UV_formula",
    "C39_ICtCp_formula"
   ],
   "note": "Metric axioms over the reals for all triples; symmetry bit for bit in binary32 for all inputs and any C library; binary32 difference of a finite colour with itself is +0."
  },
  {
   "property": "C40",
   "status": "proved",
   "theorems": [
    "C40_E00_well_defined_symmetric_definite"
   ],
   "note": "Exact real arithmetic, all Lab pairs and positive weights."
  },
  {
   "property": "C41",
   "status": "partial",
   "theorems": [
    "C41_E00_is_CIEDE2000_refuted",
    "C41_E00_is_CIEDE2000_partial",
    "C41_E00_close_to_CIEDE2000_partial"
   ],
   "note": "REFUTED: when the hues differ by more than 180 degrees and sum to 360 or more, the code adds 360 to the sum where the CIE subtracts it (witness Lab (50,2,-1), (50,1,1)). What holds: equality in every other case, and a relative error of at most 3e-5 always."
  },
  {
   "property": "C42",
   "status": "proved",
   "theorems": [
    "C42_invariant",
    "C42_start",
    "C42_no_abort"
   ],
   "note": "All call sequences."
  },
  {
   "property": "C43",
   "status": "proved",
   "theorems": [
    "C43_round_trip"
   ],
   "note": "All value lists, both byte orders."
  },
  {
   "property": "C44",
   "status": "proved",
   "theorems": [
    "C44_wire",
    "C44_swapped",
    "C44_orders_write",
    "C44_orders_read"
   ],
   "note": "All types and values."
  },
  {
   "property": "C45",
   "status": "partial",
   "theorems": [
    "C45_overwrite_refuted",
    "C45_overwrite_partial"
   ],
   "note": "REFUTED: putUint8 does not advance the cursor over existing bytes. What holds: the last byte on the wire is stored at the cursor, which stays."
  },
  {
   "property": "C46",
   "status": "proved",
   "theorems": [
    "C46_back_patch32",
    "C46_back_patch64"
   ],
   "note": "All streams and appended data."
  },
  {
   "property": "C47",
   "status": "proved",
   "theorems": [
    "C47_align",
    "C47_align_zero"
   ],
   "note": "All streams and alignments."
  },
  {
   "property": "C48",
   "status": "proved",
   "theorems": [
    "C48_reading",
    "C48_at_end"
   ],
   "note": "All streams below 2 GiB."
  },
  {
   "property": "C49",
   "status": "partial",
   "theorems": [
    "C49_string_refuted",
    "C49_empty_string_refuted",
    "C49_stored_partial",
    "C49_substr_partial"
   ],
   "note": "REFUTED: putString stores no length and drops the last character; putString(\"\") is undefined behaviour. What holds: what is stored, and putSubstr/getSubstr with size+1 round-trip."
  },
  {
   "property": "C50",
   "status": "partial",
   "theorems": [
    "C50_put_at_refuted",
    "C50_get_at_partial"
   ],
   "note": "REFUTED: put_at is undefined behaviour for every stream and position. What holds: get_at reads the byte, 0 outside."
  },
  {
   "property": "C51",
   "status": "proved",
   "theorems": [
    "C51_write",
    "C51_read",
    "C51_read_at_end",
    "C51_round_trip"
   ],
   "note": "All streams below 2 GiB."
  },
  {
   "property": "C52",
   "status": "proved",
   "theorems": [
    "C52_fetch_at_grid",
    "C52_constructor_copies",
    "C52_fetch_at_grid_real"
   ],
   "note": "Binary32, all finite spectra; the real-arithmetic version is also proved."
  },
  {
   "property": "C53",
   "status": "partial",
   "theorems": [
    "C53_interpolation_refuted",
    "C53_interpolation_partial",
    "C53_first_interval_constant_partial",
    "C53_stays_between_samples_partial"
   ],
   "note": "REFUTED: on [380,381) fetch returns sample 0 unchanged instead of interpolating (witness: a ramp at 380.5 nm). What holds: linear interpolation on every other interval, and the result always lies between the smallest and largest sample."
  },
  {
   "property": "C54",
   "status": "proved",
   "theorems": [
    "C54_fetch_memory_safe",
    "C54_above_range",
    "C54_below_range",
    "C54_undefined"
   ],
   "note": "All binary32 wavelengths: defined exactly from -2^31+256 to 2^31+256."
  },
  {
   "property": "C55",
   "status": "proved",
   "theorems": [
    "C55_linear",
    "C55_value",
    "C55_monotone",
    "C55_nonnegative",
    "C55_predefined_observers"
   ],
   "note": "Exact real arithmetic; the three predefined observers are shown to meet the hypotheses."
  },
  {
   "property": "C56",
   "status": "proved",
   "theorems": [
    "C56_equal_energy"
   ],
   "note": "Exact real arithmetic."
  },
  {
   "property": "C57",
   "status": "proved",
   "theorems": [
    "C57_reflectance_is_product",
    "C57_symmetric",
    "C57_no_amplification",
    "C57_macbeth"
   ],
   "note": "Equality and symmetry bit for bit in binary32; bound over the reals."
  },
  {
   "property": "C58",
   "status": "proved",
   "theorems": [
    "C58_photometric_units",
    "C58_lumens_at_grid"
   ],
   "note": "Exact real arithmetic."
  },
  {
   "property": "C59",
   "status": "proved",
   "theorems": [
    "C59_tables_physical",
    "C59_tables_physical_binary32"
   ],
   "note": "Both the decimal tables in the source and their binary32 roundings."
  },
  {
   "property": "C60",
   "status": "proved",
   "theorems": [
    "C60_blackbody_increasing",
    "C60_blackbody_is_planck"
   ],
   "note": "Exact real arithmetic."
  },
  {
   "property": "C61",
   "status": "proved",
   "theorems": [
    "C61_dot_rounding_error",
    "C61_tables_apply"
   ],
   "note": "Binary32, all finite spectra meeting the no-overflow bound; the Macbeth patches and D65 meet it."
  },
  {
   "property": "C62",
   "status": "proved",
   "theorems": [
    "C62_svdcmp_safe_and_total",
    "C62_svdcmp_refuses_wide"
   ],
   "note": "All dimensions and all binary32 matrices, NaN and infinities included."
  },
  {
   "property": "C63",
   "status": "partial",
   "theorems": [
    "C63_reports_failure_refuted",
    "C63_return_value_partial"
   ],
   "note": "REFUTED: the iteration count never reaches the limit tested inside the loop, so svdcmp returns 1 for every matrix with at least as many rows as columns (witness: the finite 2x2 matrix of 3e38, whose factors come out NaN). What holds: the return value is always 1."
  },
  {
   "property": "C64",
   "status": "proved",
   "theorems": [
    "C64_least_squares"
   ],
   "note": "All dimensions, exact real arithmetic, given a genuine decomposition."
  },
  {
   "property": "C65",
   "status": "proved",
   "theorems": [
    "C65_system",
    "C65_total",
    "C65_short_target_undefined",
    "C65_too_few_patches",
    "C65_macbeth_chart"
   ],
   "note": "System over the reals; totality, undefined behaviour and the zero result in binary32."
  },
  {
   "property": "C66",
   "status": "proved",
   "theorems": [
    "C66_threshold",
    "C66_refused_reports_success"
   ],
   "note": "Binary32, all matrices with at least as many rows as columns; refused systems separately."
  },
  {
   "property": "C67",
   "status": "partial",
   "theorems": [
    "C67_seek_end_refuted",
    "C67_seek_partial"
   ],
   "note": "REFUTED: fseek(0, END) goes to size-1 and aborts on an empty stream. What holds: the position reached by every seek."
  },
  {
   "property": "C68",
   "status": "partial",
   "theorems": [
    "C68_decomposition_refuted",
    "C68_two_columns_partial",
    "C68_orthogonal_columns_partial",
    "C68_full_rank_partial"
   ],
   "note": "REFUTED: the cancellation step (colorsystem.hpp:7625-7646) omits rv1[i] = c*rv1[i], so for singular matrices with three or more columns the factors do not multiply back to A (binary32 witness [[0,1,0],[0,1,1],[0,0,1]]). What holds in exact arithmetic: a genuine decomposition for one or two columns and for any number of pairwise orthogonal columns; for full column rank U and V are orthonormal and A = U C V^T with C upper triangular and diagonal w. Missing: that C is diagonal within the 30 sweeps, and rounding."
  },
  {
   "property": "C69",
   "status": "partial",
   "theorems": [
    "C69_solve_refuted",
    "C69_two_unknowns_partial",
    "C69_given_decomposition_partial"
   ],
   "note": "REFUTED by the same matrix: right-hand side (0,1,1) has the exact solution (0,0,1), the result has squared residual above 0.08 and return code 0. What holds in exact arithmetic: least squares for one or two unknowns, and for any system whose decomposition is genuine (orthogonal columns for instance)."
  },
  {
   "property": "C70",
   "status": "partial",
   "theorems": [
    "C70_corrector_refuted",
    "C70_least_squares_partial",
    "C70_recovers_matrix_partial",
    "C70_given_decomposition_partial",
    "C70_recovers_given_decomposition_partial"
   ],
   "note": "REFUTED: three patches without a first component, corrected to themselves, get a squared error above 2. What holds in exact arithmetic: least squares, and exact recovery of the matrix, for patches whose colour components are pairwise orthogonal and of comparable size; and for any patches for which the decomposition computed on the way is a singular value decomposition with no value below the threshold (least squares with the smallest matrix, exact recovery if the patches are not coplanar)."
  },
  {
   "property": "C71",
   "status": "proved",
   "theorems": [
    "C71_divide_tristimulus",
    "C71_divide_matrix"
   ],
   "note": "Exact real arithmetic."
  },
  {
   "property": "C72",
   "status": "partial",
   "theorems": [
    "C72_division_rounds_once_refuted",
    "C72_tristimulus_error_partial",
    "C72_matrix_error_partial"
   ],
   "note": "REFUTED: the code multiplies by the rounded reciprocal, so 41/41 is below 1 and the smallest positive float divided by itself is infinite. What holds: an error of at most 3*2^-24 relative plus 2^-150, for divisors between 2^-126 and 2^126 in magnitude and quotients up to 2^126."
  },
  {
   "property": "C73",
   "status": "proved",
   "theorems": [
    "C73_dot_symmetric",
    "C73_dot_error",
    "C73_dot_exact"
   ],
   "note": "All binary32 triples."
  },
  {
   "property": "C74",
   "status": "partial",
   "theorems": [
    "C74_extrema_refuted",
    "C74_smallest_partial",
    "C74_largest_partial",
    "C74_componentwise_partial"
   ],
   "note": "REFUTED for NaN: min3(1,NaN,2) is 2. What holds: the claim for all triples without NaN."
  },
  {
   "property": "C75",
   "status": "proved",
   "theorems": [
    "C75_hue_is_polar_angle",
    "C75_agrees_with_toHSV"
   ],
   "note": "Exact real arithmetic, all triples."
  },
  {
   "property": "C76",
   "status": "proved",
   "theorems": [
    "C76_fromCCT_terminates"
   ],
   "note": "Binary32, all inputs."
  },
  {
   "property": "C77",
   "status": "partial",
   "theorems": [
    "C77_profile_refuted",
    "C77_profile_partial"
   ],
   "note": "REFUTED: the profile is not read; the XYZ gamut is returned for every non-empty profile. What holds: that, and undefined behaviour for an empty one."
  },
  {
   "property": "C78",
   "status": "proved",
   "theorems": [
    "C78_gamut_from_chart",
    "C78_too_few_patches"
   ],
   "note": "Binary32, all inputs."
  },
  {
   "property": "C79",
   "status": "proved",
   "theorems": [
    "C79_feof",
    "C79_read_everything"
   ],
   "note": "All streams below 2 GiB."
  },
  {
   "property": "C80",
   "status": "proved",
   "theorems": [
    "C80_follow_pointer32",
    "C80_follow_pointer64"
   ],
   "note": "All streams below 2 GiB."
  },
  {
   "property": "C81",
   "status": "partial",
   "theorems": [
    "C81_init_zeroes_refuted",
    "C81_init_keeps_partial",
    "C81_constructors_partial"
   ],
   "note": "REFUTED: bytes the stream held before are kept. What holds: the first n old bytes completed with zeros; zeros for a new stream."
  },
  {
   "property": "C82",
   "status": "partial",
   "theorems": [
    "C82_default_white_refuted",
    "C82_round_trip_partial",
    "C82_above_white_partial"
   ],
   "note": "REFUTED: the default white is (0.9642,1,0.8249), not Illuminant_D50 (0.96422,1,0.82521), and components above it are clipped, so Illuminant_D50 itself does not round-trip. What holds: the round trip up to the default white, and clipping to it above."
  },
  {
   "property": "C83",
   "status": "proved",
   "theorems": [
    "C83_white_is_exact"
   ],
   "note": "Binary32; the only assumption on the C library is pow(1,y) = 1, which C guarantees."
  },
  {
   "property": "C84",
   "status": "partial",
   "theorems": [
    "C84_resampling_refuted",
    "C84_resampling_partial",
    "C84_two_samples_partial"
   ],
   "note": "REFUTED: on the first sampling interval the first sample is repeated, so two samples give a step instead of a line. What holds: the claim on every other interval and outside."
  },
  {
   "property": "C85",
   "status": "proved",
   "theorems": [
    "C85_xyz_is_impulse_response"
   ],
   "note": "Exact real arithmetic."
  },
  {
   "property": "C86",
   "status": "proved",
   "theorems": [
    "C86_primaries",
    "C86_luminance",
    "C86_XYZ_and_LMS"
   ],
   "note": "Exact real arithmetic."
  },
  {
   "property": "C87",
   "status": "proved",
   "theorems": [
    "C87_D65_spectrum_is_D65"
   ],
   "note": "Exact real arithmetic; integrals of the tables computed exactly in the kernel."
  },
  {
   "property": "C88",
   "status": "proved",
   "theorems": [
    "C88_dot_monotone",
    "C88_reflectance_monotone",
    "C88_predefined_observers"
   ],
   "note": "Binary32, any C library."
  },
  {
   "property": "C89",
   "status": "proved",
   "theorems": [
    "C89_greys_ordered",
    "C89_greys_ordered_binary32"
   ],
   "note": "Exact real arithmetic for every observer; binary32 for the three predefined observers and lights with samples in [0,2^30]."
  },
  {
   "property": "C90",
   "status": "partial",
   "theorems": [
    "C90_ictcp_round_trip_refuted",
    "C90_ictcp_round_trip_partial"
   ],
   "note": "REFUTED: a colour whose first cone response is 0 or negative while the second is positive, such as any (0,0,z) with z > 0, comes back without a finite component (a power of a negative number). What holds: when all three PQ codes are at least 2e-6 the result is finite and its PQ codes differ by at most 3e-6."
  },
  {
   "property": "C91",
   "status": "proved",
   "theorems": [
    "C91_toHSV_range",
    "C91_fromHSV_range"
   ],
   "note": "Binary32, any C library."
  },
  {
   "property": "C92",
   "status": "proved",
   "theorems": [
    "C92_hsv_round_trip_error"
   ],
   "note": "Binary32, any C library. The bound is not sharp; the case beside the theorem shows that the round trip is not exact."
  },
  {
   "property": "C93",
   "status": "proved",
   "theorems": [
    "C93_fromYxy_toYxy",
    "C93_toYxy_fromYxy"
   ],
   "note": "Binary32, any C library."
  },
  {
   "property": "C94",
   "status": "proved",
   "theorems": [
    "C94_E76_error",
    "C94_UV_error"
   ],
   "note": "Binary32, any C library. The bound is not sharp."
  },
  {
   "property": "C95",
   "status": "proved",
   "theorems": [
    "C95_gamut_round_trip",
    "C95_convert_round_trip"
   ],
   "note": "Binary32, any C library. The matrices are evaluated in the kernel; the colours are quantified over."
  },
  {
   "property": "C96",
   "status": "proved",
   "theorems": [
    "C96_gamut_accuracy"
   ],
   "note": "Relates the same transcribed code over the reals and in binary32."
  },
  {
   "property": "C97",
   "status": "proved",
   "theorems": [
    "C97_clipping",
    "C97_srgb_linear_segment",
    "C97_bt709_linear_segment",
    "C97_hlg_root_segment"
   ],
   "note": "Binary32, any C library."
  },
  {
   "property": "C98",
   "status": "proved",
   "theorems": [
    "C98_library",
    "C98_srgb_accuracy",
    "C98_srgb_round_trip"
   ],
   "note": "Binary32, any C library within 4*2^-24 relative (hypothesis accurate, PLibm.v); C98_library proves that one exists."
  },
  {
   "property": "C99",
   "status": "proved",
   "theorems": [
    "C99_bt709_accuracy",
    "C99_bt709_round_trip"
   ],
   "note": "Binary32, any accurate C library. The exceptional float is part of the theorem."
  },
  {
   "property": "C100",
   "status": "proved",
   "theorems": [
    "C100_gamma",
    "C100_pq_encode",
    "C100_hlg",
    "C100_hlg_decode"
   ],
   "note": "Binary32, any accurate C library. The bounds are not sharp."
  },
  {
   "property": "C101",
   "status": "proved",
   "theorems": [
    "C101_to_lab",
    "C101_from_lab",
    "C101_lab_round_trip"
   ],
   "note": "Binary32, any accurate C library; colours may lie on either side of the branch. The bounds are not sharp."
  },
  {
   "property": "C102",
   "status": "proved",
   "theorems": [
    "C102_aces_contains_every_light",
    "C102_aces_contains_every_surface",
    "C102_no_other"
   ],
   "note": "Exact arithmetic on the tables as printed in the source."
  },
  {
   "property": "C103",
   "status": "proved",
   "theorems": [
    "C103_exact",
    "C103_binary32"
   ],
   "note": "An equivalence for every pair, in exact arithmetic and in binary32."
  },
  {
   "property": "C104",
   "status": "proved",
   "theorems": [
    "C104_exact",
    "C104_binary32",
    "C104_blue_primary"
   ],
   "note": "An equivalence for every gamut, in exact arithmetic and in binary32."
  },
  {
   "property": "C105",
   "status": "partial",
   "theorems": [
    "C105_oklab_published_refuted",
    "C105_oklab_white_refuted",
    "C105_oklab_partial",
    "C105_oklab_form_partial"
   ],
   "note": "REFUTED: one coefficient of the first matrix (hpp:1422, repeated at hpp:1457) has the wrong sign, so (1,0,0) gets a negative lightness and white a green-red coordinate above 0.05; proved equal to the published formula for X = 0, and the formula actually computed is given for all stimuli. The expectation for (1,0,0) in test/oklab.cpp fails for the same reason (Validation.v)."
  },
  {
   "property": "C106",
   "status": "partial",
   "theorems": [
    "C106_planck_law_refuted",
    "C106_planck_law_partial"
   ],
   "note": "REFUTED: the literal used for h c^2 is not h c^2, and every radiance with l T >= 1e-5 m K is between 0.0810 % and 0.0813 % too small (proved as the partial theorem); the missing range l T < 1e-5 is below 27 K for visible light."
  },
  {
   "property": "C107",
   "status": "proved",
   "theorems": [
    "C107_fromCT_monotone",
    "C107_locus_monotone",
    "C107_approximations_agree"
   ],
   "note": "Exact arithmetic."
  },
  {
   "property": "C108",
   "status": "partial",
   "theorems": [
    "C108_realisable_refuted",
    "C108_fromCT_partial",
    "C108_locus_partial"
   ],
   "note": "REFUTED: there is one temperature T0 between 13073 and 13074 K above which fromCT returns a negative X at every temperature. What holds: fromCT is positive from 1100 K up to T0, X is 0 at T0, and fromPlanckianLocus is positive on [1667,infinity)."
  },
  {
   "property": "C109",
   "status": "proved",
   "theorems": [
    "C109_codes_sRGB",
    "C109_codes_HLG",
    "C109_codes_ST2084",
    "C109_codes_BT709",
    "C109_codes_BT709_12bit_refuted"
   ],
   "note": "binary32, with arbitrary accurate library functions (PLibm.v). The conversion from integer code to float and the final rounding are not part of the library; they are the usual ones."
  },
  {
   "property": "C110",
   "status": "proved",
   "theorems": [
    "C110_sRGB_encode",
    "C110_sRGB_encode_all",
    "C110_sRGB_decode",
    "C110_sRGB_decode_all",
    "C110_BT709_encode",
    "C110_BT709_decode",
    "C110_ST2084_encode",
    "C110_ST2084_decode",
    "C110_ST2084_outside",
    "C110_HLG_encode",
    "C110_HLG_decode",
    "C110_HLG_negative",
    "C110_SLog_encode",
    "C110_SLog_decode",
    "C110_SLog2_encode",
    "C110_SLog2_decode",
    "C110_gamma",
    "C110_toScreen",
    "C110_toScene"
   ],
   "note": "SpecOtf.v holds the published formulas and imports no model file. S-Log3 is in C35. ST 2084 at zero: the library returns 0 where the standard gives c1^m2, about 7e-7; the binary32 errors are C98-C101."
  },
  {
   "property": "C111",
   "status": "proved",
   "theorems": [
    "C111_fromHSV_hexcone",
    "C111_toHSV_hexcone",
    "C111_hsv_rgb_hsv"
   ],
   "note": "over the reals; the recursion of mod360 terminates for every real hue (terminates_with)."
  },
  {
   "property": "C112",
   "status": "proved",
   "theorems": [
    "C112_ictcp_formula",
    "C112_ictcp_near_BT2100",
    "C112_ictcp_black"
   ],
   "note": "over the reals; SpecIct.v holds the BT.2100 formulas. The return conversion is C90 (refuted for some colours)."
  },
  {
   "property": "C113",
   "status": "proved",
   "theorems": [
    "C113_slog",
    "C113_slog_decode",
    "C113_slog2",
    "C113_slog2_negative",
    "C113_slog2_decode",
    "C113_slog3_decode",
    "C113_slog3_encode",
    "C113_slog3_encode_join"
   ],
   "note": "Kernel-checked in the binary32/binary64 model: S-Log encoding mixes float and double, as C++ does."
  },
  {
   "property": "C114",
   "status": "proved",
   "theorems": [
    "C114_chromaticity",
    "C114_fromCT"
   ],
   "note": "Error analysis of the double Horner scheme and of the narrowing."
  },
  {
   "property": "C115",
   "status": "partial",
   "theorems": [
    "C115_triangle_refuted",
    "C115_greys_partial",
    "C115_at_most_E76_partial",
    "C115_axes_partial",
    "C115_lightness_partial"
   ],
   "note": "REFUTED: E00 is not a metric (C115_triangle_refuted); the _partial theorems give the grey formula and the two-sided comparison with E76."
  },
  {
   "property": "C116",
   "status": "proved",
   "theorems": [
    "C116_E00_finite_symmetric"
   ],
   "note": "Assumes the weak library bounds in the record elementary; shown satisfiable."
  },
  {
   "property": "C117",
   "status": "proved",
   "theorems": [
    "C117_locus_binary32"
   ],
   "note": "Accuracy of the code relative to its own polynomials; how those differ from the published ones is C21."
  },
  {
   "property": "C118",
   "status": "proved",
   "theorems": [
    "C118_convert_binary32"
   ],
   "note": "Proved as stated."
  },
  {
   "property": "C119",
   "status": "proved",
   "theorems": [
    "C119_bradford_binary32"
   ],
   "note": "Proved as stated."
  },
  {
   "property": "C120",
   "status": "proved",
   "theorems": [
    "C120_oklab_binary32"
   ],
   "note": "Proved as stated."
  },
  {
   "property": "C121",
   "status": "proved",
   "theorems": [
    "C121_toYuv_accuracy",
    "C121_Yxy_Yuv_Yxy",
    "C121_XYZ_Yuv_XYZ"
   ],
   "note": "Proved as stated."
  },
  {
   "property": "C122",
   "status": "proved",
   "theorems": [
    "C122_determinant",
    "C122_inverse"
   ],
   "note": "Proved as stated."
  },
  {
   "property": "C123",
   "status": "proved",
   "theorems": [
    "C123_pq_decode",
    "C123_pq_roundtrip"
   ],
   "note": "Proved as stated."
  },
  {
   "property": "C124",
   "status": "proved",
   "theorems": [
    "C124_through_xyz",
    "C124_through_gamut",
    "C124_through_hsv"
   ],
   "note": "Proved as stated."
  },
  {
   "property": "C125",
   "status": "proved",
   "theorems": [
    "C125_through_cielab",
    "C125_through_yxy",
    "C125_through_yuv"
   ],
   "note": "Proved as stated."
  },
  {
   "property": "C126",
   "status": "proved",
   "theorems": [
    "C126_through_oklab"
   ],
   "note": "Proved as stated."
  },
  {
   "property": "C127",
   "status": "proved",
   "theorems": [
    "C127_spectrum",
    "C127_reflectance",
    "C127_macbeth"
   ],
   "note": "Proved as stated."
  },
  {
   "property": "C128",
   "status": "proved",
   "theorems": [
    "C128_hotter_is_bluer"
   ],
   "note": "Proved as stated."
  },
  {
   "property": "C129",
   "status": "proved",
   "theorems": [
    "C129_chromaticity"
   ],
   "note": "Proved as stated."
  },
  {
   "property": "C130",
   "status": "proved",
   "theorems": [
    "C130_default_neutral_float",
    "C130_default_real",
    "C130_index",
    "C130_elementwise",
    "C130_default_is_black_float",
    "C130_default_is_black_real"
   ],
   "note": "Proved as stated."
  },
  {
   "property": "C131",
   "status": "proved",
   "theorems": [
    "C131_in_gamut_iff_inside",
    "C131_predefined"
   ],
   "note": "Proved as stated."
  },
  {
   "property": "C132",
   "status": "proved",
   "theorems": [
    "C132_matrix",
    "C132_gamuts",
    "C132_hsv",
    "C132_chromaticity",
    "C132_lab",
    "C132_bradford",
    "C132_spectrum"
   ],
   "note": "Proved as stated."
  },
  {
   "property": "C133",
   "status": "proved",
   "theorems": [
    "C133_slog",
    "C133_slog2"
   ],
   "note": "Proved as stated."
  },
  {
   "property": "C134",
   "status": "partial",
   "theorems": [
    "C134_linear_partial",
    "C134_log_partial",
    "C134_codes_refuted"
   ],
   "note": "REFUTED: 10-bit code 1023 comes back more than 598 codes lower, because the encoder multiplies inside the logarithm (see C35). Proved: codes with 1023 k <= 171 M (the linear part) survive for every M up to 2097152, and every code with 1023 k >= 171.23 M comes back between 421.4/1023 and 424.8/1023, so the whole logarithmic range collapses onto less than four ten-bit codes. Missing: codes between 171 and 171.23 of 1023."
  },
  {
   "property": "C135",
   "status": "proved",
   "theorems": [
    "C135_rotation",
    "C135_reflection",
    "C135_exposure",
    "C135_white"
   ],
   "note": "Proved as stated."
  },
  {
   "property": "C136",
   "status": "proved",
   "theorems": [
    "C136_accuracy",
    "C136_permutations"
   ],
   "note": "Proved as stated."
  },
  {
   "property": "C137",
   "status": "proved",
   "theorems": [
    "C137_interpolation",
    "C137_first_interval",
    "C137_constant_spectrum"
   ],
   "note": "Proved as stated."
  },
  {
   "property": "C138",
   "status": "proved",
   "theorems": [
    "C138_safe",
    "C138_no_width",
    "C138_no_samples",
    "C138_regular_grid"
   ],
   "note": "Proved as stated."
  },
  {
   "property": "C139",
   "status": "proved",
   "theorems": [
    "C139_blackbody",
    "C139_tristimulus"
   ],
   "note": "Proved as stated."
  },
  {
   "property": "C140",
   "status": "proved",
   "theorems": [
    "C140_same_white",
    "C140_grey_codes",
    "C140_lab",
    "C140_hsv"
   ],
   "note": "CIELAB and codes need a math library with the stated accuracy (`accurate`, PPowF.v)."
  },
  {
   "property": "C141",
   "status": "proved",
   "theorems": [
    "C141_decode_sRGB",
    "C141_decode_PQ",
    "C141_decode_HLG",
    "C141_decode_SLog",
    "C141_decode_gamma",
    "C141_encode_BT709",
    "C141_encode_HLG",
    "C141_encode_SLog",
    "C141_encode_SLog3",
    "C141_encode_gamma",
    "C141_codes"
   ],
   "note": "Hypothesis: a library both `accurate` (PLibm.v) and `ordered` (POrd.v); C141_library shows that the correctly rounded one is both."
  },
  {
   "property": "C142",
   "status": "partial",
   "theorems": [
    "C142_sRGB_encode_refuted",
    "C142_BT709_decode_refuted",
    "C142_sRGB_encode_partial",
    "C142_BT709_decode_partial",
    "C142_slack_partial"
   ],
   "note": "REFUTED: for every accurate library sRGB encoding drops at 0.0031308 (C142_sRGB_encode_refuted), and 12-bit code 332 of BT.709 decodes to less than code 331 (C142_BT709_decode_refuted). Proved with a monotone library: order on either side of the switch, and everywhere up to a loss of 1e-7 (sRGB) and 5.5e-5 (BT.709). The Example C142_PQ_encode shows that PQ encoding loses order with the executable library."
  },
  {
   "property": "C143",
   "status": "partial",
   "theorems": [
    "C143_refuted",
    "C143_accuracy_partial"
   ],
   "note": "REFUTED: at T = 9234, dUV = -0.05, Y = 1 the Z returned exceeds the exact one by more than 0.01 (C143_refuted): the direction across the locus is taken from two points one kelvin apart, which are only 63 units of rounding apart when hot. Proved (C143_accuracy_partial): the call returns, and its 1960 coordinates are within 10.3 u |dUV| / chord + 105 u of the exact ones, u = 2^-24, chord the distance of those two points, at least 3.73e-6; with dUV = 0 only the constant is left."
  },
  {
   "property": "C144",
   "status": "partial",
   "theorems": [
    "C144_refuted",
    "C144_bulk_read_refuted",
    "C144_bulk_write_refuted",
    "C144_same_partial",
    "C144_safe_partial",
    "C144_read_outside_partial",
    "C144_write_lost_partial",
    "C144_write_stops_partial",
    "C144_bulk_read_past_partial",
    "C144_bulk_write_past_partial",
    "C144_seek_top_partial",
    "C144_seek_current_partial",
    "C144_seek_end_partial"
   ],
   "note": "REFUTED: after fseek to a negative position read() copies from outside the buffer (C144_refuted; for every negative cursor C144_bulk_read_refuted), and so does write() of at least that many bytes (C144_bulk_write_refuted). Proved: a run that trips no assertion is unchanged by compiling them out; typed reads and writes, get_string and seeks are safe with any cursor; outside the buffer typed reads give zero and typed writes are silently lost; beyond the end read() returns nothing and write() fills the gap with zeros."
  },
  {
   "property": "C145",
   "status": "proved",
   "theorems": [
    "C145_load",
    "C145_load_undefined",
    "C145_store_undefined",
    "C145_store",
    "C145_store_visible",
    "C145_cursor",
    "C145_next",
    "C145_shrink"
   ],
   "note": "Proved as stated."
  },
  {
   "property": "C146",
   "status": "proved",
   "theorems": [
    "C146_accuracy",
    "C146_difference",
    "C146_threshold",
    "C146_Rec2020",
    "C146_black",
    "C146_peak"
   ],
   "note": "Proved as stated."
  },
  {
   "property": "C147",
   "status": "proved",
   "theorems": [
    "C147_length",
    "C147_symmetric",
    "C147_signs",
    "C147_axis",
    "C147_sign"
   ],
   "note": "Proved as stated."
  },
  {
   "property": "C148",
   "status": "partial",
   "theorems": [
    "C148_refuted",
    "C148_second_lost_partial",
    "C148_first_kept_partial"
   ],
   "note": "REFUTED: with NaN as second argument the result is 0, whatever the first is (C148_refuted, C148_second_lost_partial), so a NaN can be turned into a zero singular value. Proved: a NaN first argument with a non-zero second one gives NaN."
  },
  {
   "property": "C149",
   "status": "proved",
   "theorems": [
    "C149_backsubstitution"
   ],
   "note": "Proved as stated."
  },
  {
   "property": "C150",
   "status": "proved",
   "theorems": [
    "C150_mixtures",
    "C150_rec709",
    "C150_inside_binary32",
    "C150_rec709_binary32"
   ],
   "note": "Proved as stated."
  },
  {
   "property": "C151",
   "status": "partial",
   "theorems": [
    "C151_E00_continuous_refuted",
    "C151_E00_continuous_partial",
    "C151_E00_near_partial"
   ],
   "note": "REFUTED: around opposite hues the result jumps - for p = (50, 50, 0) there are colours as close to each other as one likes, near (50, -50, 0), whose differences from p are more than 3 apart (known of the published formula too; not proved here). Proved instead: continuity, for all positive weights, at every pair of which one is grey and at every pair whose (a, b) parts are not opposite and not on the positive a axis; and, for weights of at least 1, colours close to each other have a small difference, uniformly. Missing: what happens on the positive a axis, where the mean-hue rule of the code is not periodic."
  },
  {
   "property": "C152",
   "status": "proved",
   "theorems": [
    "C152_unfused",
    "C152_apply",
    "C152_integers",
    "C152_choice_matters",
    "C152_spectra",
    "C152_determinant",
    "C152_gamuts"
   ],
   "note": "Proved as stated."
  },
  {
   "property": "C153",
   "status": "proved",
   "theorems": [
    "C153_gamut_round_trip",
    "C153_convert_round_trip",
    "C153_decoders",
    "C153_srgb_encoder",
    "C153_bt709_encoder",
    "C153_image_through_xyz",
    "C153_image_through_gamut"
   ],
   "note": "The matrices are taken without fusing: the predefined gamuts are constexpr objects. A GamutConvert matrix multiplied at run time may itself be fused; that is not covered."
  },
  {
   "property": "C154",
   "status": "proved",
   "theorems": [
    "C154_E00_binary32_accuracy",
    "C154_E00_rounding_error"
   ],
   "note": "Full range excluded: neutral or nearly neutral colours, hues at the wrap and opposite hues, where the formula itself jumps (C151). Nearly neutral colours (chroma below 1/8) are excluded for convenience of the analysis, not because the bound fails."
  },
  {
   "property": "C155",
   "status": "proved",
   "theorems": [
    "C155_crosstalk_round_trip",
    "C155_crosstalk_neutral",
    "C155_neutral_not_exact"
   ],
   "note": "Proved as stated."
  },
  {
   "property": "C156",
   "status": "proved",
   "theorems": [
    "C156_toHSV_atan_accuracy"
   ],
   "note": "Excluded: green equal to blue (the zero first argument of atan2 is not in the library contract) and colours within 1/65536 of grey, where the hue is not determined to that accuracy."
  },
  {
   "property": "C157",
   "status": "proved",
   "theorems": [
    "C157_matrices",
    "C157_conversions",
    "C157_chromaticities",
    "C157_differences",
    "C157_spectra",
    "C157_library"
   ],
   "note": "Proved as stated."
  },
  {
   "property": "C158",
   "status": "partial",
   "theorems": [
    "C158_toHSV_refuted",
    "C158_slog2_refuted",
    "C158_fromYxy_refuted",
    "C158_toHSV_partial",
    "C158_fromYxy_partial"
   ],
   "note": "REFUTED: toHSV of (r, NaN, b) is the grey (0, 0, b) for all finite r and b; the S-Log2 decoder maps NaN to exactly 0; fromYxy(Y, NaN, 0) is (0, Y, 0). The partial theorems: a NaN blue gives a NaN value, a NaN red a NaN hue when green and blue differ, and fromYxy keeps every NaN except a NaN x beside |y| < 1e-8."
  },
  {
   "property": "C159",
   "status": "partial",
   "theorems": [
    "C159_returns_refuted",
    "C159_finite_partial",
    "C159_not_finite_partial",
    "C159_atan_partial"
   ],
   "note": "REFUTED: toHSV never returns for finite colours with red >= green, blue >= 0 and green - blue >= 2^123, because 60 * (green - blue) overflows and mod360 recurses on infinity. The partial theorems: it returns for all finite colours whose channels are within 2^120 of each other and for all colours with a channel that is not finite; toHSV_atan always returns."
  },
  {
   "property": "C160",
   "status": "partial",
   "theorems": [
    "C160_corrector_refuted",
    "C160_solver_refuted",
    "C160_backsubstitution_partial",
    "C160_solver_partial",
    "C160_corrector_partial"
   ],
   "note": "REFUTED: with a single patch the corrector returns the zero matrix whatever the target, and the solver answers 0 with code 0 for the system 0 x = NaN. The partial theorems: as soon as one computed singular value is positive or NaN (tolerance in [0,1]) every unknown is NaN, for systems of any size that are not wide, and so is every entry of the corrector's matrix for two or more patches; the return code is 0 nevertheless."
  },
  {
   "property": "C161",
   "status": "partial",
   "theorems": [
    "C161_nan_hue_refuted",
    "C161_large_hue_refuted",
    "C161_returns_partial",
    "C161_round_trip_refuted"
   ],
   "note": "REFUTED: a NaN hue is converted to an integer (undefined behaviour), and this is what toHSV produces for infinite red and green; for an infinite hue or one beyond 2^33 the normalisation never ends. C161_returns_partial is exact: fromHSV returns precisely for the finite hues up to 2^33 in magnitude, whatever saturation and value are."
  },
  {
   "property": "C162",
   "status": "proved",
   "theorems": [
    "C162_error",
    "C162_symmetric",
    "C162_zero",
    "C162_choice_matters"
   ],
   "note": "Proved as stated."
  },
  {
   "property": "C163",
   "status": "partial",
   "theorems": [
    "C163_zero_refuted",
    "C163_triangle_refuted",
    "C163_triangle_partial",
    "C163_zero_partial"
   ],
   "note": "REFUTED: squares of differences below 2^-75 underflow to 0, and for 0, 0.75*2^-24 and 1 on one axis the sum of the two computed differences is smaller than the third. The partial theorems: the triangle inequality holds within a factor 1 + 9*2^-24 plus 2^-71, and a difference of 0 implies that every component agrees within 2^-72."
  },
  {
   "property": "C164",
   "status": "proved",
   "theorems": [
    "C164_round_trip",
    "C164_unfused",
    "C164_choice_matters"
   ],
   "note": "The inverse matrices are constexpr in the source and are taken unfused."
  },
  {
   "property": "C165",
   "status": "proved",
   "theorems": [
    "C165_toHSV",
    "C165_fromHSV_range",
    "C165_round_trip",
    "C165_unfused",
    "C165_choice_matters"
   ],
   "note": "Proved as stated."
  },
  {
   "property": "C166",
   "status": "proved",
   "theorems": [
    "C166_four_forms",
    "C166_dot",
    "C166_nothing_else"
   ],
   "note": "Proved as stated."
  },
  {
   "property": "C167",
   "status": "proved",
   "theorems": [
    "C167_toYuv",
    "C167_Yxy_Yuv_Yxy",
    "C167_XYZ_Yuv_XYZ",
    "C167_unfused",
    "C167_choice_matters"
   ],
   "note": "Proved as stated."
  },
  {
   "property": "C168",
   "status": "proved",
   "theorems": [
    "C168_to_lab",
    "C168_from_lab",
    "C168_lab_round_trip",
    "C168_unfused",
    "C168_compared",
    "C168_choice_matters"
   ],
   "note": "Proved as stated."
  },
  {
   "property": "C169",
   "status": "proved",
   "theorems": [
    "C169_pq_encode",
    "C169_hlg",
    "C169_hlg_unaffected",
    "C169_unfused"
   ],
   "note": "Proved as stated."
  }
 ]
}