{
 "claims": [
  {
   "property": "C01",
   "status": "proved",
   "theorems": [
    "C01_quantise_total_saturating_nearest"
   ],
   "note": "IEEE arithmetic, any precision >= 16 bits (f32 and f64 are instances)"
  },
  {
   "property": "C02",
   "status": "proved",
   "theorems": [
    "C02_quantise_monotone"
   ],
   "note": "IEEE arithmetic"
  },
  {
   "property": "C03",
   "status": "proved",
   "theorems": [
    "C03_integer_roundtrip",
    "C03_integer_roundtrip_mixed",
    "C03_f32",
    "C03_f64"
   ],
   "note": "IEEE arithmetic"
  },
  {
   "property": "C04",
   "status": "proved",
   "theorems": [
    "C04_clamp",
    "C04_clamprgb"
   ],
   "note": "IEEE arithmetic"
  },
  {
   "property": "C05",
   "status": "partial",
   "theorems": [
    "C05_normalize_partial",
    "C05_normalize_refuted_black",
    "C05_normalize_refuted"
   ],
   "note": "False as stated for colours whose largest channel is not positive; proved (IEEE) when it is positive."
  },
  {
   "property": "C06",
   "status": "proved",
   "theorems": [
    "C06_rgb_index",
    "C06_xyz_index",
    "C06_matrix_index"
   ],
   "note": ""
  },
  {
   "property": "C07",
   "status": "proved",
   "theorems": [
    "C07_cast_slice"
   ],
   "note": ""
  },
  {
   "property": "C08",
   "status": "proved",
   "theorems": [
    "C08_sum_channels",
    "C08_sum_exact"
   ],
   "note": ""
  },
  {
   "property": "C09",
   "status": "proved",
   "theorems": [
    "C09_bitwise_commutative",
    "C09_vector_space",
    "C09_vector_space_xyz",
    "C09_division"
   ],
   "note": ""
  },
  {
   "property": "C10",
   "status": "proved",
   "theorems": [
    "C10_transposed_entries",
    "C10_transposed_involutive",
    "C10_transposed_mul"
   ],
   "note": "entries and involution for every number type; product law in exact arithmetic"
  },
  {
   "property": "C100",
   "status": "proved",
   "theorems": [
    "C100_to_xyz",
    "C100_builtin",
    "C100_checker"
   ],
   "note": "f64; powi is assumed as in C97; C100_checker assumes that approx_eq (float_cmp) holds of a finite number and itself (PropChecker.approx_same)"
  },
  {
   "property": "C101",
   "status": "proved",
   "theorems": [
    "C101_xyz",
    "C101_linear",
    "C101_aces",
    "C101_encoded",
    "C101_encoded_logc"
   ],
   "note": "exact arithmetic; the ACES_CC table is not covered; the lookup by name is C118"
  },
  {
   "property": "C102",
   "status": "proved",
   "theorems": [
    "C102_exact",
    "C102_float"
   ],
   "note": "exact arithmetic and f64; powi as in C97, powf as in C90 and C95 (CurveProofs.powf_ok, powf_wide), approx_eq as in C100; the lookup by name is C118"
  },
  {
   "property": "C103",
   "status": "proved",
   "theorems": [
    "C103_codes_f32",
    "C103_codes_f64",
    "C103_image_f32",
    "C103_image_f64"
   ],
   "note": "log10 assumed within 12 u on [0.1, 1000] and powf with base 10 within 4 u relative on exponents from -1 to 3 (LogProofs.log10_ok, powf_ten), powf otherwise as in C90 and C95; images with ALEXA_WIDE_GAMUT as the source are in C108"
  },
  {
   "property": "C104",
   "status": "proved",
   "theorems": [
    "C104_exact",
    "C104_float",
    "C104_patches"
   ],
   "note": "the hardware test that selects the AVX path is not modelled: both paths are covered; the tests of the source allow one and two units in the last place"
  },
  {
   "property": "C105",
   "status": "proved",
   "theorems": [
    "C105_linear",
    "C105_float",
    "C105_pixels_exact",
    "C105_pixels_float"
   ],
   "note": "exact arithmetic and f64; powi as in C97, powf as in C90 and C95 (only for the decoding and encoding of pixels)"
  },
  {
   "property": "C106",
   "status": "proved",
   "theorems": [
    "C106_symmetric_f32",
    "C106_symmetric_f64",
    "C106_self_f32",
    "C106_self_f64",
    "C106_accurate_f32",
    "C106_accurate_f64",
    "C106_positive_refuted"
   ],
   "note": "powi with exponent 2 assumed to be the product, sin and to_radians odd; ranges of hypot, powi, atan2, sin, cos and exp for the 2000 formula of a colour with itself (lab_libm, met by the library of Example C106_libm). The refuted theorem shows that the distance below which the 1976 difference may vanish is needed"
  },
  {
   "property": "C107",
   "status": "proved",
   "theorems": [
    "C107_steady_1976",
    "C107_small_2000",
    "C107_jump_2000"
   ],
   "note": "exact arithmetic; C107_jump_2000 is a refutation of continuity at every pair of exactly opposite hues on the a axis"
  },
  {
   "property": "C108",
   "status": "proved",
   "theorems": [
    "C108_whole_f32",
    "C108_dim_f32",
    "C108_whole_f64"
   ],
   "note": "powf as in C90 and, with base 10, as in C103; and within 4 u relative on [1, 400] to powers up to 1 (powf_far). ALEXA_WIDE_GAMUT to itself is C121"
  },
  {
   "property": "C109",
   "status": "proved",
   "theorems": [
    "C109_daylight_f32",
    "C109_daylight_f64"
   ],
   "note": "no assumption on the math library: cct uses only the four operations"
  },
  {
   "property": "C11",
   "status": "proved",
   "theorems": [
    "C11_determinant_leibniz",
    "C11_determinant_laws"
   ],
   "note": "exact arithmetic"
  },
  {
   "property": "C110",
   "status": "proved",
   "theorems": [
    "C110_xyY_XYZ_xyY_f32",
    "C110_xyY_XYZ_xyY_f64",
    "C110_XYZ_xyY_XYZ_f32",
    "C110_XYZ_xyY_XYZ_f64"
   ],
   "note": "no assumption on the math library; the exact round trips are C17"
  },
  {
   "property": "C111",
   "status": "proved",
   "theorems": [
    "C111_greys_stay_grey",
    "C111_greys_f32",
    "C111_greys_f64",
    "C111_all_depths_refuted"
   ],
   "note": "exact arithmetic, f32 and f64; powf as in C90 and C95. The refuted theorem shows that a limit on the depth is needed for pairs with sRGB"
  },
  {
   "property": "C112",
   "status": "proved",
   "theorems": [
    "C112_componentwise",
    "C112_relation",
    "C112_bounds_f32",
    "C112_bounds_f64"
   ],
   "note": "the comparison of two numbers is that of the float_cmp crate, which is not part of the repository: it is a parameter, and its reflexivity, symmetry and compatibility with == are hypotheses of C112_relation (Example C112_relation_met)"
  },
  {
   "property": "C113",
   "status": "proved",
   "theorems": [
    "C113_bradford_f32",
    "C113_bradford_f64",
    "C113_cat02_f32",
    "C113_cat02_f64",
    "C113_von_kries_f32",
    "C113_von_kries_f64"
   ],
   "note": "no assumption on the math library. von_kries has a rounded inverse written out in the code, so its image of the source white is compared with that of the exact matrix instead of with the destination"
  },
  {
   "property": "C114",
   "status": "proved",
   "theorems": [
    "C114_inverse_f32",
    "C114_inverse_f64",
    "C114_small_determinant_refuted"
   ],
   "note": "the branch for general matrices; the other branch is wrong in exact arithmetic already (C13, C14). The refuted theorem shows that a bound on the determinant is needed"
  },
  {
   "property": "C115",
   "status": "proved",
   "theorems": [
    "C115_exact",
    "C115_build_f32",
    "C115_build_f64"
   ],
   "note": ""
  },
  {
   "property": "C116",
   "status": "proved",
   "theorems": [
    "C116_new_f32",
    "C116_new_f64"
   ],
   "note": ""
  },
  {
   "property": "C117",
   "status": "proved",
   "theorems": [
    "C117_nit",
    "C117_builtin"
   ],
   "note": "f64; powi is assumed as in C97"
  },
  {
   "property": "C118",
   "status": "proved",
   "theorems": [
    "C118_lookup",
    "C118_by_name"
   ],
   "note": ""
  },
  {
   "property": "C119",
   "status": "proved",
   "theorems": [
    "C119_f32",
    "C119_f64"
   ],
   "note": ""
  },
  {
   "property": "C12",
   "status": "proved",
   "theorems": [
    "C12_mul_composes",
    "C12_mul_monoid",
    "C12_linear"
   ],
   "note": "exact arithmetic"
  },
  {
   "property": "C120",
   "status": "proved",
   "theorems": [
    "C120_distinct",
    "C120_integer"
   ],
   "note": "how Rust prints a float is not modelled: that different floats have different texts without separators is the hypothesis of C120_distinct (readable), met by integers"
  },
  {
   "property": "C121",
   "status": "proved",
   "theorems": [
    "C121_kept_f32",
    "C121_kept_f64",
    "C121_eleven_bits_refuted"
   ],
   "note": "log10 and powf with base 10 as in C103; Example C121_example shows such a library exists. The refuted theorem shows that the limit of ten bits is needed"
  },
  {
   "property": "C122",
   "status": "proved",
   "theorems": [
    "C122_six",
    "C122_window",
    "C122_one_sample"
   ],
   "note": "C122_six in any arithmetic; the other two in exact arithmetic"
  },
  {
   "property": "C123",
   "status": "proved",
   "theorems": [
    "C123_subsample",
    "C123_own_shape",
    "C123_again"
   ],
   "note": "exact arithmetic; the value at the last sample is rounded in floating point (C97_last_refuted)"
  },
  {
   "property": "C124",
   "status": "proved",
   "theorems": [
    "C124_f32",
    "C124_f64",
    "C124_tiny_refuted"
   ],
   "note": "the refuted theorem shows that a lower limit on the size is needed"
  },
  {
   "property": "C125",
   "status": "proved",
   "theorems": [
    "C125_lab_f32",
    "C125_lab_f64",
    "C125_chromaticity_f32",
    "C125_chromaticity_f64"
   ],
   "note": "no assumption on the math library"
  },
  {
   "property": "C126",
   "status": "proved",
   "theorems": [
    "C126_f32",
    "C126_f64"
   ],
   "note": ""
  },
  {
   "property": "C127",
   "status": "proved",
   "theorems": [
    "C127_scalar",
    "C127_avx",
    "C127_dark_refuted"
   ],
   "note": "the refuted theorem shows that a lower limit on the size is needed"
  },
  {
   "property": "C128",
   "status": "proved",
   "theorems": [
    "C128_linear_f32",
    "C128_linear_f64",
    "C128_fast",
    "C128_black_refuted"
   ],
   "note": "the refuted theorem shows that the equality is that of floats and not of bits"
  },
  {
   "property": "C129",
   "status": "proved",
   "theorems": [
    "C129_avx",
    "C129_linear_f32",
    "C129_linear_f64",
    "C129_scalar_refuted",
    "C129_z_refuted"
   ],
   "note": "the refuted theorems are the exceptions named in the statement"
  },
  {
   "property": "C13",
   "status": "partial",
   "theorems": [
    "C13_inverse_sound_partial",
    "C13_inverse_sound_refuted",
    "C13_inverse_sound_refuted_sign"
   ],
   "note": "False as stated: the affine branch divides the bottom-right 1 as well and the branch test misses an absolute value. The partial theorem gives the exact condition under which the answer is right."
  },
  {
   "property": "C14",
   "status": "partial",
   "theorems": [
    "C14_inverse_complete_partial",
    "C14_inverse_singular_refuted",
    "C14_inverse_affine_answer"
   ],
   "note": "Proved for matrices taking the general branch; a singular matrix taking the affine branch gets an answer (refuted)."
  },
  {
   "property": "C15",
   "status": "proved",
   "theorems": [
    "C15_gj_inverse_sound"
   ],
   "note": "exact arithmetic"
  },
  {
   "property": "C16",
   "status": "partial",
   "theorems": [
    "C16_gj_inverse_complete_partial",
    "C16_gj_inverse_complete_refuted",
    "C16_gj_inverse_complete_refuted_division",
    "C16_gj_inverse_dominant"
   ],
   "note": "False as stated (pivots are searched in the original matrix); the exact set of matrices that are inverted is characterised."
  },
  {
   "property": "C17",
   "status": "proved",
   "theorems": [
    "C17_xyY_XYZ_xyY",
    "C17_XYZ_xyY_XYZ",
    "C17_black"
   ],
   "note": "exact arithmetic"
  },
  {
   "property": "C18",
   "status": "proved",
   "theorems": [
    "C18_normalized"
   ],
   "note": "exact arithmetic; X+Y+Z nonzero is needed for a chromaticity to exist"
  },
  {
   "property": "C19",
   "status": "proved",
   "theorems": [
    "C19_self_adaptation"
   ],
   "note": "IEEE arithmetic, bit for bit"
  },
  {
   "property": "C20",
   "status": "proved",
   "theorems": [
    "C20_white_to_white",
    "C20_no_panic"
   ],
   "note": "exact arithmetic"
  },
  {
   "property": "C21",
   "status": "proved",
   "theorems": [
    "C21_compose_invert"
   ],
   "note": "exact arithmetic"
  },
  {
   "property": "C22",
   "status": "partial",
   "theorems": [
    "C22_von_kries_partial",
    "C22_von_kries_refuted"
   ],
   "note": "False as stated: the hard-coded inverse is rounded. Proved: within 5e-8 relative."
  },
  {
   "property": "C23",
   "status": "partial",
   "theorems": [
    "C23_xyz_to_rgb_from_primaries",
    "C23_new_partial",
    "C23_new_refuted"
   ],
   "note": "The XYZ-to-RGB matrix is right for all non-degenerate primaries. The inverse is wrong for primaries whose matrix enters the affine branch of Matrix33::inverse (refuted with realistic primaries); proved otherwise."
  },
  {
   "property": "C24",
   "status": "proved",
   "theorems": [
    "C24_builtin_from_primaries",
    "C24_builtin_specified"
   ],
   "note": "exact arithmetic"
  },
  {
   "property": "C25",
   "status": "partial",
   "theorems": [
    "C25_groupoid_partial",
    "C25_groupoid_refuted"
   ],
   "note": "Inherits the defect of C23; proved for all spaces whose two matrices are inverses."
  },
  {
   "property": "C26",
   "status": "partial",
   "theorems": [
    "C26_rgb_xyz_roundtrip_partial",
    "C26_rgb_xyz_roundtrip_refuted"
   ],
   "note": "Inherits the defect of C23; proved for all spaces whose two matrices are inverses."
  },
  {
   "property": "C27",
   "status": "proved",
   "theorems": [
    "C27_slice_is_pointwise"
   ],
   "note": "any number type"
  },
  {
   "property": "C28",
   "status": "proved",
   "theorems": [
    "C28_rgb_to_rgb_prefix"
   ],
   "note": "any number type"
  },
  {
   "property": "C29",
   "status": "partial",
   "theorems": [
    "C29_avx_planes_exact_coverage",
    "C29_avx_planes_partial",
    "C29_avx_planes_iff",
    "C29_avx_planes_refuted"
   ],
   "note": "False as stated: start_remaining is wrong and pixels are left black; the exact set of converted indices is proved."
  },
  {
   "property": "C30",
   "status": "partial",
   "theorems": [
    "C30_srgb_encode_decode",
    "C30_srgb_decode_encode_partial",
    "C30_srgb_decode_encode_refuted"
   ],
   "note": "encode after decode is the identity everywhere; decode after encode fails in a window just above 0.0031308."
  },
  {
   "property": "C31",
   "status": "partial",
   "theorems": [
    "C31_bt709_decode_encode",
    "C31_bt709_encode_decode_partial",
    "C31_bt709_encode_decode_refuted"
   ],
   "note": "decode after encode is the identity everywhere; encode after decode fails for codes between 0.081 and 0.08125."
  },
  {
   "property": "C32",
   "status": "partial",
   "theorems": [
    "C32_bt2020_decode_encode",
    "C32_bt2020_encode_decode_partial",
    "C32_bt2020_encode_decode_refuted"
   ],
   "note": "decode after encode is the identity everywhere; encode after decode fails for codes between 0.081 and 0.08125."
  },
  {
   "property": "C33",
   "status": "partial",
   "theorems": [
    "C33_alexa_decode_encode_partial",
    "C33_alexa_encode_decode_partial",
    "C33_alexa_refuted"
   ],
   "note": "Both directions fail in a window at the cut."
  },
  {
   "property": "C34",
   "status": "proved",
   "theorems": [
    "C34_power_law_roundtrip",
    "C34_linear_identity"
   ],
   "note": ""
  },
  {
   "property": "C35",
   "status": "partial",
   "theorems": [
    "C35_monotone_partial",
    "C35_monotone_refuted",
    "C35_unit_range"
   ],
   "note": "Four of the functions jump down at the switch."
  },
  {
   "property": "C36",
   "status": "proved",
   "theorems": [
    "C36_codes_survive",
    "C36_bt709_16bit_refuted",
    "C36_space_curves_paired"
   ],
   "note": "sRGB also for 16-bit codes; 16-bit BT.709 codes in the gap do not survive."
  },
  {
   "property": "C37",
   "status": "proved",
   "theorems": [
    "C37_lab_roundtrip",
    "C37_zero_white"
   ],
   "note": ""
  },
  {
   "property": "C38",
   "status": "proved",
   "theorems": [
    "C38_lab_anchors"
   ],
   "note": "L increases with Y relative to the white"
  },
  {
   "property": "C39",
   "status": "proved",
   "theorems": [
    "C39_delta76_metric",
    "C39_delta76_norm"
   ],
   "note": ""
  },
  {
   "property": "C40",
   "status": "proved",
   "theorems": [
    "C40_delta2000_symmetric"
   ],
   "note": ""
  },
  {
   "property": "C41",
   "status": "proved",
   "theorems": [
    "C41_delta2000_defined",
    "C41_delta2000_greys"
   ],
   "note": ""
  },
  {
   "property": "C42",
   "status": "partial",
   "theorems": [
    "C42_cct_partial",
    "C42_cct_float_domain",
    "C42_cct_nan_refuted"
   ],
   "note": "Proved for every temperature that is a number; NaN is accepted and gives NaN."
  },
  {
   "property": "C43",
   "status": "proved",
   "theorems": [
    "C43_cct_strictly_decreasing"
   ],
   "note": "also across the switch at 7000 K"
  },
  {
   "property": "C44",
   "status": "proved",
   "theorems": [
    "C44_fast_conversion_is_weighted_sum",
    "C44_fast_conversion_linear",
    "C44_spike"
   ],
   "note": ""
  },
  {
   "property": "C45",
   "status": "proved",
   "theorems": [
    "C45_avx_equals_scalar"
   ],
   "note": "exact arithmetic; any weights"
  },
  {
   "property": "C46",
   "status": "partial",
   "theorems": [
    "C46_nonnegative_partial",
    "C46_nonnegative_refuted",
    "C46_perfect_reflector"
   ],
   "note": "False for Z: W_Z has a negative entry at 660 nm. X and Y are nonnegative, Z up to that entry."
  },
  {
   "property": "C47",
   "status": "proved",
   "theorems": [
    "C47_spd_samplewise"
   ],
   "note": "any number type, hence all floats"
  },
  {
   "property": "C48",
   "status": "partial",
   "theorems": [
    "C48_new_shape_partial",
    "C48_last_gap_unchecked_refuted",
    "C48_grid_uniform"
   ],
   "note": "Everything but the last gap: the code never compares it, so unevenly spaced samples such as 0, 10, 20, 25 are reported as uniform."
  },
  {
   "property": "C49",
   "status": "proved",
   "theorems": [
    "C49_iter_grid",
    "C49_iter_reversed",
    "C49_iter_varying"
   ],
   "note": "exact arithmetic, fewer than 2^64 steps"
  },
  {
   "property": "C50",
   "status": "proved",
   "theorems": [
    "C50_constant",
    "C50_from_values",
    "C50_varying"
   ],
   "note": "exact arithmetic"
  },
  {
   "property": "C51",
   "status": "proved",
   "theorems": [
    "C51_through_samples"
   ],
   "note": "two samples suffice"
  },
  {
   "property": "C52",
   "status": "proved",
   "theorems": [
    "C52_domain",
    "C52_nan",
    "C52_release_refuted"
   ],
   "note": "C52_release_refuted is the behaviour without overflow checks"
  },
  {
   "property": "C53",
   "status": "proved",
   "theorems": [
    "C53_twice_differentiable"
   ],
   "note": "stated for the whole interpolant, not knot by knot"
  },
  {
   "property": "C54",
   "status": "proved",
   "theorems": [
    "C54_linear",
    "C54_quartic",
    "C54_short_spectrum_refuted"
   ],
   "note": "fails with fewer than six samples, shown by the last theorem"
  },
  {
   "property": "C55",
   "status": "proved",
   "theorems": [
    "C55_linear_through_samples",
    "C55_linear_between_neighbours",
    "C55_linear_total"
   ],
   "note": "exact arithmetic"
  },
  {
   "property": "C56",
   "status": "proved",
   "theorems": [
    "C56_interpolate",
    "C56_disjoint_panics"
   ],
   "note": "exact arithmetic"
  },
  {
   "property": "C57",
   "status": "proved",
   "theorems": [
    "C57_extrapolate",
    "C57_needs_positive_interval",
    "C57_varying_panics"
   ],
   "note": "exact arithmetic; with a non-positive interval the loop does not end"
  },
  {
   "property": "C58",
   "status": "partial",
   "theorems": [
    "C58_align_on_grid_partial",
    "C58_off_grid_refuted"
   ],
   "note": "Proved when the spectrum's ends inside the range lie on the requested grid; otherwise false, with a counterexample."
  },
  {
   "property": "C59",
   "status": "partial",
   "theorems": [
    "C59_shape_describes_partial",
    "C59_extrapolate_refuted"
   ],
   "note": "All operations but extrapolate, which reports the requested range even when its samples cover more."
  },
  {
   "property": "C60",
   "status": "proved",
   "theorems": [
    "C60_trim_is_filter",
    "C60_trim_panics"
   ],
   "note": "non-decreasing wavelengths suffice"
  },
  {
   "property": "C61",
   "status": "proved",
   "theorems": [
    "C61_lagrange_rows",
    "C61_small_intervals"
   ],
   "note": "intervals below 3 nm give NaN or panic, shown by the second theorem"
  },
  {
   "property": "C62",
   "status": "proved",
   "theorems": [
    "C62_linspace",
    "C62_linspace_small"
   ],
   "note": ""
  },
  {
   "property": "C63",
   "status": "proved",
   "theorems": [
    "C63_weights_conserve",
    "C63_trim_conserves",
    "C63_short_table_panics",
    "C63_needs_1nm"
   ],
   "note": "with fewer than three coarse points the code panics"
  },
  {
   "property": "C64",
   "status": "partial",
   "theorems": [
    "C64_perfect_diffuser_partial",
    "C64_offgrid_refuted"
   ],
   "note": "Proved for evenly spaced sources and CMFs that reach or land on 360 and 780 nm, with six or more samples at 1 and 5 nm, and for 10 nm samples on 360, 370, ...; off that grid false, with a counterexample."
  },
  {
   "property": "C65",
   "status": "proved",
   "theorems": [
    "C65_to_xyz_linear",
    "C65_to_xyz_scales"
   ],
   "note": "any wavelengths and shape; calls panic together"
  },
  {
   "property": "C66",
   "status": "proved",
   "theorems": [
    "C66_illuminant_power",
    "C66_illuminant_operators"
   ],
   "note": "exact arithmetic"
  },
  {
   "property": "C67",
   "status": "partial",
   "theorems": [
    "C67_interpolates_partial",
    "C67_truncated_interval_refuted"
   ],
   "note": "True unless 5 < i < 6 or 10 < i < 11, where the interval is truncated and the spectrum is not interpolated; counterexample at 10.5 nm. The proof covers spectra that reach or land on the ends of 360..780."
  },
  {
   "property": "C68",
   "status": "partial",
   "theorems": [
    "C68_nit_linear",
    "C68_nit_defined_partial",
    "C68_varying_never_returns",
    "C68_defined_refuted"
   ],
   "note": "Linear for all spectra. Defined for evenly spaced ones; unevenly spaced ones always panic."
  },
  {
   "property": "C69",
   "status": "proved",
   "theorems": [
    "C69_uplift_samples",
    "C69_uplift_physical",
    "C69_uplift_white",
    "C69_uplift_additive"
   ],
   "note": "exact arithmetic on the tabulated decimals"
  },
  {
   "property": "C70",
   "status": "proved",
   "theorems": [
    "C70_scaling_keeps_wavelengths",
    "C70_scaling_any",
    "C70_shape_kept_refuted"
   ],
   "note": "any number type; for spectra not built by new the shape may change, shown by example"
  },
  {
   "property": "C71",
   "status": "proved",
   "theorems": [
    "C71_equality"
   ],
   "note": "binary64"
  },
  {
   "property": "C72",
   "status": "proved",
   "theorems": [
    "C72_matrix_rounding"
   ],
   "note": "f32 and f64, XYZ and RGB; a finite result is within 4u of the sum of absolute products plus 4 half-subnormals, so no underflow hypothesis is needed; finiteness follows from finite operands and products adding up to at most half of 2^emax"
  },
  {
   "property": "C73",
   "status": "proved",
   "theorems": [
    "C73_lerp_ends",
    "C73_lerp_rounding",
    "C73_lerp_between"
   ],
   "note": "equality is ==: a zero end point may change sign, as the example shows; other end points are hit bit for bit"
  },
  {
   "property": "C74",
   "status": "proved",
   "theorems": [
    "C74_narrow_monotone",
    "C74_narrow_exact",
    "C74_narrow_nearest"
   ],
   "note": "all NaNs are one value in the model"
  },
  {
   "property": "C75",
   "status": "proved",
   "theorems": [
    "C75_illuminants_and_cmf",
    "C75_colour_checker",
    "C75_uplift_tables",
    "C75_uplift_ranges",
    "C75_smits_negative"
   ],
   "note": "all built-in tables"
  },
  {
   "property": "C76",
   "status": "proved",
   "theorems": [
    "C76_quadratic_spectra_exact"
   ],
   "note": "exact arithmetic"
  },
  {
   "property": "C77",
   "status": "proved",
   "theorems": [
    "C77_white_points",
    "C77_D60_refuted"
   ],
   "note": "C77_D60_refuted exhibits the D60 discrepancy"
  },
  {
   "property": "C78",
   "status": "proved",
   "theorems": [
    "C78_primaries_exact",
    "C78_primaries_specified"
   ],
   "note": "exact arithmetic"
  },
  {
   "property": "C79",
   "status": "proved",
   "theorems": [
    "C79_gamut_inclusions",
    "C79_gamut_exclusions"
   ],
   "note": "exact arithmetic on the chain computed by the code"
  },
  {
   "property": "C80",
   "status": "proved",
   "theorems": [
    "C80_scalar_accurate",
    "C80_avx_accurate"
   ],
   "note": "for finite results; the AVX statement is for the 40-sample layout the code uses"
  },
  {
   "property": "C81",
   "status": "proved",
   "theorems": [
    "C81_hero_exact",
    "C81_hero_f64"
   ],
   "note": "exact arithmetic and binary64"
  },
  {
   "property": "C82",
   "status": "proved",
   "theorems": [
    "C82_colour_equality"
   ],
   "note": "f32 and f64; all NaNs are one value"
  },
  {
   "property": "C83",
   "status": "proved",
   "theorems": [
    "C83_ciede2000",
    "C83_direction"
   ],
   "note": "exact arithmetic; the second theorem says that the mean hue the first asks for exists and is unique"
  },
  {
   "property": "C84",
   "status": "proved",
   "theorems": [
    "C84_bounded_by_1976",
    "C84_triangle_fails"
   ],
   "note": "exact arithmetic"
  },
  {
   "property": "C85",
   "status": "proved",
   "theorems": [
    "C85_curves_nearly_inverse",
    "C85_bound_is_needed",
    "C85_spaces_nearly_lossless"
   ],
   "note": "exact arithmetic"
  },
  {
   "property": "C86",
   "status": "proved",
   "theorems": [
    "C86_pixels_f32",
    "C86_pixels_f64",
    "C86_deep_srgb_refuted",
    "C86_deep_adobe_refuted"
   ],
   "note": "f32 and f64; the last two theorems show that the limits for sRGB and Adobe RGB are needed"
  },
  {
   "property": "C87",
   "status": "proved",
   "theorems": [
    "C87_curves_f32",
    "C87_curves_f64",
    "C87_twelve_bits_refuted"
   ],
   "note": "f32 and f64; powf is assumed accurate to two units in the last place (CurveProofs.powf_ok), and C87_example shows such a powf exists; ALEXA Wide Gamut (log10) is not covered"
  },
  {
   "property": "C88",
   "status": "proved",
   "theorems": [
    "C88_luminance_exact",
    "C88_luminance_specified"
   ],
   "note": "exact arithmetic"
  },
  {
   "property": "C89",
   "status": "proved",
   "theorems": [
    "C89_lab_box",
    "C89_lab_box_tight",
    "C89_in_gamut_lab"
   ],
   "note": "exact arithmetic"
  },
  {
   "property": "C90",
   "status": "proved",
   "theorems": [
    "C90_own_space_f32",
    "C90_own_space_f64",
    "C90_adobe_refuted",
    "C90_deep_p3_refuted"
   ],
   "note": "f32 and f64; powf is assumed as in C87 and to be NaN at negative bases (PropSelf.good_powf), and C90_example shows such a powf exists; ALEXA Wide Gamut (log10) is C121"
  },
  {
   "property": "C91",
   "status": "proved",
   "theorems": [
    "C91_lab_f32",
    "C91_lab_f64",
    "C91_exact_refuted"
   ],
   "note": "f32 and f64; powf and powi(3) are assumed accurate as stated (good_libm), which lab_libm_ok shows to be possible"
  },
  {
   "property": "C92",
   "status": "proved",
   "theorems": [
    "C92_light_f32",
    "C92_light_f64",
    "C92_stored_f32",
    "C92_stored_f64"
   ],
   "note": "f32 and f64; powf and powi(3) are assumed accurate as stated (good_libm), and C92_example shows such a platform exists; the stored pixels of Adobe RGB, ALEXA and, in f32, DCI-P3 are not covered"
  },
  {
   "property": "C93",
   "status": "proved",
   "theorems": [
    "C93_work_f32",
    "C93_work_f64"
   ],
   "note": "f32 and f64; powf is assumed as in C90 (PropSelf.good_powf), and C93_example shows such a powf exists; Adobe RGB, ALEXA Wide Gamut and, in f32, DCI-P3 are not covered"
  },
  {
   "property": "C94",
   "status": "proved",
   "theorems": [
    "C94_convert_f32",
    "C94_pixel_f32",
    "C94_convert_with_matrices_f32",
    "C94_examples_agree"
   ],
   "note": "f32 for every platform library; agreement in exact arithmetic; reading and writing of PNG files is not modelled"
  },
  {
   "property": "C95",
   "status": "proved",
   "theorems": [
    "C95_float_image_f32",
    "C95_float_image_f64",
    "C95_deep_p3_refuted"
   ],
   "note": "f32 and f64; powf is assumed as in C90 (PropSelf.good_powf) and accurate for bases from 1 to 16 (CurveProofs.powf_wide), and C95_example shows such a powf exists; ALEXA Wide Gamut (log10) is not covered"
  },
  {
   "property": "C96",
   "status": "proved",
   "theorems": [
    "C96_estimate",
    "C96_reflectances",
    "C96_program",
    "C96_white_refuted"
   ],
   "note": "exact arithmetic; the random numbers are arbitrary, nothing is assumed of their distribution; the wavelengths and the tables are those of the program"
  },
  {
   "property": "C97",
   "status": "proved",
   "theorems": [
    "C97_sprague",
    "C97_linear",
    "C97_powi",
    "C97_last_refuted"
   ],
   "note": "f32 and f64; powi is assumed accurate to 8 u for exponents 2 to 5 (SpragueErrProofs.powi5_ok), and C97_powi shows that powi by repeated squaring is; spectra already in the precision in question"
  },
  {
   "property": "C98",
   "status": "proved",
   "theorems": [
    "C98_range",
    "C98_perturbation",
    "C98_sharp",
    "C98_align",
    "C98_float"
   ],
   "note": "exact arithmetic; the floating-point form by C97, with its assumption on powi"
  },
  {
   "property": "C99",
   "status": "proved",
   "theorems": [
    "C99_to_xyz",
    "C99_varying",
    "C99_builtin"
   ],
   "note": "f64; powi is assumed as in C97; the 10 nm interval (ASTM E308 tables) is C100"
  }
 ]
}