{
 "claims": [
  {
   "property": "C01",
   "status": "proved",
   "theorems": [
    "C01_binary",
    "C01_vector_scalar",
    "C01_scalar_vector",
    "C01_unary",
    "C01_inplace",
    "C01_accumulate",
    "C01_accumulate_scalar",
    "C01_interpolate",
    "C01_returns",
    "C01_returns2",
    "C01_fill",
    "C01_clamp",
    "C01_smoothstep",
    "C01_convert",
    "C01_tests"
   ],
   "note": "every float arithmetic, every aliasing of operands with the destination"
  },
  {
   "property": "C02",
   "status": "proved",
   "theorems": [
    "C02_alias",
    "C02_cross",
    "C02_laws",
    "C02_vec2_cross"
   ],
   "note": "over the reals; any aliasing"
  },
  {
   "property": "C03",
   "status": "proved",
   "theorems": [
    "C03_alias",
    "C03_scale_as",
    "C03_norm",
    "C03_normalize_to",
    "C03_normalize",
    "C03_crossn",
    "C03_unit"
   ],
   "note": "over the reals; in place too; division by zero and negative roots are errors of the model, so their absence is part of the theorems"
  },
  {
   "property": "C04",
   "status": "proved",
   "theorems": [
    "C04_normalize",
    "C04_scalar_neon",
    "C04_gap",
    "C04_agree",
    "C04_agree_refuted"
   ],
   "note": "Over the reals; SSE2, AVX, FMA, WebAssembly, NEON and scalar builds; agreement off the gap, difference on it."
  },
  {
   "property": "C05",
   "status": "proved",
   "theorems": [
    "C05_identity_array",
    "C05_data",
    "C05_blocks",
    "C05_mat2_mul",
    "C05_mat3_mul",
    "C05_mat4_mul",
    "C05_identity",
    "C05_monoid"
   ],
   "note": "over the reals; any aliasing of factors and destination; blocks (pick/ins) for every arithmetic"
  },
  {
   "property": "C06",
   "status": "proved",
   "theorems": [
    "C06_mat2_inv",
    "C06_mat3_inv",
    "C06_mat4_inv",
    "C06_mat4_inv_fast",
    "C06_unique",
    "C06_mat2_singular",
    "C06_mat3_singular",
    "C06_mat4_singular"
   ],
   "note": "over the reals; also in place; singular input ends in the division by zero"
  },
  {
   "property": "C07",
   "status": "proved",
   "theorems": [
    "C07_det",
    "C07_multiplicative",
    "C07_trace"
   ],
   "note": "over the reals"
  },
  {
   "property": "C08",
   "status": "proved",
   "theorems": [
    "C08_transpose",
    "C08_transpose_to",
    "C08_transpose_to_in_place",
    "C08_transpose_to_in_place_refuted",
    "C08_simd"
   ],
   "note": "Scalar build (in place failure shown) and all SIMD builds, every float arithmetic."
  },
  {
   "property": "C09",
   "status": "proved",
   "theorems": [
    "C09_mulv",
    "C09_mat2_mulv",
    "C09_mat2_mulv_in_place",
    "C09_mat2_mulv_in_place_refuted",
    "C09_action"
   ],
   "note": "over the reals; the in-place failure of glm_mat2_mulv is characterised exactly"
  },
  {
   "property": "C10",
   "status": "proved",
   "theorems": [
    "C10_mulN",
    "C10_mulN_short",
    "C10_struct_mulN",
    "C10_mulN_third_refuted"
   ],
   "note": ""
  },
  {
   "property": "C11",
   "status": "proved",
   "theorems": [
    "C11_swap",
    "C11_rmc",
    "C11_outside"
   ],
   "note": ""
  },
  {
   "property": "C12",
   "status": "proved",
   "theorems": [
    "C12_mul",
    "C12_mulv",
    "C12_transpose",
    "C12_data",
    "C12_laws"
   ],
   "note": "over the reals"
  },
  {
   "property": "C13",
   "status": "proved",
   "theorems": [
    "C13_action",
    "C13_translate_make",
    "C13_scale_make",
    "C13_rotate_make",
    "C13_translate",
    "C13_translated",
    "C13_scale",
    "C13_rotate"
   ],
   "note": "over the real numbers"
  },
  {
   "property": "C14",
   "status": "proved",
   "theorems": [
    "C14_rotation",
    "C14_rotate_make"
   ],
   "note": "over the real numbers"
  },
  {
   "property": "C15",
   "status": "proved",
   "theorems": [
    "C15_mul",
    "C15_mul_rot",
    "C15_mul_any",
    "C15_mul_rot_any",
    "C15_mul_refuted",
    "C15_mul_rot_refuted",
    "C15_avx_mul"
   ],
   "note": "scalar build; over the real numbers"
  },
  {
   "property": "C16",
   "status": "proved",
   "theorems": [
    "C16_inv_tr",
    "C16_simd"
   ],
   "note": "scalar build; over the real numbers"
  },
  {
   "property": "C17",
   "status": "proved",
   "theorems": [
    "C17_rotated_any",
    "C17_exactly",
    "C17_refuted"
   ],
   "note": "over the real numbers"
  },
  {
   "property": "C18",
   "status": "proved",
   "theorems": [
    "C18_rotate_at",
    "C18_rotate_atm",
    "C18_pivot",
    "C18_spinned",
    "C18_spin",
    "C18_spin_refuted",
    "C18_rotated_at",
    "C18_rotated_at_refuted"
   ],
   "note": "over the real numbers"
  },
  {
   "property": "C19",
   "status": "proved",
   "theorems": [
    "C19_scalev",
    "C19_decompose",
    "C19_zero_scale",
    "C19_uniscaled",
    "C19_exact"
   ],
   "note": "over the real numbers"
  },
  {
   "property": "C20",
   "status": "proved",
   "theorems": [
    "C20_action",
    "C20_make",
    "C20_translate",
    "C20_scale",
    "C20_rotate",
    "C20_rotation",
    "C20_textrans4",
    "C20_post",
    "C20_textrans",
    "C20_textrans_refuted"
   ],
   "note": "over the real numbers; glm_mat3_textrans turns clockwise, against its documentation: C20_textrans_refuted"
  },
  {
   "property": "C21",
   "status": "proved",
   "theorems": [
    "C21_mul",
    "C21_laws",
    "C21_mul_first",
    "C21_mul_second",
    "C21_mul_in_place_refuted",
    "C21_basic",
    "C21_norm",
    "C21_simd"
   ],
   "note": "Over the reals; scalar build with the in-place failure, SIMD builds with any aliasing."
  },
  {
   "property": "C22",
   "status": "proved",
   "theorems": [
    "C22_conjugate",
    "C22_inv",
    "C22_inv_zero"
   ],
   "note": ""
  },
  {
   "property": "C23",
   "status": "proved",
   "theorems": [
    "C23_mat4",
    "C23_mat4t",
    "C23_mat3",
    "C23_mat3t",
    "C23_rotation",
    "C23_nonunit_refuted",
    "C23_back",
    "C23_from_rotation"
   ],
   "note": ""
  },
  {
   "property": "C24",
   "status": "proved",
   "theorems": [
    "C24_normalize",
    "C24_normalized",
    "C24_rotatev",
    "C24_rotation",
    "C24_quatv",
    "C24_axis_angle",
    "C24_rotate",
    "C24_rotate_at",
    "C24_rotate_atm",
    "C24_look"
   ],
   "note": ""
  },
  {
   "property": "C25",
   "status": "proved",
   "theorems": [
    "C25_lerpc",
    "C25_longest",
    "C25_longest_unit",
    "C25_longest_parallel",
    "C25_longest_nearly",
    "C25_init_copy",
    "C25_slerp",
    "C25_unit",
    "C25_parallel",
    "C25_nearly",
    "C25_antipodal_refuted",
    "C25_lerp",
    "C25_nlerp"
   ],
   "note": ""
  },
  {
   "property": "C26",
   "status": "proved",
   "theorems": [
    "C26_ortho",
    "C26_ortho_zero_refuted",
    "C26_from_vecs",
    "C26_equal",
    "C26_opposite"
   ],
   "note": ""
  },
  {
   "property": "C27",
   "status": "proved",
   "theorems": [
    "C27_matrices",
    "C27_rotation",
    "C27_by_order",
    "C27_no_order",
    "C27_order"
   ],
   "note": ""
  },
  {
   "property": "C28",
   "status": "proved",
   "theorems": [
    "C28_angles",
    "C28_roundtrip",
    "C28_exact"
   ],
   "note": ""
  },
  {
   "property": "C29",
   "status": "proved",
   "theorems": [
    "C29_meaning",
    "C29_rh",
    "C29_lh",
    "C29_default"
   ],
   "note": ""
  },
  {
   "property": "C30",
   "status": "proved",
   "theorems": [
    "C30_variants",
    "C30_lookat",
    "C30_look",
    "C30_anyup",
    "C30_degenerate"
   ],
   "note": ""
  },
  {
   "property": "C31",
   "status": "proved",
   "theorems": [
    "C31_ortho",
    "C31_degenerate",
    "C31_frustum_rh",
    "C31_frustum_lh",
    "C31_frustum_lh_refuted",
    "C31_perspective",
    "C31_defaults",
    "C31_resize"
   ],
   "note": ""
  },
  {
   "property": "C32",
   "status": "proved",
   "theorems": [
    "C32_move_far",
    "C32_depth",
    "C32_decomp",
    "C32_decomp_xy_lh_zo",
    "C32_fovy"
   ],
   "note": ""
  },
  {
   "property": "C33",
   "status": "proved",
   "theorems": [
    "C33_volume",
    "C33_padded",
    "C33_lh_refuted"
   ],
   "note": ""
  },
  {
   "property": "C34",
   "status": "proved",
   "theorems": [
    "C34_project",
    "C34_no_image",
    "C34_unprojecti",
    "C34_unproject",
    "C34_pick",
    "C34_pick_empty"
   ],
   "note": ""
  },
  {
   "property": "C35",
   "status": "proved",
   "theorems": [
    "C35_total",
    "C35_planes",
    "C35_corners",
    "C35_center",
    "C35_box"
   ],
   "note": ""
  },
  {
   "property": "C36",
   "status": "proved",
   "theorems": [
    "C36_merge",
    "C36_crop",
    "C36_contains",
    "C36_point",
    "C36_meet",
    "C36_crop_until",
    "C36_measures",
    "C36_zero_copy",
    "C36_invalid",
    "C36_merge_invalid",
    "C36_isvalid_refuted"
   ],
   "note": "glm_aabb_isvalid accepts boxes with crossed corners: C36_isvalid_refuted"
  },
  {
   "property": "C37",
   "status": "proved",
   "theorems": [
    "C37_transform3",
    "C37_transform2"
   ],
   "note": ""
  },
  {
   "property": "C38",
   "status": "proved",
   "theorems": [
    "C38_frustum",
    "C38_conservative",
    "C38_keeps_invisible"
   ],
   "note": ""
  },
  {
   "property": "C39",
   "status": "proved",
   "theorems": [
    "C39_ball",
    "C39_missed_refuted"
   ],
   "note": ""
  },
  {
   "property": "C40",
   "status": "proved",
   "theorems": [
    "C40_point",
    "C40_meet",
    "C40_merge",
    "C40_merge_least_refuted",
    "C40_transform"
   ],
   "note": ""
  },
  {
   "property": "C41",
   "status": "proved",
   "theorems": [
    "C41_ray",
    "C41_tangent"
   ],
   "note": ""
  },
  {
   "property": "C42",
   "status": "proved",
   "theorems": [
    "C42_triangle",
    "C42_at"
   ],
   "note": ""
  },
  {
   "property": "C43",
   "status": "proved",
   "theorems": [
    "C43_binary",
    "C43_div",
    "C43_minmax",
    "C43_scalar",
    "C43_divs",
    "C43_accumulate",
    "C43_accumulate_sub",
    "C43_accumulate_scalar",
    "C43_total",
    "C43_abs",
    "C43_dot",
    "C43_cross",
    "C43_eq",
    "C43_convert",
    "C43_distance",
    "C43_sign",
    "C43_minmax1",
    "C43_dot_refuted",
    "C43_norm"
   ],
   "note": ""
  },
  {
   "property": "C44",
   "status": "proved",
   "theorems": [
    "C44_minmax",
    "C44_clamp",
    "C44_clamp_zo",
    "C44_sign",
    "C44_pow2",
    "C44_rad",
    "C44_lerp",
    "C44_step",
    "C44_smoothstep",
    "C44_smoothstep_empty",
    "C44_smooth",
    "C44_percent",
    "C44_swapf"
   ],
   "note": "over the real numbers"
  },
  {
   "property": "C45",
   "status": "proved",
   "theorems": [
    "C45_min_max_nan",
    "C45_commutative_refuted",
    "C45_min_max",
    "C45_clamp_nan",
    "C45_clamp_zo"
   ],
   "note": "Over the SpecFloat binary32 instance, for every libm."
  },
  {
   "property": "C46",
   "status": "proved",
   "theorems": [
    "C46_eqv_nan",
    "C46_eq_self",
    "C46_eq",
    "C46_not_transitive_refuted",
    "C46_refl_sym",
    "C46_eqv",
    "C46_eqv_eps",
    "C46_close",
    "C46_eq_value"
   ],
   "note": "The IEEE part is over the SpecFloat binary32 instance."
  },
  {
   "property": "C47",
   "status": "proved",
   "theorems": [
    "C47_faceforward",
    "C47_faceforward_side",
    "C47_reflect",
    "C47_vec4_reflect_in_place",
    "C47_mirror",
    "C47_refract",
    "C47_total_reflection",
    "C47_snell",
    "C47_refract_into_normal",
    "C47_refract_into_normal_refuted"
   ],
   "note": "over the reals; aliasing of the destination characterised"
  },
  {
   "property": "C48",
   "status": "proved",
   "theorems": [
    "C48_matrix",
    "C48_rotate",
    "C48_rotation",
    "C48_turns",
    "C48_vec2_rotate",
    "C48_rotate_m3",
    "C48_rotate_m4"
   ],
   "note": "over the real numbers"
  },
  {
   "property": "C49",
   "status": "proved",
   "theorems": [
    "C49_proj",
    "C49_proj_zero",
    "C49_angle",
    "C49_angle_zero"
   ],
   "note": "over the real numbers"
  },
  {
   "property": "C50",
   "status": "proved",
   "theorems": [
    "C50_swizzle",
    "C50_outside"
   ],
   "note": ""
  },
  {
   "property": "C51",
   "status": "proved",
   "theorems": [
    "C51_linear",
    "C51_powers",
    "C51_sine",
    "C51_circ",
    "C51_expo",
    "C51_back",
    "C51_elast",
    "C51_bounce",
    "C51_ends",
    "C51_symmetric",
    "C51_join",
    "C51_bounce_inout_refuted"
   ],
   "note": ""
  },
  {
   "property": "C52",
   "status": "proved",
   "theorems": [
    "C52_bezier",
    "C52_hermite",
    "C52_ends",
    "C52_smc",
    "C52_bases"
   ],
   "note": ""
  },
  {
   "property": "C53",
   "status": "proved",
   "theorems": [
    "C53_decasteljau"
   ],
   "note": ""
  },
  {
   "property": "C54",
   "status": "proved",
   "theorems": [
    "C54_value",
    "C54_lattice",
    "C54_periodic",
    "C54_simd"
   ],
   "note": "glm_perlin_vec2/3/4 compute the gradient noise of Spec/Noise.v for every real point, in the scalar and the six SIMD builds; in the scalar build they are 0 at every integer point and periodic with period 289 in every coordinate."
  },
  {
   "property": "C55",
   "status": "proved",
   "theorems": [
    "C55_inv_tr",
    "C55_inv_tr_refuted",
    "C55_avx_mul",
    "C55_avx_mul_refuted",
    "C55_sse2_exact",
    "C55_sse2_real",
    "C55_avx_exact",
    "C55_avx_real",
    "C55_fma_exact",
    "C55_fma_real",
    "C55_neon_exact",
    "C55_neon_real",
    "C55_neon32_exact",
    "C55_neon32_real",
    "C55_wasm_exact",
    "C55_wasm_real",
    "C55_norm_inf",
    "C55_noise_exact",
    "C55_noise_real"
   ],
   "note": "1121 pairs of functions in six SIMD builds plus the exceptions, each shown to differ where stated. Reciprocal estimate instructions are modelled as exact reciprocals."
  },
  {
   "property": "C56",
   "status": "proved",
   "theorems": [
    "C56_pack",
    "C56_identity_array",
    "C56_mulN",
    "C56_frustum_corners_at_refuted",
    "C56_transfer",
    "C56_default",
    "C56_box",
    "C56_aabb_frustum",
    "C56_frustum",
    "C56_frustum_box",
    "C56_ortho_aabb",
    "C56_change"
   ],
   "note": "611 struct functions by the transfer theorem; the default clip-space, bounding-box, frustum, ortho_aabb, move_far/resize, array-packing, identity-array and mulN functions by their own theorems. glms_frustum_corners_at is refuted."
  },
  {
   "property": "C57",
   "status": "proved",
   "theorems": [
    "C57_exported"
   ],
   "note": ""
  },
  {
   "property": "C58",
   "status": "proved",
   "theorems": [
    "C58_safe",
    "C58_decasteljau",
    "C58_frustum_corners_at_refuted",
    "C58_norm",
    "C58_simd"
   ],
   "note": "1479 functions by one theorem over their signatures; decasteljau and the integer norm separately; the loops over arrays of any length by C56_pack, C56_identity_array and C56_mulN. glms_frustum_corners_at is refuted."
  },
  {
   "property": "C59",
   "status": "proved",
   "theorems": [
    "C59_plane_normalize",
    "C59_degenerate",
    "C59_half_space"
   ],
   "note": "over the real numbers"
  },
  {
   "property": "C60",
   "status": "proved",
   "theorems": [
    "C60_mul",
    "C60_div",
    "C60_div_zero",
    "C60_laws",
    "C60_conjugate"
   ],
   "note": "over the real numbers"
  },
  {
   "property": "C61",
   "status": "proved",
   "theorems": [
    "C61_luminance",
    "C61_pickmatrix_empty",
    "C61_pickmatrix"
   ],
   "note": "over the real numbers"
  },
  {
   "property": "C62",
   "status": "proved",
   "theorems": [
    "C62_normalize_overflow",
    "C62_quat_normalize",
    "C62_inv_underflow_refuted",
    "C62_lerp_zero",
    "C62_lerp_one_refuted",
    "C62_classify",
    "C62_signf",
    "C62_step"
   ],
   "note": "Over the SpecFloat binary32 instance (scalar build)."
  },
  {
   "property": "C63",
   "status": "proved",
   "theorems": [
    "C63_mat_mul",
    "C63_mulv",
    "C63_affine",
    "C63_quat",
    "C63_vec",
    "C63_comm",
    "C63_distance"
   ],
   "note": "Over the SpecFloat binary32 instance (scalar build)."
  },
  {
   "property": "C64",
   "status": "proved",
   "theorems": [
    "C64_dot",
    "C64_mulv",
    "C64_mat_mul",
    "C64_products",
    "C64_normalize"
   ],
   "note": "Higham-style bounds for the scalar build, with explicit constants; normalisation for lengths between 2^-22 and 2^60."
  },
  {
   "property": "C65",
   "status": "proved",
   "theorems": [
    "C65_clip",
    "C65_struct",
    "C65_struct_through",
    "C65_unproject",
    "C65_corners_refuted",
    "C65_planes",
    "C65_planes_refuted"
   ],
   "note": "Four clip-space builds; suffix-free functions equal the named ones; unproject undoes project. frustum.h ignores the depth range: C65_corners_refuted, C65_planes_refuted."
  },
  {
   "property": "C66",
   "status": "proved",
   "theorems": [
    "C66_fast",
    "C66_fast_refuted",
    "C66_eps",
    "C66_from_vecs",
    "C66_equal",
    "C66_opposite",
    "C66_struct"
   ],
   "note": "Fast-math classification is constant (C66_fast_refuted: isvalid accepts NaN); FLT_EPSILON comparisons and glm_quat_from_vecs in the default-epsilon build."
  },
  {
   "property": "C67",
   "status": "proved",
   "theorems": [
    "C67_imag",
    "C67_axis_angle",
    "C67_of_axis_angle",
    "C67_for",
    "C67_make",
    "C67_forp"
   ],
   "note": "over the reals"
  },
  {
   "property": "C68",
   "status": "proved",
   "theorems": [
    "C68_placement_refuted",
    "C68_simd_placement_refuted",
    "C68_determined",
    "C68_simd_determined"
   ],
   "note": "All 1479 listed functions but 25, and 1148 SIMD functions but 30, for every arithmetic; the exceptions refuted in binary32. Pointers that overlap partly are outside the layout model."
  },
  {
   "property": "C69",
   "status": "proved",
   "theorems": [
    "C69_select",
    "C69_integers",
    "C69_select_values",
    "C69_integers_values",
    "C69_assoc",
    "C69_assoc_refuted",
    "C69_bound_refuted"
   ],
   "note": "504 functions exact on all numbers and 728 on integers up to the bound listed with each, at every placement (C69_select, C69_integers) and as memory-independent values (C69_select_values, C69_integers_values); integer matrix products associate (C69_assoc). The bounds are sufficient, not shown to be the largest; beyond them sums round and products need not associate (refuted theorems)."
  },
  {
   "property": "C70",
   "status": "proved",
   "theorems": [
    "C70_visible",
    "C70_frame",
    "C70_window",
    "C70_culling",
    "C70_picking",
    "C70_far_lost"
   ],
   "note": "over the real numbers; both handednesses, both depth conventions for clip volume and projection, -1..1 depth for planes and glm_unproject"
  },
  {
   "property": "C71",
   "status": "proved",
   "theorems": [
    "C71_abs",
    "C71_min",
    "C71_max",
    "C71_div",
    "C71_fused",
    "C71_fused256",
    "C71_hadd",
    "C71_hmin",
    "C71_hmax",
    "C71_dot",
    "C71_norm",
    "C71_fnmsub256_actual",
    "C71_fnmsub256_refuted",
    "C71_load3",
    "C71_store3"
   ],
   "note": "Over the reals. All 4-lane helpers in six builds; glmm256_fnmsub refuted and its actual value proved. NEON 32-bit reciprocal estimates are taken as exact."
  },
  {
   "property": "C72",
   "status": "proved",
   "theorems": [
    "C72_dot",
    "C72_mulv",
    "C72_mat2_mul",
    "C72_mat3_mul",
    "C72_quat_mul",
    "C72_mat4_mul",
    "C72_fused",
    "C72_unfused_refuted"
   ],
   "note": "NEON builds have no SIMD mat3_mul of their own."
  },
  {
   "property": "C73",
   "status": "proved",
   "theorems": [
    "C73_bounds",
    "C73_trig_bounds",
    "C73_values",
    "C73_trig_values",
    "C73_grouping"
   ],
   "note": "830 functions listed with bounds by tools/approx.py; bounds are upper bounds, not claimed sharp; functions dividing by computed values are not listed"
  },
  {
   "property": "C74",
   "status": "proved",
   "theorems": [
    "C74_mulN",
    "C74_struct_mulN",
    "C74_euler"
   ],
   "note": "row-wise 2-norm argument over the C56 fold; needs entries within d of orthogonal matrices and total at most 1/4"
  },
  {
   "property": "C75",
   "status": "proved",
   "theorems": [
    "C75_quat",
    "C75_vector"
   ],
   "note": "Bounds for glm_quat_mul and glm_mat4_mulv; the bound is not claimed to be sharp."
  },
  {
   "property": "C76",
   "status": "proved",
   "theorems": [
    "C76_ease_order",
    "C76_ease_range",
    "C76_smooth_order_refuted",
    "C76_quad_out_order_refuted",
    "C76_bounce_range_refuted",
    "C76_ends",
    "C76_clamp",
    "C76_smoothstep",
    "C76_lerp",
    "C76_lerp_range_refuted",
    "C76_degrees"
   ],
   "note": "Three refuted statements: glm_smooth and glm_ease_quad_out are not monotone, glm_ease_bounce_out and glm_lerp leave their range."
  },
  {
   "property": "C77",
   "status": "proved",
   "theorems": [
    "C77_near",
    "C77_frustum",
    "C77_ball",
    "C77_spheres",
    "C77_boxes"
   ],
   "note": "comparisons with tolerance, boxes, spheres and frustum culling in single precision, with explicit margins"
  },
  {
   "property": "C78",
   "status": "proved",
   "theorems": [
    "C78_volume",
    "C78_norms",
    "C78_perspective"
   ],
   "note": "Relative error bounds of projections, norms and distances."
  },
  {
   "property": "C79",
   "status": "proved",
   "theorems": [
    "C79_inverse"
   ],
   "note": "Absolute error bounds of matrix inverses."
  },
  {
   "property": "C80",
   "status": "proved",
   "theorems": [
    "C80_lookat"
   ],
   "note": "glm_lookat_rh and glm_lookat_lh: error of every entry of the view matrix against the exact axes"
  },
  {
   "property": "C81",
   "status": "proved",
   "theorems": [
    "C81_rotate_make",
    "C81_quatv",
    "C81_vec3_rotate",
    "C81_rotate",
    "C81_rotatev"
   ],
   "note": "glm_rotate_make, glm_rotate, glm_quatv, glm_vec3_rotate and glm_quat_rotatev: errors against the exact rotation"
  },
  {
   "property": "C82",
   "status": "proved",
   "theorems": [
    "C82_kept",
    "C82_verdict"
   ],
   "note": "Both directions; the point may be real. Example: identity matrix and a box of side 5."
  },
  {
   "property": "C83",
   "status": "proved",
   "theorems": [
    "C83_matrices",
    "C83_normalized",
    "C83_look",
    "C83_rotate"
   ],
   "note": "all four conversions of a quaternion within 16 u of unit length (bound proportional to that distance plus 35 u), after glm_quat_normalize for any length in range (150 u), and glm_quat_look and glm_quat_rotate"
  }
 ]
}