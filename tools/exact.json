{
"sse2": [
"glm_decompose",
"glm_decompose_rs",
"glm_frustum",
"glm_frustum_center",
"glm_frustum_lh_no",
"glm_frustum_lh_zo",
"glm_frustum_planes",
"glm_frustum_rh_no",
"glm_frustum_rh_zo",
"glm_mat2_scale",
"glm_mat4_copy",
"glm_mat4_identity",
"glm_mat4_scale",
"glm_mat4_swap_col",
"glm_mat4_textrans",
"glm_mat4_transpose",
"glm_mat4_zero",
"glm_ortho",
"glm_ortho_aabb",
"glm_ortho_aabb_lh_no",
"glm_ortho_aabb_lh_zo",
"glm_ortho_aabb_p",
"glm_ortho_aabb_p_lh_no",
"glm_ortho_aabb_p_lh_zo",
"glm_ortho_aabb_p_rh_no",
"glm_ortho_aabb_p_rh_zo",
"glm_ortho_aabb_pz",
"glm_ortho_aabb_pz_lh_no",
"glm_ortho_aabb_pz_lh_zo",
"glm_ortho_aabb_pz_rh_no",
"glm_ortho_aabb_pz_rh_zo",
"glm_ortho_aabb_rh_no",
"glm_ortho_aabb_rh_zo",
"glm_ortho_default",
"glm_ortho_default_lh_no",
"glm_ortho_default_lh_zo",
"glm_ortho_default_rh_no",
"glm_ortho_default_rh_zo",
"glm_ortho_default_s",
"glm_ortho_default_s_lh_no",
"glm_ortho_default_s_lh_zo",
"glm_ortho_default_s_rh_no",
"glm_ortho_default_s_rh_zo",
"glm_ortho_lh_no",
"glm_ortho_lh_zo",
"glm_ortho_rh_no",
"glm_ortho_rh_zo",
"glm_perspective",
"glm_perspective_default",
"glm_perspective_default_lh_no",
"glm_perspective_default_lh_zo",
"glm_perspective_default_rh_no",
"glm_perspective_default_rh_zo",
"glm_perspective_lh_no",
"glm_perspective_lh_zo",
"glm_perspective_rh_no",
"glm_perspective_rh_zo",
"glm_pickmatrix",
"glm_plane_normalize",
"glm_quat_add",
"glm_quat_conjugate",
"glm_quat_copy",
"glm_quat_identity",
"glm_quat_lerp",
"glm_quat_sub",
"glm_scale",
"glm_scale_make",
"glm_scale_to",
"glm_scale_uni",
"glm_translate_make",
"glm_translated_to",
"glm_vec4_abs",
"glm_vec4_add",
"glm_vec4_addadd",
"glm_vec4_adds",
"glm_vec4_addsub",
"glm_vec4_broadcast",
"glm_vec4_clamp",
"glm_vec4_copy",
"glm_vec4_div",
"glm_vec4_fill",
"glm_vec4_lerp",
"glm_vec4_mix",
"glm_vec4_mul",
"glm_vec4_muladd",
"glm_vec4_muladds",
"glm_vec4_mulsub",
"glm_vec4_mulsubs",
"glm_vec4_negate",
"glm_vec4_negate_to",
"glm_vec4_one",
"glm_vec4_scale",
"glm_vec4_smoothinterp",
"glm_vec4_sqrt",
"glm_vec4_sub",
"glm_vec4_subadd",
"glm_vec4_subs",
"glm_vec4_subsub",
"glm_vec4_swizzle",
"glm_vec4_zero"
],
"avx": [
"glm_decompose",
"glm_decompose_rs",
"glm_frustum",
"glm_frustum_center",
"glm_frustum_lh_no",
"glm_frustum_lh_zo",
"glm_frustum_planes",
"glm_frustum_rh_no",
"glm_frustum_rh_zo",
"glm_mat2_scale",
"glm_mat4_copy",
"glm_mat4_identity",
"glm_mat4_scale",
"glm_mat4_swap_col",
"glm_mat4_textrans",
"glm_mat4_transpose",
"glm_mat4_zero",
"glm_ortho",
"glm_ortho_aabb",
"glm_ortho_aabb_lh_no",
"glm_ortho_aabb_lh_zo",
"glm_ortho_aabb_p",
"glm_ortho_aabb_p_lh_no",
"glm_ortho_aabb_p_lh_zo",
"glm_ortho_aabb_p_rh_no",
"glm_ortho_aabb_p_rh_zo",
"glm_ortho_aabb_pz",
"glm_ortho_aabb_pz_lh_no",
"glm_ortho_aabb_pz_lh_zo",
"glm_ortho_aabb_pz_rh_no",
"glm_ortho_aabb_pz_rh_zo",
"glm_ortho_aabb_rh_no",
"glm_ortho_aabb_rh_zo",
"glm_ortho_default",
"glm_ortho_default_lh_no",
"glm_ortho_default_lh_zo",
"glm_ortho_default_rh_no",
"glm_ortho_default_rh_zo",
"glm_ortho_default_s",
"glm_ortho_default_s_lh_no",
"glm_ortho_default_s_lh_zo",
"glm_ortho_default_s_rh_no",
"glm_ortho_default_s_rh_zo",
"glm_ortho_lh_no",
"glm_ortho_lh_zo",
"glm_ortho_rh_no",
"glm_ortho_rh_zo",
"glm_perspective",
"glm_perspective_default",
"glm_perspective_default_lh_no",
"glm_perspective_default_lh_zo",
"glm_perspective_default_rh_no",
"glm_perspective_default_rh_zo",
"glm_perspective_lh_no",
"glm_perspective_lh_zo",
"glm_perspective_rh_no",
"glm_perspective_rh_zo",
"glm_pickmatrix",
"glm_plane_normalize",
"glm_quat_add",
"glm_quat_conjugate",
"glm_quat_copy",
"glm_quat_identity",
"glm_quat_lerp",
"glm_quat_sub",
"glm_scale",
"glm_scale_make",
"glm_scale_to",
"glm_scale_uni",
"glm_translate_make",
"glm_translated_to",
"glm_vec4_abs",
"glm_vec4_add",
"glm_vec4_addadd",
"glm_vec4_adds",
"glm_vec4_addsub",
"glm_vec4_broadcast",
"glm_vec4_clamp",
"glm_vec4_copy",
"glm_vec4_div",
"glm_vec4_fill",
"glm_vec4_lerp",
"glm_vec4_mix",
"glm_vec4_mul",
"glm_vec4_muladd",
"glm_vec4_muladds",
"glm_vec4_mulsub",
"glm_vec4_mulsubs",
"glm_vec4_negate",
"glm_vec4_negate_to",
"glm_vec4_one",
"glm_vec4_scale",
"glm_vec4_smoothinterp",
"glm_vec4_sqrt",
"glm_vec4_sub",
"glm_vec4_subadd",
"glm_vec4_subs",
"glm_vec4_subsub",
"glm_vec4_swizzle",
"glm_vec4_zero"
],
"fma": [
"glm_decompose",
"glm_decompose_rs",
"glm_frustum",
"glm_frustum_center",
"glm_frustum_lh_no",
"glm_frustum_lh_zo",
"glm_frustum_planes",
"glm_frustum_rh_no",
"glm_frustum_rh_zo",
"glm_mat2_scale",
"glm_mat4_copy",
"glm_mat4_identity",
"glm_mat4_scale",
"glm_mat4_swap_col",
"glm_mat4_textrans",
"glm_mat4_transpose",
"glm_mat4_zero",
"glm_ortho",
"glm_ortho_aabb",
"glm_ortho_aabb_lh_no",
"glm_ortho_aabb_lh_zo",
"glm_ortho_aabb_p",
"glm_ortho_aabb_p_lh_no",
"glm_ortho_aabb_p_lh_zo",
"glm_ortho_aabb_p_rh_no",
"glm_ortho_aabb_p_rh_zo",
"glm_ortho_aabb_pz",
"glm_ortho_aabb_pz_lh_no",
"glm_ortho_aabb_pz_lh_zo",
"glm_ortho_aabb_pz_rh_no",
"glm_ortho_aabb_pz_rh_zo",
"glm_ortho_aabb_rh_no",
"glm_ortho_aabb_rh_zo",
"glm_ortho_default",
"glm_ortho_default_lh_no",
"glm_ortho_default_lh_zo",
"glm_ortho_default_rh_no",
"glm_ortho_default_rh_zo",
"glm_ortho_default_s",
"glm_ortho_default_s_lh_no",
"glm_ortho_default_s_lh_zo",
"glm_ortho_default_s_rh_no",
"glm_ortho_default_s_rh_zo",
"glm_ortho_lh_no",
"glm_ortho_lh_zo",
"glm_ortho_rh_no",
"glm_ortho_rh_zo",
"glm_perspective",
"glm_perspective_default",
"glm_perspective_default_lh_no",
"glm_perspective_default_lh_zo",
"glm_perspective_default_rh_no",
"glm_perspective_default_rh_zo",
"glm_perspective_lh_no",
"glm_perspective_lh_zo",
"glm_perspective_rh_no",
"glm_perspective_rh_zo",
"glm_pickmatrix",
"glm_plane_normalize",
"glm_quat_add",
"glm_quat_conjugate",
"glm_quat_copy",
"glm_quat_identity",
"glm_quat_lerp",
"glm_quat_sub",
"glm_scale",
"glm_scale_make",
"glm_scale_to",
"glm_scale_uni",
"glm_translate_make",
"glm_translated_to",
"glm_vec4_abs",
"glm_vec4_add",
"glm_vec4_addadd",
"glm_vec4_adds",
"glm_vec4_addsub",
"glm_vec4_broadcast",
"glm_vec4_clamp",
"glm_vec4_copy",
"glm_vec4_div",
"glm_vec4_fill",
"glm_vec4_lerp",
"glm_vec4_mix",
"glm_vec4_mul",
"glm_vec4_negate",
"glm_vec4_negate_to",
"glm_vec4_one",
"glm_vec4_scale",
"glm_vec4_smoothinterp",
"glm_vec4_sqrt",
"glm_vec4_sub",
"glm_vec4_subadd",
"glm_vec4_subs",
"glm_vec4_subsub",
"glm_vec4_swizzle",
"glm_vec4_zero"
],
"neon": [
"glm_decompose",
"glm_decompose_rs",
"glm_frustum",
"glm_frustum_box",
"glm_frustum_center",
"glm_frustum_corners",
"glm_frustum_lh_no",
"glm_frustum_lh_zo",
"glm_frustum_planes",
"glm_frustum_rh_no",
"glm_frustum_rh_zo",
"glm_mat2_scale",
"glm_mat4_copy",
"glm_mat4_identity",
"glm_mat4_mulv",
"glm_mat4_mulv3",
"glm_mat4_scale",
"glm_mat4_swap_col",
"glm_mat4_textrans",
"glm_mat4_transpose",
"glm_mat4_zero",
"glm_ortho",
"glm_ortho_aabb",
"glm_ortho_aabb_lh_no",
"glm_ortho_aabb_lh_zo",
"glm_ortho_aabb_p",
"glm_ortho_aabb_p_lh_no",
"glm_ortho_aabb_p_lh_zo",
"glm_ortho_aabb_p_rh_no",
"glm_ortho_aabb_p_rh_zo",
"glm_ortho_aabb_pz",
"glm_ortho_aabb_pz_lh_no",
"glm_ortho_aabb_pz_lh_zo",
"glm_ortho_aabb_pz_rh_no",
"glm_ortho_aabb_pz_rh_zo",
"glm_ortho_aabb_rh_no",
"glm_ortho_aabb_rh_zo",
"glm_ortho_default",
"glm_ortho_default_lh_no",
"glm_ortho_default_lh_zo",
"glm_ortho_default_rh_no",
"glm_ortho_default_rh_zo",
"glm_ortho_default_s",
"glm_ortho_default_s_lh_no",
"glm_ortho_default_s_lh_zo",
"glm_ortho_default_s_rh_no",
"glm_ortho_default_s_rh_zo",
"glm_ortho_lh_no",
"glm_ortho_lh_zo",
"glm_ortho_rh_no",
"glm_ortho_rh_zo",
"glm_perspective",
"glm_perspective_default",
"glm_perspective_default_lh_no",
"glm_perspective_default_lh_zo",
"glm_perspective_default_rh_no",
"glm_perspective_default_rh_zo",
"glm_perspective_lh_no",
"glm_perspective_lh_zo",
"glm_perspective_rh_no",
"glm_perspective_rh_zo",
"glm_pickmatrix",
"glm_plane_normalize",
"glm_project",
"glm_project_no",
"glm_project_zo",
"glm_quat_add",
"glm_quat_conjugate",
"glm_quat_copy",
"glm_quat_identity",
"glm_quat_lerp",
"glm_quat_lerpc",
"glm_quat_sub",
"glm_scale",
"glm_scale_make",
"glm_scale_to",
"glm_scale_uni",
"glm_sphere_transform",
"glm_translate_make",
"glm_translated_to",
"glm_unprojecti_zo",
"glm_vec4_abs",
"glm_vec4_add",
"glm_vec4_addadd",
"glm_vec4_adds",
"glm_vec4_addsub",
"glm_vec4_copy",
"glm_vec4_div",
"glm_vec4_lerp",
"glm_vec4_lerpc",
"glm_vec4_mix",
"glm_vec4_mixc",
"glm_vec4_mul",
"glm_vec4_negate",
"glm_vec4_negate_to",
"glm_vec4_one",
"glm_vec4_scale",
"glm_vec4_smoothinterp",
"glm_vec4_smoothinterpc",
"glm_vec4_sub",
"glm_vec4_subadd",
"glm_vec4_subs",
"glm_vec4_subsub",
"glm_vec4_swizzle",
"glm_vec4_zero"
],
"neon32": [
"glm_decompose",
"glm_decompose_rs",
"glm_frustum",
"glm_frustum_box",
"glm_frustum_center",
"glm_frustum_corners",
"glm_frustum_lh_no",
"glm_frustum_lh_zo",
"glm_frustum_planes",
"glm_frustum_rh_no",
"glm_frustum_rh_zo",
"glm_mat2_scale",
"glm_mat4_copy",
"glm_mat4_identity",
"glm_mat4_mulv",
"glm_mat4_mulv3",
"glm_mat4_scale",
"glm_mat4_swap_col",
"glm_mat4_textrans",
"glm_mat4_transpose",
"glm_mat4_zero",
"glm_ortho",
"glm_ortho_aabb",
"glm_ortho_aabb_lh_no",
"glm_ortho_aabb_lh_zo",
"glm_ortho_aabb_p",
"glm_ortho_aabb_p_lh_no",
"glm_ortho_aabb_p_lh_zo",
"glm_ortho_aabb_p_rh_no",
"glm_ortho_aabb_p_rh_zo",
"glm_ortho_aabb_pz",
"glm_ortho_aabb_pz_lh_no",
"glm_ortho_aabb_pz_lh_zo",
"glm_ortho_aabb_pz_rh_no",
"glm_ortho_aabb_pz_rh_zo",
"glm_ortho_aabb_rh_no",
"glm_ortho_aabb_rh_zo",
"glm_ortho_default",
"glm_ortho_default_lh_no",
"glm_ortho_default_lh_zo",
"glm_ortho_default_rh_no",
"glm_ortho_default_rh_zo",
"glm_ortho_default_s",
"glm_ortho_default_s_lh_no",
"glm_ortho_default_s_lh_zo",
"glm_ortho_default_s_rh_no",
"glm_ortho_default_s_rh_zo",
"glm_ortho_lh_no",
"glm_ortho_lh_zo",
"glm_ortho_rh_no",
"glm_ortho_rh_zo",
"glm_perspective",
"glm_perspective_default",
"glm_perspective_default_lh_no",
"glm_perspective_default_lh_zo",
"glm_perspective_default_rh_no",
"glm_perspective_default_rh_zo",
"glm_perspective_lh_no",
"glm_perspective_lh_zo",
"glm_perspective_rh_no",
"glm_perspective_rh_zo",
"glm_pickmatrix",
"glm_plane_normalize",
"glm_project",
"glm_project_no",
"glm_project_zo",
"glm_quat_add",
"glm_quat_conjugate",
"glm_quat_copy",
"glm_quat_identity",
"glm_quat_lerp",
"glm_quat_lerpc",
"glm_quat_sub",
"glm_scale",
"glm_scale_make",
"glm_scale_to",
"glm_scale_uni",
"glm_sphere_transform",
"glm_translate_make",
"glm_translated_to",
"glm_unprojecti_zo",
"glm_vec4_abs",
"glm_vec4_add",
"glm_vec4_addadd",
"glm_vec4_adds",
"glm_vec4_addsub",
"glm_vec4_copy",
"glm_vec4_lerp",
"glm_vec4_lerpc",
"glm_vec4_mix",
"glm_vec4_mixc",
"glm_vec4_mul",
"glm_vec4_muladd",
"glm_vec4_muladds",
"glm_vec4_mulsub",
"glm_vec4_mulsubs",
"glm_vec4_negate",
"glm_vec4_negate_to",
"glm_vec4_one",
"glm_vec4_scale",
"glm_vec4_smoothinterp",
"glm_vec4_smoothinterpc",
"glm_vec4_sub",
"glm_vec4_subadd",
"glm_vec4_subs",
"glm_vec4_subsub",
"glm_vec4_swizzle",
"glm_vec4_zero"
],
"wasm": [
"glm_decompose",
"glm_decompose_rs",
"glm_frustum",
"glm_frustum_center",
"glm_frustum_lh_no",
"glm_frustum_lh_zo",
"glm_frustum_planes",
"glm_frustum_rh_no",
"glm_frustum_rh_zo",
"glm_mat2_copy",
"glm_mat2_identity",
"glm_mat2_scale",
"glm_mat2_zero",
"glm_mat2x4_copy",
"glm_mat2x4_zero",
"glm_mat3x4_copy",
"glm_mat3x4_zero",
"glm_mat4_copy",
"glm_mat4_identity",
"glm_mat4_scale",
"glm_mat4_swap_col",
"glm_mat4_textrans",
"glm_mat4_transpose",
"glm_mat4_zero",
"glm_ortho",
"glm_ortho_aabb",
"glm_ortho_aabb_lh_no",
"glm_ortho_aabb_lh_zo",
"glm_ortho_aabb_p",
"glm_ortho_aabb_p_lh_no",
"glm_ortho_aabb_p_lh_zo",
"glm_ortho_aabb_p_rh_no",
"glm_ortho_aabb_p_rh_zo",
"glm_ortho_aabb_pz",
"glm_ortho_aabb_pz_lh_no",
"glm_ortho_aabb_pz_lh_zo",
"glm_ortho_aabb_pz_rh_no",
"glm_ortho_aabb_pz_rh_zo",
"glm_ortho_aabb_rh_no",
"glm_ortho_aabb_rh_zo",
"glm_ortho_default",
"glm_ortho_default_lh_no",
"glm_ortho_default_lh_zo",
"glm_ortho_default_rh_no",
"glm_ortho_default_rh_zo",
"glm_ortho_default_s",
"glm_ortho_default_s_lh_no",
"glm_ortho_default_s_lh_zo",
"glm_ortho_default_s_rh_no",
"glm_ortho_default_s_rh_zo",
"glm_ortho_lh_no",
"glm_ortho_lh_zo",
"glm_ortho_rh_no",
"glm_ortho_rh_zo",
"glm_perspective",
"glm_perspective_default",
"glm_perspective_default_lh_no",
"glm_perspective_default_lh_zo",
"glm_perspective_default_rh_no",
"glm_perspective_default_rh_zo",
"glm_perspective_lh_no",
"glm_perspective_lh_zo",
"glm_perspective_rh_no",
"glm_perspective_rh_zo",
"glm_pickmatrix",
"glm_plane_normalize",
"glm_quat_add",
"glm_quat_conjugate",
"glm_quat_copy",
"glm_quat_identity",
"glm_quat_lerp",
"glm_quat_sub",
"glm_scale",
"glm_scale_make",
"glm_scale_to",
"glm_scale_uni",
"glm_translate_make",
"glm_translated_to",
"glm_vec4_abs",
"glm_vec4_add",
"glm_vec4_addadd",
"glm_vec4_adds",
"glm_vec4_addsub",
"glm_vec4_broadcast",
"glm_vec4_clamp",
"glm_vec4_copy",
"glm_vec4_div",
"glm_vec4_fill",
"glm_vec4_lerp",
"glm_vec4_mix",
"glm_vec4_mul",
"glm_vec4_muladd",
"glm_vec4_muladds",
"glm_vec4_mulsub",
"glm_vec4_mulsubs",
"glm_vec4_negate",
"glm_vec4_negate_to",
"glm_vec4_one",
"glm_vec4_scale",
"glm_vec4_smoothinterp",
"glm_vec4_sqrt",
"glm_vec4_sub",
"glm_vec4_subadd",
"glm_vec4_subs",
"glm_vec4_subsub",
"glm_vec4_swizzle",
"glm_vec4_ucopy",
"glm_vec4_zero"
]
}