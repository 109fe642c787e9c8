(** * The functions that differ between builds

    Written by tools/pairs.py.  Each list pairs a function of the scalar build with the same
    function of a SIMD build (Simd/) and gives the declared parameters.  The matrix
    transposition and the quaternion product are required to have sources apart from the
    destination.  Not in the lists, and treated on their own, are glm_vec4_norm_inf and
    glm_inv_tr; glm_vec4_normalize_to, glm_vec4_normalize, glm_vec3_rotate_m4 and
    glm_vec3_rotate_m3 except for NEON; glm_mul for AVX.  The Perlin noise
    functions are paired in Spec/NoiseBuilds.v. *)

From Coq Require Import List.
From Verif Require Import MiniC Contract Cglm.
From Verif.Spec Require Import Types Agree.
From Verif.Simd Require sse2 avx fma neon neon32 wasm.
Import ListNotations.

(** the two functions have the same outcome for all arguments and addresses that fit *)
Definition agree_on (S : Scalar) (p : fundef * fundef * list param) : Prop :=
  let '(f, g, ps) := p in forall args, Forall2 fits ps args -> agree S f g args.

Definition sse2_exact : list (fundef * fundef * list param) :=
  [(glm_vec4_broadcast, sse2.sse2_glm_vec4_broadcast, [Float; Writes 4]);
   (glm_vec4_fill, sse2.sse2_glm_vec4_fill, [Writes 4; Float]);
   (glm_vec4_abs, sse2.sse2_glm_vec4_abs, [Reads Flt 4; Writes 4]);
   (glm_vec4_sqrt, sse2.sse2_glm_vec4_sqrt, [Reads Flt 4; Writes 4]);
   (glm_vec4_copy, sse2.sse2_glm_vec4_copy, [Reads Flt 4; Writes 4]);
   (glm_vec4_zero, sse2.sse2_glm_vec4_zero, [Updates Flt 4]);
   (glm_vec4_one, sse2.sse2_glm_vec4_one, [Updates Flt 4]);
   (glm_vec4_add, sse2.sse2_glm_vec4_add, [Reads Flt 4; Reads Flt 4; Writes 4]);
   (glm_vec4_adds, sse2.sse2_glm_vec4_adds, [Reads Flt 4; Float; Writes 4]);
   (glm_vec4_sub, sse2.sse2_glm_vec4_sub, [Reads Flt 4; Reads Flt 4; Writes 4]);
   (glm_vec4_subs, sse2.sse2_glm_vec4_subs, [Reads Flt 4; Float; Writes 4]);
   (glm_vec4_mul, sse2.sse2_glm_vec4_mul, [Reads Flt 4; Reads Flt 4; Writes 4]);
   (glm_vec4_scale, sse2.sse2_glm_vec4_scale, [Reads Flt 4; Float; Writes 4]);
   (glm_vec4_div, sse2.sse2_glm_vec4_div, [Reads Flt 4; Reads Flt 4; Writes 4]);
   (glm_vec4_addadd, sse2.sse2_glm_vec4_addadd, [Reads Flt 4; Reads Flt 4; Updates Flt 4]);
   (glm_vec4_subadd, sse2.sse2_glm_vec4_subadd, [Reads Flt 4; Reads Flt 4; Updates Flt 4]);
   (glm_vec4_muladd, sse2.sse2_glm_vec4_muladd, [Reads Flt 4; Reads Flt 4; Updates Flt 4]);
   (glm_vec4_muladds, sse2.sse2_glm_vec4_muladds, [Reads Flt 4; Float; Updates Flt 4]);
   (glm_vec4_subsub, sse2.sse2_glm_vec4_subsub, [Reads Flt 4; Reads Flt 4; Updates Flt 4]);
   (glm_vec4_addsub, sse2.sse2_glm_vec4_addsub, [Reads Flt 4; Reads Flt 4; Updates Flt 4]);
   (glm_vec4_mulsub, sse2.sse2_glm_vec4_mulsub, [Reads Flt 4; Reads Flt 4; Updates Flt 4]);
   (glm_vec4_mulsubs, sse2.sse2_glm_vec4_mulsubs, [Reads Flt 4; Float; Updates Flt 4]);
   (glm_vec4_negate_to, sse2.sse2_glm_vec4_negate_to, [Reads Flt 4; Writes 4]);
   (glm_vec4_negate, sse2.sse2_glm_vec4_negate, [Updates Flt 4]);
   (glm_vec4_clamp, sse2.sse2_glm_vec4_clamp, [Updates Flt 4; Float; Float]);
   (glm_vec4_lerp, sse2.sse2_glm_vec4_lerp, [Reads Flt 4; Reads Flt 4; Float; Writes 4]);
   (glm_vec4_mix, sse2.sse2_glm_vec4_mix, [Reads Flt 4; Reads Flt 4; Float; Writes 4]);
   (glm_vec4_smoothinterp, sse2.sse2_glm_vec4_smoothinterp, [Reads Flt 4; Reads Flt 4; Float; Writes 4]);
   (glm_vec4_swizzle, sse2.sse2_glm_vec4_swizzle, [Reads Flt 4; Index 256; Writes 4]);
   (glm_mat4_copy, sse2.sse2_glm_mat4_copy, [Reads Flt 16; Writes 16]);
   (glm_mat4_identity, sse2.sse2_glm_mat4_identity, [Updates Flt 16]);
   (glm_mat4_zero, sse2.sse2_glm_mat4_zero, [Updates Flt 16]);
   (glm_mat4_transpose, sse2.sse2_glm_mat4_transpose, [Updates Flt 16]);
   (glm_mat4_scale, sse2.sse2_glm_mat4_scale, [Updates Flt 16; Float]);
   (glm_mat4_swap_col, sse2.sse2_glm_mat4_swap_col, [Updates Flt 16; Index 4; Index 4]);
   (glm_mat4_textrans, sse2.sse2_glm_mat4_textrans, [Float; Float; Float; Float; Float; Writes 16]);
   (glm_mat2_scale, sse2.sse2_glm_mat2_scale, [Updates Flt 4; Float]);
   (glm_translate_make, sse2.sse2_glm_translate_make, [Writes 16; Reads Flt 3]);
   (glm_scale_to, sse2.sse2_glm_scale_to, [Reads Flt 16; Reads Flt 3; Writes 16]);
   (glm_scale_make, sse2.sse2_glm_scale_make, [Writes 16; Reads Flt 3]);
   (glm_scale, sse2.sse2_glm_scale, [Updates Flt 16; Reads Flt 3]);
   (glm_scale_uni, sse2.sse2_glm_scale_uni, [Updates Flt 16; Float]);
   (glm_decompose_rs, sse2.sse2_glm_decompose_rs, [Reads Flt 16; Writes 16; Writes 3]);
   (glm_decompose, sse2.sse2_glm_decompose, [Reads Flt 16; Writes 4; Writes 16; Writes 3]);
   (glm_translated_to, sse2.sse2_glm_translated_to, [Reads Flt 16; Reads Flt 3; Writes 16]);
   (glm_plane_normalize, sse2.sse2_glm_plane_normalize, [Updates Flt 4]);
   (glm_ortho_rh_no, sse2.sse2_glm_ortho_rh_no, [Float; Float; Float; Float; Float; Float; Writes 16]);
   (glm_ortho_aabb_rh_no, sse2.sse2_glm_ortho_aabb_rh_no, [Reads Flt 6; Writes 16]);
   (glm_ortho_aabb_p_rh_no, sse2.sse2_glm_ortho_aabb_p_rh_no, [Reads Flt 6; Float; Writes 16]);
   (glm_ortho_aabb_pz_rh_no, sse2.sse2_glm_ortho_aabb_pz_rh_no, [Reads Flt 6; Float; Writes 16]);
   (glm_ortho_default_rh_no, sse2.sse2_glm_ortho_default_rh_no, [Float; Writes 16]);
   (glm_ortho_default_s_rh_no, sse2.sse2_glm_ortho_default_s_rh_no, [Float; Float; Writes 16]);
   (glm_frustum_rh_no, sse2.sse2_glm_frustum_rh_no, [Float; Float; Float; Float; Float; Float; Writes 16]);
   (glm_perspective_rh_no, sse2.sse2_glm_perspective_rh_no, [Float; Float; Float; Float; Writes 16]);
   (glm_perspective_default_rh_no, sse2.sse2_glm_perspective_default_rh_no, [Float; Writes 16]);
   (glm_frustum, sse2.sse2_glm_frustum, [Float; Float; Float; Float; Float; Float; Writes 16]);
   (glm_ortho, sse2.sse2_glm_ortho, [Float; Float; Float; Float; Float; Float; Writes 16]);
   (glm_ortho_aabb, sse2.sse2_glm_ortho_aabb, [Reads Flt 6; Writes 16]);
   (glm_ortho_aabb_p, sse2.sse2_glm_ortho_aabb_p, [Reads Flt 6; Float; Writes 16]);
   (glm_ortho_aabb_pz, sse2.sse2_glm_ortho_aabb_pz, [Reads Flt 6; Float; Writes 16]);
   (glm_ortho_default, sse2.sse2_glm_ortho_default, [Float; Writes 16]);
   (glm_ortho_default_s, sse2.sse2_glm_ortho_default_s, [Float; Float; Writes 16]);
   (glm_perspective, sse2.sse2_glm_perspective, [Float; Float; Float; Float; Writes 16]);
   (glm_perspective_default, sse2.sse2_glm_perspective_default, [Float; Writes 16]);
   (glm_frustum_planes, sse2.sse2_glm_frustum_planes, [Reads Flt 16; Writes 24]);
   (glm_frustum_center, sse2.sse2_glm_frustum_center, [Reads Flt 32; Writes 4]);
   (glm_quat_identity, sse2.sse2_glm_quat_identity, [Updates Flt 4]);
   (glm_quat_copy, sse2.sse2_glm_quat_copy, [Reads Flt 4; Writes 4]);
   (glm_quat_conjugate, sse2.sse2_glm_quat_conjugate, [Reads Flt 4; Writes 4]);
   (glm_quat_add, sse2.sse2_glm_quat_add, [Reads Flt 4; Reads Flt 4; Writes 4]);
   (glm_quat_sub, sse2.sse2_glm_quat_sub, [Reads Flt 4; Reads Flt 4; Writes 4]);
   (glm_quat_lerp, sse2.sse2_glm_quat_lerp, [Reads Flt 4; Reads Flt 4; Float; Writes 4]);
   (glm_pickmatrix, sse2.sse2_glm_pickmatrix, [Reads Flt 2; Reads Flt 2; Reads Flt 4; Writes 16]);
   (glm_ortho_lh_no, sse2.sse2_glm_ortho_lh_no, [Float; Float; Float; Float; Float; Float; Writes 16]);
   (glm_ortho_aabb_lh_no, sse2.sse2_glm_ortho_aabb_lh_no, [Reads Flt 6; Writes 16]);
   (glm_ortho_aabb_p_lh_no, sse2.sse2_glm_ortho_aabb_p_lh_no, [Reads Flt 6; Float; Writes 16]);
   (glm_ortho_aabb_pz_lh_no, sse2.sse2_glm_ortho_aabb_pz_lh_no, [Reads Flt 6; Float; Writes 16]);
   (glm_ortho_default_lh_no, sse2.sse2_glm_ortho_default_lh_no, [Float; Writes 16]);
   (glm_ortho_default_s_lh_no, sse2.sse2_glm_ortho_default_s_lh_no, [Float; Float; Writes 16]);
   (glm_ortho_lh_zo, sse2.sse2_glm_ortho_lh_zo, [Float; Float; Float; Float; Float; Float; Writes 16]);
   (glm_ortho_aabb_lh_zo, sse2.sse2_glm_ortho_aabb_lh_zo, [Reads Flt 6; Writes 16]);
   (glm_ortho_aabb_p_lh_zo, sse2.sse2_glm_ortho_aabb_p_lh_zo, [Reads Flt 6; Float; Writes 16]);
   (glm_ortho_aabb_pz_lh_zo, sse2.sse2_glm_ortho_aabb_pz_lh_zo, [Reads Flt 6; Float; Writes 16]);
   (glm_ortho_default_lh_zo, sse2.sse2_glm_ortho_default_lh_zo, [Float; Writes 16]);
   (glm_ortho_default_s_lh_zo, sse2.sse2_glm_ortho_default_s_lh_zo, [Float; Float; Writes 16]);
   (glm_ortho_rh_zo, sse2.sse2_glm_ortho_rh_zo, [Float; Float; Float; Float; Float; Float; Writes 16]);
   (glm_ortho_aabb_rh_zo, sse2.sse2_glm_ortho_aabb_rh_zo, [Reads Flt 6; Writes 16]);
   (glm_ortho_aabb_p_rh_zo, sse2.sse2_glm_ortho_aabb_p_rh_zo, [Reads Flt 6; Float; Writes 16]);
   (glm_ortho_aabb_pz_rh_zo, sse2.sse2_glm_ortho_aabb_pz_rh_zo, [Reads Flt 6; Float; Writes 16]);
   (glm_ortho_default_rh_zo, sse2.sse2_glm_ortho_default_rh_zo, [Float; Writes 16]);
   (glm_ortho_default_s_rh_zo, sse2.sse2_glm_ortho_default_s_rh_zo, [Float; Float; Writes 16]);
   (glm_frustum_lh_no, sse2.sse2_glm_frustum_lh_no, [Float; Float; Float; Float; Float; Float; Writes 16]);
   (glm_perspective_lh_no, sse2.sse2_glm_perspective_lh_no, [Float; Float; Float; Float; Writes 16]);
   (glm_perspective_default_lh_no, sse2.sse2_glm_perspective_default_lh_no, [Float; Writes 16]);
   (glm_frustum_lh_zo, sse2.sse2_glm_frustum_lh_zo, [Float; Float; Float; Float; Float; Float; Writes 16]);
   (glm_perspective_lh_zo, sse2.sse2_glm_perspective_lh_zo, [Float; Float; Float; Float; Writes 16]);
   (glm_perspective_default_lh_zo, sse2.sse2_glm_perspective_default_lh_zo, [Float; Writes 16]);
   (glm_frustum_rh_zo, sse2.sse2_glm_frustum_rh_zo, [Float; Float; Float; Float; Float; Float; Writes 16]);
   (glm_perspective_rh_zo, sse2.sse2_glm_perspective_rh_zo, [Float; Float; Float; Float; Writes 16]);
   (glm_perspective_default_rh_zo, sse2.sse2_glm_perspective_default_rh_zo, [Float; Writes 16])].

Definition sse2_real : list (fundef * fundef * list param) :=
  [(glm_vec4_sign, sse2.sse2_glm_vec4_sign, [Reads Flt 4; Writes 4]);
   (glm_vec4_hadd, sse2.sse2_glm_vec4_hadd, [Reads Flt 4]);
   (glm_vec4_dot, sse2.sse2_glm_vec4_dot, [Reads Flt 4; Reads Flt 4]);
   (glm_vec4_norm2, sse2.sse2_glm_vec4_norm2, [Reads Flt 4]);
   (glm_vec4_norm, sse2.sse2_glm_vec4_norm, [Reads Flt 4]);
   (glm_vec4_norm_one, sse2.sse2_glm_vec4_norm_one, [Reads Flt 4]);
   (glm_vec4_scale_as, sse2.sse2_glm_vec4_scale_as, [Reads Flt 4; Float; Writes 4]);
   (glm_vec4_divs, sse2.sse2_glm_vec4_divs, [Reads Flt 4; Float; Writes 4]);
   (glm_vec4_maxadd, sse2.sse2_glm_vec4_maxadd, [Reads Flt 4; Reads Flt 4; Updates Flt 4]);
   (glm_vec4_minadd, sse2.sse2_glm_vec4_minadd, [Reads Flt 4; Reads Flt 4; Updates Flt 4]);
   (glm_vec4_maxsub, sse2.sse2_glm_vec4_maxsub, [Reads Flt 4; Reads Flt 4; Updates Flt 4]);
   (glm_vec4_minsub, sse2.sse2_glm_vec4_minsub, [Reads Flt 4; Reads Flt 4; Updates Flt 4]);
   (glm_vec4_distance, sse2.sse2_glm_vec4_distance, [Reads Flt 4; Reads Flt 4]);
   (glm_vec4_distance2, sse2.sse2_glm_vec4_distance2, [Reads Flt 4; Reads Flt 4]);
   (glm_vec4_maxv, sse2.sse2_glm_vec4_maxv, [Reads Flt 4; Reads Flt 4; Writes 4]);
   (glm_vec4_minv, sse2.sse2_glm_vec4_minv, [Reads Flt 4; Reads Flt 4; Writes 4]);
   (glm_vec4_lerpc, sse2.sse2_glm_vec4_lerpc, [Reads Flt 4; Reads Flt 4; Float; Writes 4]);
   (glm_vec4_mixc, sse2.sse2_glm_vec4_mixc, [Reads Flt 4; Reads Flt 4; Float; Writes 4]);
   (glm_vec4_smoothinterpc, sse2.sse2_glm_vec4_smoothinterpc, [Reads Flt 4; Reads Flt 4; Float; Writes 4]);
   (glm_vec4_reflect, sse2.sse2_glm_vec4_reflect, [Reads Flt 4; Reads Flt 4; Writes 4]);
   (glm_vec4_refract, sse2.sse2_glm_vec4_refract, [Reads Flt 4; Reads Flt 4; Float; Writes 4]);
   (glm_mat4_mul, sse2.sse2_glm_mat4_mul, [Reads Flt 16; Reads Flt 16; Writes 16]);
   (glm_mat4_mulv, sse2.sse2_glm_mat4_mulv, [Reads Flt 16; Reads Flt 4; Writes 4]);
   (glm_mat4_mulv3, sse2.sse2_glm_mat4_mulv3, [Reads Flt 16; Reads Flt 3; Float; Writes 3]);
   (glm_mat4_transpose_to, sse2.sse2_glm_mat4_transpose_to, [Apart Flt 16; Writes 16]);
   (glm_mat4_det, sse2.sse2_glm_mat4_det, [Reads Flt 16]);
   (glm_mat4_inv, sse2.sse2_glm_mat4_inv, [Reads Flt 16; Writes 16]);
   (glm_mat4_inv_fast, sse2.sse2_glm_mat4_inv_fast, [Reads Flt 16; Writes 16]);
   (glm_mat4_rmc, sse2.sse2_glm_mat4_rmc, [Reads Flt 4; Reads Flt 16; Reads Flt 4]);
   (glm_mat3_mul, sse2.sse2_glm_mat3_mul, [Reads Flt 9; Reads Flt 9; Writes 9]);
   (glm_mat2_mul, sse2.sse2_glm_mat2_mul, [Reads Flt 4; Reads Flt 4; Writes 4]);
   (glm_mat2_transpose_to, sse2.sse2_glm_mat2_transpose_to, [Apart Flt 4; Writes 4]);
   (glm_mul, sse2.sse2_glm_mul, [Reads Flt 16; Reads Flt 16; Writes 16]);
   (glm_mul_rot, sse2.sse2_glm_mul_rot, [Reads Flt 16; Reads Flt 16; Writes 16]);
   (glm_translate, sse2.sse2_glm_translate, [Updates Flt 16; Reads Flt 3]);
   (glm_translate_to, sse2.sse2_glm_translate_to, [Reads Flt 16; Reads Flt 3; Writes 16]);
   (glm_translate_x, sse2.sse2_glm_translate_x, [Updates Flt 16; Float]);
   (glm_translate_y, sse2.sse2_glm_translate_y, [Updates Flt 16; Float]);
   (glm_translate_z, sse2.sse2_glm_translate_z, [Updates Flt 16; Float]);
   (glm_rotate_x, sse2.sse2_glm_rotate_x, [Reads Flt 16; Float; Writes 16]);
   (glm_rotate_y, sse2.sse2_glm_rotate_y, [Reads Flt 16; Float; Writes 16]);
   (glm_rotate_z, sse2.sse2_glm_rotate_z, [Reads Flt 16; Float; Writes 16]);
   (glm_rotate, sse2.sse2_glm_rotate, [Updates Flt 16; Float; Reads Flt 3]);
   (glm_rotate_at, sse2.sse2_glm_rotate_at, [Updates Flt 16; Reads Flt 3; Float; Reads Flt 3]);
   (glm_rotate_atm, sse2.sse2_glm_rotate_atm, [Writes 16; Reads Flt 3; Float; Reads Flt 3]);
   (glm_spin, sse2.sse2_glm_spin, [Updates Flt 16; Float; Reads Flt 3]);
   (glm_rotated_x, sse2.sse2_glm_rotated_x, [Reads Flt 16; Float; Writes 16]);
   (glm_rotated_y, sse2.sse2_glm_rotated_y, [Reads Flt 16; Float; Writes 16]);
   (glm_rotated_z, sse2.sse2_glm_rotated_z, [Reads Flt 16; Float; Writes 16]);
   (glm_rotated, sse2.sse2_glm_rotated, [Updates Flt 16; Float; Reads Flt 3]);
   (glm_rotated_at, sse2.sse2_glm_rotated_at, [Updates Flt 16; Reads Flt 3; Float; Reads Flt 3]);
   (glm_spinned, sse2.sse2_glm_spinned, [Updates Flt 16; Float; Reads Flt 3]);
   (glm_frustum_corners, sse2.sse2_glm_frustum_corners, [Reads Flt 16; Writes 32]);
   (glm_frustum_box, sse2.sse2_glm_frustum_box, [Reads Flt 32; Reads Flt 16; Writes 6]);
   (glm_frustum_corners_at, sse2.sse2_glm_frustum_corners_at, [Reads Flt 32; Float; Float; Writes 16]);
   (glm_quat_normalize_to, sse2.sse2_glm_quat_normalize_to, [Reads Flt 4; Writes 4]);
   (glm_quat_normalize, sse2.sse2_glm_quat_normalize, [Updates Flt 4]);
   (glm_quat_from_vecs, sse2.sse2_glm_quat_from_vecs, [Reads Flt 3; Reads Flt 3; Writes 4]);
   (glm_quat_norm, sse2.sse2_glm_quat_norm, [Reads Flt 4]);
   (glm_quat_dot, sse2.sse2_glm_quat_dot, [Reads Flt 4; Reads Flt 4]);
   (glm_quat_inv, sse2.sse2_glm_quat_inv, [Reads Flt 4; Writes 4]);
   (glm_quat_mul, sse2.sse2_glm_quat_mul, [Apart Flt 4; Apart Flt 4; Writes 4]);
   (glm_quat_mat4, sse2.sse2_glm_quat_mat4, [Reads Flt 4; Writes 16]);
   (glm_quat_mat4t, sse2.sse2_glm_quat_mat4t, [Reads Flt 4; Writes 16]);
   (glm_quat_mat3, sse2.sse2_glm_quat_mat3, [Reads Flt 4; Writes 9]);
   (glm_quat_mat3t, sse2.sse2_glm_quat_mat3t, [Reads Flt 4; Writes 9]);
   (glm_quat_lerpc, sse2.sse2_glm_quat_lerpc, [Reads Flt 4; Reads Flt 4; Float; Writes 4]);
   (glm_quat_nlerp, sse2.sse2_glm_quat_nlerp, [Reads Flt 4; Reads Flt 4; Float; Writes 4]);
   (glm_quat_slerp, sse2.sse2_glm_quat_slerp, [Reads Flt 4; Reads Flt 4; Float; Writes 4]);
   (glm_quat_slerp_longest, sse2.sse2_glm_quat_slerp_longest, [Reads Flt 4; Reads Flt 4; Float; Writes 4]);
   (glm_quat_look, sse2.sse2_glm_quat_look, [Reads Flt 3; Reads Flt 4; Writes 16]);
   (glm_quat_rotatev, sse2.sse2_glm_quat_rotatev, [Reads Flt 4; Reads Flt 3; Writes 3]);
   (glm_quat_rotate, sse2.sse2_glm_quat_rotate, [Reads Flt 16; Reads Flt 4; Writes 16]);
   (glm_quat_rotate_at, sse2.sse2_glm_quat_rotate_at, [Updates Flt 16; Reads Flt 4; Reads Flt 3]);
   (glm_quat_rotate_atm, sse2.sse2_glm_quat_rotate_atm, [Writes 16; Reads Flt 4; Reads Flt 3]);
   (glm_unprojecti_no, sse2.sse2_glm_unprojecti_no, [Reads Flt 3; Reads Flt 16; Reads Flt 4; Writes 3]);
   (glm_project_no, sse2.sse2_glm_project_no, [Reads Flt 3; Reads Flt 16; Reads Flt 4; Writes 3]);
   (glm_unprojecti, sse2.sse2_glm_unprojecti, [Reads Flt 3; Reads Flt 16; Reads Flt 4; Writes 3]);
   (glm_unproject, sse2.sse2_glm_unproject, [Reads Flt 3; Reads Flt 16; Reads Flt 4; Writes 3]);
   (glm_project, sse2.sse2_glm_project, [Reads Flt 3; Reads Flt 16; Reads Flt 4; Writes 3]);
   (glm_sphere_transform, sse2.sse2_glm_sphere_transform, [Reads Flt 4; Reads Flt 16; Writes 4]);
   (glm_smc, sse2.sse2_glm_smc, [Float; Reads Flt 16; Reads Flt 4]);
   (glm_unprojecti_zo, sse2.sse2_glm_unprojecti_zo, [Reads Flt 3; Reads Flt 16; Reads Flt 4; Writes 3]);
   (glm_project_zo, sse2.sse2_glm_project_zo, [Reads Flt 3; Reads Flt 16; Reads Flt 4; Writes 3])].

Definition avx_exact : list (fundef * fundef * list param) :=
  [(glm_vec4_broadcast, avx.avx_glm_vec4_broadcast, [Float; Writes 4]);
   (glm_vec4_fill, avx.avx_glm_vec4_fill, [Writes 4; Float]);
   (glm_vec4_abs, avx.avx_glm_vec4_abs, [Reads Flt 4; Writes 4]);
   (glm_vec4_sqrt, avx.avx_glm_vec4_sqrt, [Reads Flt 4; Writes 4]);
   (glm_vec4_copy, avx.avx_glm_vec4_copy, [Reads Flt 4; Writes 4]);
   (glm_vec4_zero, avx.avx_glm_vec4_zero, [Updates Flt 4]);
   (glm_vec4_one, avx.avx_glm_vec4_one, [Updates Flt 4]);
   (glm_vec4_add, avx.avx_glm_vec4_add, [Reads Flt 4; Reads Flt 4; Writes 4]);
   (glm_vec4_adds, avx.avx_glm_vec4_adds, [Reads Flt 4; Float; Writes 4]);
   (glm_vec4_sub, avx.avx_glm_vec4_sub, [Reads Flt 4; Reads Flt 4; Writes 4]);
   (glm_vec4_subs, avx.avx_glm_vec4_subs, [Reads Flt 4; Float; Writes 4]);
   (glm_vec4_mul, avx.avx_glm_vec4_mul, [Reads Flt 4; Reads Flt 4; Writes 4]);
   (glm_vec4_scale, avx.avx_glm_vec4_scale, [Reads Flt 4; Float; Writes 4]);
   (glm_vec4_div, avx.avx_glm_vec4_div, [Reads Flt 4; Reads Flt 4; Writes 4]);
   (glm_vec4_addadd, avx.avx_glm_vec4_addadd, [Reads Flt 4; Reads Flt 4; Updates Flt 4]);
   (glm_vec4_subadd, avx.avx_glm_vec4_subadd, [Reads Flt 4; Reads Flt 4; Updates Flt 4]);
   (glm_vec4_muladd, avx.avx_glm_vec4_muladd, [Reads Flt 4; Reads Flt 4; Updates Flt 4]);
   (glm_vec4_muladds, avx.avx_glm_vec4_muladds, [Reads Flt 4; Float; Updates Flt 4]);
   (glm_vec4_subsub, avx.avx_glm_vec4_subsub, [Reads Flt 4; Reads Flt 4; Updates Flt 4]);
   (glm_vec4_addsub, avx.avx_glm_vec4_addsub, [Reads Flt 4; Reads Flt 4; Updates Flt 4]);
   (glm_vec4_mulsub, avx.avx_glm_vec4_mulsub, [Reads Flt 4; Reads Flt 4; Updates Flt 4]);
   (glm_vec4_mulsubs, avx.avx_glm_vec4_mulsubs, [Reads Flt 4; Float; Updates Flt 4]);
   (glm_vec4_negate_to, avx.avx_glm_vec4_negate_to, [Reads Flt 4; Writes 4]);
   (glm_vec4_negate, avx.avx_glm_vec4_negate, [Updates Flt 4]);
   (glm_vec4_clamp, avx.avx_glm_vec4_clamp, [Updates Flt 4; Float; Float]);
   (glm_vec4_lerp, avx.avx_glm_vec4_lerp, [Reads Flt 4; Reads Flt 4; Float; Writes 4]);
   (glm_vec4_mix, avx.avx_glm_vec4_mix, [Reads Flt 4; Reads Flt 4; Float; Writes 4]);
   (glm_vec4_smoothinterp, avx.avx_glm_vec4_smoothinterp, [Reads Flt 4; Reads Flt 4; Float; Writes 4]);
   (glm_vec4_swizzle, avx.avx_glm_vec4_swizzle, [Reads Flt 4; Index 256; Writes 4]);
   (glm_mat4_copy, avx.avx_glm_mat4_copy, [Reads Flt 16; Writes 16]);
   (glm_mat4_identity, avx.avx_glm_mat4_identity, [Updates Flt 16]);
   (glm_mat4_zero, avx.avx_glm_mat4_zero, [Updates Flt 16]);
   (glm_mat4_transpose, avx.avx_glm_mat4_transpose, [Updates Flt 16]);
   (glm_mat4_scale, avx.avx_glm_mat4_scale, [Updates Flt 16; Float]);
   (glm_mat4_swap_col, avx.avx_glm_mat4_swap_col, [Updates Flt 16; Index 4; Index 4]);
   (glm_mat4_textrans, avx.avx_glm_mat4_textrans, [Float; Float; Float; Float; Float; Writes 16]);
   (glm_mat2_scale, avx.avx_glm_mat2_scale, [Updates Flt 4; Float]);
   (glm_translate_make, avx.avx_glm_translate_make, [Writes 16; Reads Flt 3]);
   (glm_scale_to, avx.avx_glm_scale_to, [Reads Flt 16; Reads Flt 3; Writes 16]);
   (glm_scale_make, avx.avx_glm_scale_make, [Writes 16; Reads Flt 3]);
   (glm_scale, avx.avx_glm_scale, [Updates Flt 16; Reads Flt 3]);
   (glm_scale_uni, avx.avx_glm_scale_uni, [Updates Flt 16; Float]);
   (glm_decompose_rs, avx.avx_glm_decompose_rs, [Reads Flt 16; Writes 16; Writes 3]);
   (glm_decompose, avx.avx_glm_decompose, [Reads Flt 16; Writes 4; Writes 16; Writes 3]);
   (glm_translated_to, avx.avx_glm_translated_to, [Reads Flt 16; Reads Flt 3; Writes 16]);
   (glm_plane_normalize, avx.avx_glm_plane_normalize, [Updates Flt 4]);
   (glm_ortho_rh_no, avx.avx_glm_ortho_rh_no, [Float; Float; Float; Float; Float; Float; Writes 16]);
   (glm_ortho_aabb_rh_no, avx.avx_glm_ortho_aabb_rh_no, [Reads Flt 6; Writes 16]);
   (glm_ortho_aabb_p_rh_no, avx.avx_glm_ortho_aabb_p_rh_no, [Reads Flt 6; Float; Writes 16]);
   (glm_ortho_aabb_pz_rh_no, avx.avx_glm_ortho_aabb_pz_rh_no, [Reads Flt 6; Float; Writes 16]);
   (glm_ortho_default_rh_no, avx.avx_glm_ortho_default_rh_no, [Float; Writes 16]);
   (glm_ortho_default_s_rh_no, avx.avx_glm_ortho_default_s_rh_no, [Float; Float; Writes 16]);
   (glm_frustum_rh_no, avx.avx_glm_frustum_rh_no, [Float; Float; Float; Float; Float; Float; Writes 16]);
   (glm_perspective_rh_no, avx.avx_glm_perspective_rh_no, [Float; Float; Float; Float; Writes 16]);
   (glm_perspective_default_rh_no, avx.avx_glm_perspective_default_rh_no, [Float; Writes 16]);
   (glm_frustum, avx.avx_glm_frustum, [Float; Float; Float; Float; Float; Float; Writes 16]);
   (glm_ortho, avx.avx_glm_ortho, [Float; Float; Float; Float; Float; Float; Writes 16]);
   (glm_ortho_aabb, avx.avx_glm_ortho_aabb, [Reads Flt 6; Writes 16]);
   (glm_ortho_aabb_p, avx.avx_glm_ortho_aabb_p, [Reads Flt 6; Float; Writes 16]);
   (glm_ortho_aabb_pz, avx.avx_glm_ortho_aabb_pz, [Reads Flt 6; Float; Writes 16]);
   (glm_ortho_default, avx.avx_glm_ortho_default, [Float; Writes 16]);
   (glm_ortho_default_s, avx.avx_glm_ortho_default_s, [Float; Float; Writes 16]);
   (glm_perspective, avx.avx_glm_perspective, [Float; Float; Float; Float; Writes 16]);
   (glm_perspective_default, avx.avx_glm_perspective_default, [Float; Writes 16]);
   (glm_frustum_planes, avx.avx_glm_frustum_planes, [Reads Flt 16; Writes 24]);
   (glm_frustum_center, avx.avx_glm_frustum_center, [Reads Flt 32; Writes 4]);
   (glm_quat_identity, avx.avx_glm_quat_identity, [Updates Flt 4]);
   (glm_quat_copy, avx.avx_glm_quat_copy, [Reads Flt 4; Writes 4]);
   (glm_quat_conjugate, avx.avx_glm_quat_conjugate, [Reads Flt 4; Writes 4]);
   (glm_quat_add, avx.avx_glm_quat_add, [Reads Flt 4; Reads Flt 4; Writes 4]);
   (glm_quat_sub, avx.avx_glm_quat_sub, [Reads Flt 4; Reads Flt 4; Writes 4]);
   (glm_quat_lerp, avx.avx_glm_quat_lerp, [Reads Flt 4; Reads Flt 4; Float; Writes 4]);
   (glm_pickmatrix, avx.avx_glm_pickmatrix, [Reads Flt 2; Reads Flt 2; Reads Flt 4; Writes 16]);
   (glm_ortho_lh_no, avx.avx_glm_ortho_lh_no, [Float; Float; Float; Float; Float; Float; Writes 16]);
   (glm_ortho_aabb_lh_no, avx.avx_glm_ortho_aabb_lh_no, [Reads Flt 6; Writes 16]);
   (glm_ortho_aabb_p_lh_no, avx.avx_glm_ortho_aabb_p_lh_no, [Reads Flt 6; Float; Writes 16]);
   (glm_ortho_aabb_pz_lh_no, avx.avx_glm_ortho_aabb_pz_lh_no, [Reads Flt 6; Float; Writes 16]);
   (glm_ortho_default_lh_no, avx.avx_glm_ortho_default_lh_no, [Float; Writes 16]);
   (glm_ortho_default_s_lh_no, avx.avx_glm_ortho_default_s_lh_no, [Float; Float; Writes 16]);
   (glm_ortho_lh_zo, avx.avx_glm_ortho_lh_zo, [Float; Float; Float; Float; Float; Float; Writes 16]);
   (glm_ortho_aabb_lh_zo, avx.avx_glm_ortho_aabb_lh_zo, [Reads Flt 6; Writes 16]);
   (glm_ortho_aabb_p_lh_zo, avx.avx_glm_ortho_aabb_p_lh_zo, [Reads Flt 6; Float; Writes 16]);
   (glm_ortho_aabb_pz_lh_zo, avx.avx_glm_ortho_aabb_pz_lh_zo, [Reads Flt 6; Float; Writes 16]);
   (glm_ortho_default_lh_zo, avx.avx_glm_ortho_default_lh_zo, [Float; Writes 16]);
   (glm_ortho_default_s_lh_zo, avx.avx_glm_ortho_default_s_lh_zo, [Float; Float; Writes 16]);
   (glm_ortho_rh_zo, avx.avx_glm_ortho_rh_zo, [Float; Float; Float; Float; Float; Float; Writes 16]);
   (glm_ortho_aabb_rh_zo, avx.avx_glm_ortho_aabb_rh_zo, [Reads Flt 6; Writes 16]);
   (glm_ortho_aabb_p_rh_zo, avx.avx_glm_ortho_aabb_p_rh_zo, [Reads Flt 6; Float; Writes 16]);
   (glm_ortho_aabb_pz_rh_zo, avx.avx_glm_ortho_aabb_pz_rh_zo, [Reads Flt 6; Float; Writes 16]);
   (glm_ortho_default_rh_zo, avx.avx_glm_ortho_default_rh_zo, [Float; Writes 16]);
   (glm_ortho_default_s_rh_zo, avx.avx_glm_ortho_default_s_rh_zo, [Float; Float; Writes 16]);
   (glm_frustum_lh_no, avx.avx_glm_frustum_lh_no, [Float; Float; Float; Float; Float; Float; Writes 16]);
   (glm_perspective_lh_no, avx.avx_glm_perspective_lh_no, [Float; Float; Float; Float; Writes 16]);
   (glm_perspective_default_lh_no, avx.avx_glm_perspective_default_lh_no, [Float; Writes 16]);
   (glm_frustum_lh_zo, avx.avx_glm_frustum_lh_zo, [Float; Float; Float; Float; Float; Float; Writes 16]);
   (glm_perspective_lh_zo, avx.avx_glm_perspective_lh_zo, [Float; Float; Float; Float; Writes 16]);
   (glm_perspective_default_lh_zo, avx.avx_glm_perspective_default_lh_zo, [Float; Writes 16]);
   (glm_frustum_rh_zo, avx.avx_glm_frustum_rh_zo, [Float; Float; Float; Float; Float; Float; Writes 16]);
   (glm_perspective_rh_zo, avx.avx_glm_perspective_rh_zo, [Float; Float; Float; Float; Writes 16]);
   (glm_perspective_default_rh_zo, avx.avx_glm_perspective_default_rh_zo, [Float; Writes 16])].

Definition avx_real : list (fundef * fundef * list param) :=
  [(glm_vec4_sign, avx.avx_glm_vec4_sign, [Reads Flt 4; Writes 4]);
   (glm_vec4_hadd, avx.avx_glm_vec4_hadd, [Reads Flt 4]);
   (glm_vec4_dot, avx.avx_glm_vec4_dot, [Reads Flt 4; Reads Flt 4]);
   (glm_vec4_norm2, avx.avx_glm_vec4_norm2, [Reads Flt 4]);
   (glm_vec4_norm, avx.avx_glm_vec4_norm, [Reads Flt 4]);
   (glm_vec4_norm_one, avx.avx_glm_vec4_norm_one, [Reads Flt 4]);
   (glm_vec4_scale_as, avx.avx_glm_vec4_scale_as, [Reads Flt 4; Float; Writes 4]);
   (glm_vec4_divs, avx.avx_glm_vec4_divs, [Reads Flt 4; Float; Writes 4]);
   (glm_vec4_maxadd, avx.avx_glm_vec4_maxadd, [Reads Flt 4; Reads Flt 4; Updates Flt 4]);
   (glm_vec4_minadd, avx.avx_glm_vec4_minadd, [Reads Flt 4; Reads Flt 4; Updates Flt 4]);
   (glm_vec4_maxsub, avx.avx_glm_vec4_maxsub, [Reads Flt 4; Reads Flt 4; Updates Flt 4]);
   (glm_vec4_minsub, avx.avx_glm_vec4_minsub, [Reads Flt 4; Reads Flt 4; Updates Flt 4]);
   (glm_vec4_distance, avx.avx_glm_vec4_distance, [Reads Flt 4; Reads Flt 4]);
   (glm_vec4_distance2, avx.avx_glm_vec4_distance2, [Reads Flt 4; Reads Flt 4]);
   (glm_vec4_maxv, avx.avx_glm_vec4_maxv, [Reads Flt 4; Reads Flt 4; Writes 4]);
   (glm_vec4_minv, avx.avx_glm_vec4_minv, [Reads Flt 4; Reads Flt 4; Writes 4]);
   (glm_vec4_lerpc, avx.avx_glm_vec4_lerpc, [Reads Flt 4; Reads Flt 4; Float; Writes 4]);
   (glm_vec4_mixc, avx.avx_glm_vec4_mixc, [Reads Flt 4; Reads Flt 4; Float; Writes 4]);
   (glm_vec4_smoothinterpc, avx.avx_glm_vec4_smoothinterpc, [Reads Flt 4; Reads Flt 4; Float; Writes 4]);
   (glm_vec4_reflect, avx.avx_glm_vec4_reflect, [Reads Flt 4; Reads Flt 4; Writes 4]);
   (glm_vec4_refract, avx.avx_glm_vec4_refract, [Reads Flt 4; Reads Flt 4; Float; Writes 4]);
   (glm_mat4_mul, avx.avx_glm_mat4_mul, [Reads Flt 16; Reads Flt 16; Writes 16]);
   (glm_mat4_mulv, avx.avx_glm_mat4_mulv, [Reads Flt 16; Reads Flt 4; Writes 4]);
   (glm_mat4_mulv3, avx.avx_glm_mat4_mulv3, [Reads Flt 16; Reads Flt 3; Float; Writes 3]);
   (glm_mat4_transpose_to, avx.avx_glm_mat4_transpose_to, [Apart Flt 16; Writes 16]);
   (glm_mat4_det, avx.avx_glm_mat4_det, [Reads Flt 16]);
   (glm_mat4_inv, avx.avx_glm_mat4_inv, [Reads Flt 16; Writes 16]);
   (glm_mat4_inv_fast, avx.avx_glm_mat4_inv_fast, [Reads Flt 16; Writes 16]);
   (glm_mat4_rmc, avx.avx_glm_mat4_rmc, [Reads Flt 4; Reads Flt 16; Reads Flt 4]);
   (glm_mat3_mul, avx.avx_glm_mat3_mul, [Reads Flt 9; Reads Flt 9; Writes 9]);
   (glm_mat2_mul, avx.avx_glm_mat2_mul, [Reads Flt 4; Reads Flt 4; Writes 4]);
   (glm_mat2_transpose_to, avx.avx_glm_mat2_transpose_to, [Apart Flt 4; Writes 4]);
   (glm_mul_rot, avx.avx_glm_mul_rot, [Reads Flt 16; Reads Flt 16; Writes 16]);
   (glm_translate, avx.avx_glm_translate, [Updates Flt 16; Reads Flt 3]);
   (glm_translate_to, avx.avx_glm_translate_to, [Reads Flt 16; Reads Flt 3; Writes 16]);
   (glm_translate_x, avx.avx_glm_translate_x, [Updates Flt 16; Float]);
   (glm_translate_y, avx.avx_glm_translate_y, [Updates Flt 16; Float]);
   (glm_translate_z, avx.avx_glm_translate_z, [Updates Flt 16; Float]);
   (glm_rotate_x, avx.avx_glm_rotate_x, [Reads Flt 16; Float; Writes 16]);
   (glm_rotate_y, avx.avx_glm_rotate_y, [Reads Flt 16; Float; Writes 16]);
   (glm_rotate_z, avx.avx_glm_rotate_z, [Reads Flt 16; Float; Writes 16]);
   (glm_rotate, avx.avx_glm_rotate, [Updates Flt 16; Float; Reads Flt 3]);
   (glm_rotate_at, avx.avx_glm_rotate_at, [Updates Flt 16; Reads Flt 3; Float; Reads Flt 3]);
   (glm_rotate_atm, avx.avx_glm_rotate_atm, [Writes 16; Reads Flt 3; Float; Reads Flt 3]);
   (glm_spin, avx.avx_glm_spin, [Updates Flt 16; Float; Reads Flt 3]);
   (glm_rotated_x, avx.avx_glm_rotated_x, [Reads Flt 16; Float; Writes 16]);
   (glm_rotated_y, avx.avx_glm_rotated_y, [Reads Flt 16; Float; Writes 16]);
   (glm_rotated_z, avx.avx_glm_rotated_z, [Reads Flt 16; Float; Writes 16]);
   (glm_rotated, avx.avx_glm_rotated, [Updates Flt 16; Float; Reads Flt 3]);
   (glm_rotated_at, avx.avx_glm_rotated_at, [Updates Flt 16; Reads Flt 3; Float; Reads Flt 3]);
   (glm_spinned, avx.avx_glm_spinned, [Updates Flt 16; Float; Reads Flt 3]);
   (glm_frustum_corners, avx.avx_glm_frustum_corners, [Reads Flt 16; Writes 32]);
   (glm_frustum_box, avx.avx_glm_frustum_box, [Reads Flt 32; Reads Flt 16; Writes 6]);
   (glm_frustum_corners_at, avx.avx_glm_frustum_corners_at, [Reads Flt 32; Float; Float; Writes 16]);
   (glm_quat_normalize_to, avx.avx_glm_quat_normalize_to, [Reads Flt 4; Writes 4]);
   (glm_quat_normalize, avx.avx_glm_quat_normalize, [Updates Flt 4]);
   (glm_quat_from_vecs, avx.avx_glm_quat_from_vecs, [Reads Flt 3; Reads Flt 3; Writes 4]);
   (glm_quat_norm, avx.avx_glm_quat_norm, [Reads Flt 4]);
   (glm_quat_dot, avx.avx_glm_quat_dot, [Reads Flt 4; Reads Flt 4]);
   (glm_quat_inv, avx.avx_glm_quat_inv, [Reads Flt 4; Writes 4]);
   (glm_quat_mul, avx.avx_glm_quat_mul, [Apart Flt 4; Apart Flt 4; Writes 4]);
   (glm_quat_mat4, avx.avx_glm_quat_mat4, [Reads Flt 4; Writes 16]);
   (glm_quat_mat4t, avx.avx_glm_quat_mat4t, [Reads Flt 4; Writes 16]);
   (glm_quat_mat3, avx.avx_glm_quat_mat3, [Reads Flt 4; Writes 9]);
   (glm_quat_mat3t, avx.avx_glm_quat_mat3t, [Reads Flt 4; Writes 9]);
   (glm_quat_lerpc, avx.avx_glm_quat_lerpc, [Reads Flt 4; Reads Flt 4; Float; Writes 4]);
   (glm_quat_nlerp, avx.avx_glm_quat_nlerp, [Reads Flt 4; Reads Flt 4; Float; Writes 4]);
   (glm_quat_slerp, avx.avx_glm_quat_slerp, [Reads Flt 4; Reads Flt 4; Float; Writes 4]);
   (glm_quat_slerp_longest, avx.avx_glm_quat_slerp_longest, [Reads Flt 4; Reads Flt 4; Float; Writes 4]);
   (glm_quat_look, avx.avx_glm_quat_look, [Reads Flt 3; Reads Flt 4; Writes 16]);
   (glm_quat_rotatev, avx.avx_glm_quat_rotatev, [Reads Flt 4; Reads Flt 3; Writes 3]);
   (glm_quat_rotate, avx.avx_glm_quat_rotate, [Reads Flt 16; Reads Flt 4; Writes 16]);
   (glm_quat_rotate_at, avx.avx_glm_quat_rotate_at, [Updates Flt 16; Reads Flt 4; Reads Flt 3]);
   (glm_quat_rotate_atm, avx.avx_glm_quat_rotate_atm, [Writes 16; Reads Flt 4; Reads Flt 3]);
   (glm_unprojecti_no, avx.avx_glm_unprojecti_no, [Reads Flt 3; Reads Flt 16; Reads Flt 4; Writes 3]);
   (glm_project_no, avx.avx_glm_project_no, [Reads Flt 3; Reads Flt 16; Reads Flt 4; Writes 3]);
   (glm_unprojecti, avx.avx_glm_unprojecti, [Reads Flt 3; Reads Flt 16; Reads Flt 4; Writes 3]);
   (glm_unproject, avx.avx_glm_unproject, [Reads Flt 3; Reads Flt 16; Reads Flt 4; Writes 3]);
   (glm_project, avx.avx_glm_project, [Reads Flt 3; Reads Flt 16; Reads Flt 4; Writes 3]);
   (glm_sphere_transform, avx.avx_glm_sphere_transform, [Reads Flt 4; Reads Flt 16; Writes 4]);
   (glm_smc, avx.avx_glm_smc, [Float; Reads Flt 16; Reads Flt 4]);
   (glm_unprojecti_zo, avx.avx_glm_unprojecti_zo, [Reads Flt 3; Reads Flt 16; Reads Flt 4; Writes 3]);
   (glm_project_zo, avx.avx_glm_project_zo, [Reads Flt 3; Reads Flt 16; Reads Flt 4; Writes 3])].

Definition fma_exact : list (fundef * fundef * list param) :=
  [(glm_vec4_broadcast, fma.fma_glm_vec4_broadcast, [Float; Writes 4]);
   (glm_vec4_fill, fma.fma_glm_vec4_fill, [Writes 4; Float]);
   (glm_vec4_abs, fma.fma_glm_vec4_abs, [Reads Flt 4; Writes 4]);
   (glm_vec4_sqrt, fma.fma_glm_vec4_sqrt, [Reads Flt 4; Writes 4]);
   (glm_vec4_copy, fma.fma_glm_vec4_copy, [Reads Flt 4; Writes 4]);
   (glm_vec4_zero, fma.fma_glm_vec4_zero, [Updates Flt 4]);
   (glm_vec4_one, fma.fma_glm_vec4_one, [Updates Flt 4]);
   (glm_vec4_add, fma.fma_glm_vec4_add, [Reads Flt 4; Reads Flt 4; Writes 4]);
   (glm_vec4_adds, fma.fma_glm_vec4_adds, [Reads Flt 4; Float; Writes 4]);
   (glm_vec4_sub, fma.fma_glm_vec4_sub, [Reads Flt 4; Reads Flt 4; Writes 4]);
   (glm_vec4_subs, fma.fma_glm_vec4_subs, [Reads Flt 4; Float; Writes 4]);
   (glm_vec4_mul, fma.fma_glm_vec4_mul, [Reads Flt 4; Reads Flt 4; Writes 4]);
   (glm_vec4_scale, fma.fma_glm_vec4_scale, [Reads Flt 4; Float; Writes 4]);
   (glm_vec4_div, fma.fma_glm_vec4_div, [Reads Flt 4; Reads Flt 4; Writes 4]);
   (glm_vec4_addadd, fma.fma_glm_vec4_addadd, [Reads Flt 4; Reads Flt 4; Updates Flt 4]);
   (glm_vec4_subadd, fma.fma_glm_vec4_subadd, [Reads Flt 4; Reads Flt 4; Updates Flt 4]);
   (glm_vec4_subsub, fma.fma_glm_vec4_subsub, [Reads Flt 4; Reads Flt 4; Updates Flt 4]);
   (glm_vec4_addsub, fma.fma_glm_vec4_addsub, [Reads Flt 4; Reads Flt 4; Updates Flt 4]);
   (glm_vec4_negate_to, fma.fma_glm_vec4_negate_to, [Reads Flt 4; Writes 4]);
   (glm_vec4_negate, fma.fma_glm_vec4_negate, [Updates Flt 4]);
   (glm_vec4_clamp, fma.fma_glm_vec4_clamp, [Updates Flt 4; Float; Float]);
   (glm_vec4_lerp, fma.fma_glm_vec4_lerp, [Reads Flt 4; Reads Flt 4; Float; Writes 4]);
   (glm_vec4_mix, fma.fma_glm_vec4_mix, [Reads Flt 4; Reads Flt 4; Float; Writes 4]);
   (glm_vec4_smoothinterp, fma.fma_glm_vec4_smoothinterp, [Reads Flt 4; Reads Flt 4; Float; Writes 4]);
   (glm_vec4_swizzle, fma.fma_glm_vec4_swizzle, [Reads Flt 4; Index 256; Writes 4]);
   (glm_mat4_copy, fma.fma_glm_mat4_copy, [Reads Flt 16; Writes 16]);
   (glm_mat4_identity, fma.fma_glm_mat4_identity, [Updates Flt 16]);
   (glm_mat4_zero, fma.fma_glm_mat4_zero, [Updates Flt 16]);
   (glm_mat4_transpose, fma.fma_glm_mat4_transpose, [Updates Flt 16]);
   (glm_mat4_scale, fma.fma_glm_mat4_scale, [Updates Flt 16; Float]);
   (glm_mat4_swap_col, fma.fma_glm_mat4_swap_col, [Updates Flt 16; Index 4; Index 4]);
   (glm_mat4_textrans, fma.fma_glm_mat4_textrans, [Float; Float; Float; Float; Float; Writes 16]);
   (glm_mat2_scale, fma.fma_glm_mat2_scale, [Updates Flt 4; Float]);
   (glm_translate_make, fma.fma_glm_translate_make, [Writes 16; Reads Flt 3]);
   (glm_scale_to, fma.fma_glm_scale_to, [Reads Flt 16; Reads Flt 3; Writes 16]);
   (glm_scale_make, fma.fma_glm_scale_make, [Writes 16; Reads Flt 3]);
   (glm_scale, fma.fma_glm_scale, [Updates Flt 16; Reads Flt 3]);
   (glm_scale_uni, fma.fma_glm_scale_uni, [Updates Flt 16; Float]);
   (glm_decompose_rs, fma.fma_glm_decompose_rs, [Reads Flt 16; Writes 16; Writes 3]);
   (glm_decompose, fma.fma_glm_decompose, [Reads Flt 16; Writes 4; Writes 16; Writes 3]);
   (glm_translated_to, fma.fma_glm_translated_to, [Reads Flt 16; Reads Flt 3; Writes 16]);
   (glm_plane_normalize, fma.fma_glm_plane_normalize, [Updates Flt 4]);
   (glm_ortho_rh_no, fma.fma_glm_ortho_rh_no, [Float; Float; Float; Float; Float; Float; Writes 16]);
   (glm_ortho_aabb_rh_no, fma.fma_glm_ortho_aabb_rh_no, [Reads Flt 6; Writes 16]);
   (glm_ortho_aabb_p_rh_no, fma.fma_glm_ortho_aabb_p_rh_no, [Reads Flt 6; Float; Writes 16]);
   (glm_ortho_aabb_pz_rh_no, fma.fma_glm_ortho_aabb_pz_rh_no, [Reads Flt 6; Float; Writes 16]);
   (glm_ortho_default_rh_no, fma.fma_glm_ortho_default_rh_no, [Float; Writes 16]);
   (glm_ortho_default_s_rh_no, fma.fma_glm_ortho_default_s_rh_no, [Float; Float; Writes 16]);
   (glm_frustum_rh_no, fma.fma_glm_frustum_rh_no, [Float; Float; Float; Float; Float; Float; Writes 16]);
   (glm_perspective_rh_no, fma.fma_glm_perspective_rh_no, [Float; Float; Float; Float; Writes 16]);
   (glm_perspective_default_rh_no, fma.fma_glm_perspective_default_rh_no, [Float; Writes 16]);
   (glm_frustum, fma.fma_glm_frustum, [Float; Float; Float; Float; Float; Float; Writes 16]);
   (glm_ortho, fma.fma_glm_ortho, [Float; Float; Float; Float; Float; Float; Writes 16]);
   (glm_ortho_aabb, fma.fma_glm_ortho_aabb, [Reads Flt 6; Writes 16]);
   (glm_ortho_aabb_p, fma.fma_glm_ortho_aabb_p, [Reads Flt 6; Float; Writes 16]);
   (glm_ortho_aabb_pz, fma.fma_glm_ortho_aabb_pz, [Reads Flt 6; Float; Writes 16]);
   (glm_ortho_default, fma.fma_glm_ortho_default, [Float; Writes 16]);
   (glm_ortho_default_s, fma.fma_glm_ortho_default_s, [Float; Float; Writes 16]);
   (glm_perspective, fma.fma_glm_perspective, [Float; Float; Float; Float; Writes 16]);
   (glm_perspective_default, fma.fma_glm_perspective_default, [Float; Writes 16]);
   (glm_frustum_planes, fma.fma_glm_frustum_planes, [Reads Flt 16; Writes 24]);
   (glm_frustum_center, fma.fma_glm_frustum_center, [Reads Flt 32; Writes 4]);
   (glm_quat_identity, fma.fma_glm_quat_identity, [Updates Flt 4]);
   (glm_quat_copy, fma.fma_glm_quat_copy, [Reads Flt 4; Writes 4]);
   (glm_quat_conjugate, fma.fma_glm_quat_conjugate, [Reads Flt 4; Writes 4]);
   (glm_quat_add, fma.fma_glm_quat_add, [Reads Flt 4; Reads Flt 4; Writes 4]);
   (glm_quat_sub, fma.fma_glm_quat_sub, [Reads Flt 4; Reads Flt 4; Writes 4]);
   (glm_quat_lerp, fma.fma_glm_quat_lerp, [Reads Flt 4; Reads Flt 4; Float; Writes 4]);
   (glm_pickmatrix, fma.fma_glm_pickmatrix, [Reads Flt 2; Reads Flt 2; Reads Flt 4; Writes 16]);
   (glm_ortho_lh_no, fma.fma_glm_ortho_lh_no, [Float; Float; Float; Float; Float; Float; Writes 16]);
   (glm_ortho_aabb_lh_no, fma.fma_glm_ortho_aabb_lh_no, [Reads Flt 6; Writes 16]);
   (glm_ortho_aabb_p_lh_no, fma.fma_glm_ortho_aabb_p_lh_no, [Reads Flt 6; Float; Writes 16]);
   (glm_ortho_aabb_pz_lh_no, fma.fma_glm_ortho_aabb_pz_lh_no, [Reads Flt 6; Float; Writes 16]);
   (glm_ortho_default_lh_no, fma.fma_glm_ortho_default_lh_no, [Float; Writes 16]);
   (glm_ortho_default_s_lh_no, fma.fma_glm_ortho_default_s_lh_no, [Float; Float; Writes 16]);
   (glm_ortho_lh_zo, fma.fma_glm_ortho_lh_zo, [Float; Float; Float; Float; Float; Float; Writes 16]);
   (glm_ortho_aabb_lh_zo, fma.fma_glm_ortho_aabb_lh_zo, [Reads Flt 6; Writes 16]);
   (glm_ortho_aabb_p_lh_zo, fma.fma_glm_ortho_aabb_p_lh_zo, [Reads Flt 6; Float; Writes 16]);
   (glm_ortho_aabb_pz_lh_zo, fma.fma_glm_ortho_aabb_pz_lh_zo, [Reads Flt 6; Float; Writes 16]);
   (glm_ortho_default_lh_zo, fma.fma_glm_ortho_default_lh_zo, [Float; Writes 16]);
   (glm_ortho_default_s_lh_zo, fma.fma_glm_ortho_default_s_lh_zo, [Float; Float; Writes 16]);
   (glm_ortho_rh_zo, fma.fma_glm_ortho_rh_zo, [Float; Float; Float; Float; Float; Float; Writes 16]);
   (glm_ortho_aabb_rh_zo, fma.fma_glm_ortho_aabb_rh_zo, [Reads Flt 6; Writes 16]);
   (glm_ortho_aabb_p_rh_zo, fma.fma_glm_ortho_aabb_p_rh_zo, [Reads Flt 6; Float; Writes 16]);
   (glm_ortho_aabb_pz_rh_zo, fma.fma_glm_ortho_aabb_pz_rh_zo, [Reads Flt 6; Float; Writes 16]);
   (glm_ortho_default_rh_zo, fma.fma_glm_ortho_default_rh_zo, [Float; Writes 16]);
   (glm_ortho_default_s_rh_zo, fma.fma_glm_ortho_default_s_rh_zo, [Float; Float; Writes 16]);
   (glm_frustum_lh_no, fma.fma_glm_frustum_lh_no, [Float; Float; Float; Float; Float; Float; Writes 16]);
   (glm_perspective_lh_no, fma.fma_glm_perspective_lh_no, [Float; Float; Float; Float; Writes 16]);
   (glm_perspective_default_lh_no, fma.fma_glm_perspective_default_lh_no, [Float; Writes 16]);
   (glm_frustum_lh_zo, fma.fma_glm_frustum_lh_zo, [Float; Float; Float; Float; Float; Float; Writes 16]);
   (glm_perspective_lh_zo, fma.fma_glm_perspective_lh_zo, [Float; Float; Float; Float; Writes 16]);
   (glm_perspective_default_lh_zo, fma.fma_glm_perspective_default_lh_zo, [Float; Writes 16]);
   (glm_frustum_rh_zo, fma.fma_glm_frustum_rh_zo, [Float; Float; Float; Float; Float; Float; Writes 16]);
   (glm_perspective_rh_zo, fma.fma_glm_perspective_rh_zo, [Float; Float; Float; Float; Writes 16]);
   (glm_perspective_default_rh_zo, fma.fma_glm_perspective_default_rh_zo, [Float; Writes 16])].

Definition fma_real : list (fundef * fundef * list param) :=
  [(glm_vec4_sign, fma.fma_glm_vec4_sign, [Reads Flt 4; Writes 4]);
   (glm_vec4_hadd, fma.fma_glm_vec4_hadd, [Reads Flt 4]);
   (glm_vec4_dot, fma.fma_glm_vec4_dot, [Reads Flt 4; Reads Flt 4]);
   (glm_vec4_norm2, fma.fma_glm_vec4_norm2, [Reads Flt 4]);
   (glm_vec4_norm, fma.fma_glm_vec4_norm, [Reads Flt 4]);
   (glm_vec4_norm_one, fma.fma_glm_vec4_norm_one, [Reads Flt 4]);
   (glm_vec4_scale_as, fma.fma_glm_vec4_scale_as, [Reads Flt 4; Float; Writes 4]);
   (glm_vec4_divs, fma.fma_glm_vec4_divs, [Reads Flt 4; Float; Writes 4]);
   (glm_vec4_muladd, fma.fma_glm_vec4_muladd, [Reads Flt 4; Reads Flt 4; Updates Flt 4]);
   (glm_vec4_muladds, fma.fma_glm_vec4_muladds, [Reads Flt 4; Float; Updates Flt 4]);
   (glm_vec4_maxadd, fma.fma_glm_vec4_maxadd, [Reads Flt 4; Reads Flt 4; Updates Flt 4]);
   (glm_vec4_minadd, fma.fma_glm_vec4_minadd, [Reads Flt 4; Reads Flt 4; Updates Flt 4]);
   (glm_vec4_mulsub, fma.fma_glm_vec4_mulsub, [Reads Flt 4; Reads Flt 4; Updates Flt 4]);
   (glm_vec4_mulsubs, fma.fma_glm_vec4_mulsubs, [Reads Flt 4; Float; Updates Flt 4]);
   (glm_vec4_maxsub, fma.fma_glm_vec4_maxsub, [Reads Flt 4; Reads Flt 4; Updates Flt 4]);
   (glm_vec4_minsub, fma.fma_glm_vec4_minsub, [Reads Flt 4; Reads Flt 4; Updates Flt 4]);
   (glm_vec4_distance, fma.fma_glm_vec4_distance, [Reads Flt 4; Reads Flt 4]);
   (glm_vec4_distance2, fma.fma_glm_vec4_distance2, [Reads Flt 4; Reads Flt 4]);
   (glm_vec4_maxv, fma.fma_glm_vec4_maxv, [Reads Flt 4; Reads Flt 4; Writes 4]);
   (glm_vec4_minv, fma.fma_glm_vec4_minv, [Reads Flt 4; Reads Flt 4; Writes 4]);
   (glm_vec4_lerpc, fma.fma_glm_vec4_lerpc, [Reads Flt 4; Reads Flt 4; Float; Writes 4]);
   (glm_vec4_mixc, fma.fma_glm_vec4_mixc, [Reads Flt 4; Reads Flt 4; Float; Writes 4]);
   (glm_vec4_smoothinterpc, fma.fma_glm_vec4_smoothinterpc, [Reads Flt 4; Reads Flt 4; Float; Writes 4]);
   (glm_vec4_reflect, fma.fma_glm_vec4_reflect, [Reads Flt 4; Reads Flt 4; Writes 4]);
   (glm_vec4_refract, fma.fma_glm_vec4_refract, [Reads Flt 4; Reads Flt 4; Float; Writes 4]);
   (glm_mat4_mul, fma.fma_glm_mat4_mul, [Reads Flt 16; Reads Flt 16; Writes 16]);
   (glm_mat4_mulv, fma.fma_glm_mat4_mulv, [Reads Flt 16; Reads Flt 4; Writes 4]);
   (glm_mat4_mulv3, fma.fma_glm_mat4_mulv3, [Reads Flt 16; Reads Flt 3; Float; Writes 3]);
   (glm_mat4_transpose_to, fma.fma_glm_mat4_transpose_to, [Apart Flt 16; Writes 16]);
   (glm_mat4_det, fma.fma_glm_mat4_det, [Reads Flt 16]);
   (glm_mat4_inv, fma.fma_glm_mat4_inv, [Reads Flt 16; Writes 16]);
   (glm_mat4_inv_fast, fma.fma_glm_mat4_inv_fast, [Reads Flt 16; Writes 16]);
   (glm_mat4_rmc, fma.fma_glm_mat4_rmc, [Reads Flt 4; Reads Flt 16; Reads Flt 4]);
   (glm_mat3_mul, fma.fma_glm_mat3_mul, [Reads Flt 9; Reads Flt 9; Writes 9]);
   (glm_mat2_mul, fma.fma_glm_mat2_mul, [Reads Flt 4; Reads Flt 4; Writes 4]);
   (glm_mat2_transpose_to, fma.fma_glm_mat2_transpose_to, [Apart Flt 4; Writes 4]);
   (glm_mul_rot, fma.fma_glm_mul_rot, [Reads Flt 16; Reads Flt 16; Writes 16]);
   (glm_translate, fma.fma_glm_translate, [Updates Flt 16; Reads Flt 3]);
   (glm_translate_to, fma.fma_glm_translate_to, [Reads Flt 16; Reads Flt 3; Writes 16]);
   (glm_translate_x, fma.fma_glm_translate_x, [Updates Flt 16; Float]);
   (glm_translate_y, fma.fma_glm_translate_y, [Updates Flt 16; Float]);
   (glm_translate_z, fma.fma_glm_translate_z, [Updates Flt 16; Float]);
   (glm_rotate_x, fma.fma_glm_rotate_x, [Reads Flt 16; Float; Writes 16]);
   (glm_rotate_y, fma.fma_glm_rotate_y, [Reads Flt 16; Float; Writes 16]);
   (glm_rotate_z, fma.fma_glm_rotate_z, [Reads Flt 16; Float; Writes 16]);
   (glm_rotate, fma.fma_glm_rotate, [Updates Flt 16; Float; Reads Flt 3]);
   (glm_rotate_at, fma.fma_glm_rotate_at, [Updates Flt 16; Reads Flt 3; Float; Reads Flt 3]);
   (glm_rotate_atm, fma.fma_glm_rotate_atm, [Writes 16; Reads Flt 3; Float; Reads Flt 3]);
   (glm_spin, fma.fma_glm_spin, [Updates Flt 16; Float; Reads Flt 3]);
   (glm_rotated_x, fma.fma_glm_rotated_x, [Reads Flt 16; Float; Writes 16]);
   (glm_rotated_y, fma.fma_glm_rotated_y, [Reads Flt 16; Float; Writes 16]);
   (glm_rotated_z, fma.fma_glm_rotated_z, [Reads Flt 16; Float; Writes 16]);
   (glm_rotated, fma.fma_glm_rotated, [Updates Flt 16; Float; Reads Flt 3]);
   (glm_rotated_at, fma.fma_glm_rotated_at, [Updates Flt 16; Reads Flt 3; Float; Reads Flt 3]);
   (glm_spinned, fma.fma_glm_spinned, [Updates Flt 16; Float; Reads Flt 3]);
   (glm_frustum_corners, fma.fma_glm_frustum_corners, [Reads Flt 16; Writes 32]);
   (glm_frustum_box, fma.fma_glm_frustum_box, [Reads Flt 32; Reads Flt 16; Writes 6]);
   (glm_frustum_corners_at, fma.fma_glm_frustum_corners_at, [Reads Flt 32; Float; Float; Writes 16]);
   (glm_quat_normalize_to, fma.fma_glm_quat_normalize_to, [Reads Flt 4; Writes 4]);
   (glm_quat_normalize, fma.fma_glm_quat_normalize, [Updates Flt 4]);
   (glm_quat_from_vecs, fma.fma_glm_quat_from_vecs, [Reads Flt 3; Reads Flt 3; Writes 4]);
   (glm_quat_norm, fma.fma_glm_quat_norm, [Reads Flt 4]);
   (glm_quat_dot, fma.fma_glm_quat_dot, [Reads Flt 4; Reads Flt 4]);
   (glm_quat_inv, fma.fma_glm_quat_inv, [Reads Flt 4; Writes 4]);
   (glm_quat_mul, fma.fma_glm_quat_mul, [Apart Flt 4; Apart Flt 4; Writes 4]);
   (glm_quat_mat4, fma.fma_glm_quat_mat4, [Reads Flt 4; Writes 16]);
   (glm_quat_mat4t, fma.fma_glm_quat_mat4t, [Reads Flt 4; Writes 16]);
   (glm_quat_mat3, fma.fma_glm_quat_mat3, [Reads Flt 4; Writes 9]);
   (glm_quat_mat3t, fma.fma_glm_quat_mat3t, [Reads Flt 4; Writes 9]);
   (glm_quat_lerpc, fma.fma_glm_quat_lerpc, [Reads Flt 4; Reads Flt 4; Float; Writes 4]);
   (glm_quat_nlerp, fma.fma_glm_quat_nlerp, [Reads Flt 4; Reads Flt 4; Float; Writes 4]);
   (glm_quat_slerp, fma.fma_glm_quat_slerp, [Reads Flt 4; Reads Flt 4; Float; Writes 4]);
   (glm_quat_slerp_longest, fma.fma_glm_quat_slerp_longest, [Reads Flt 4; Reads Flt 4; Float; Writes 4]);
   (glm_quat_look, fma.fma_glm_quat_look, [Reads Flt 3; Reads Flt 4; Writes 16]);
   (glm_quat_rotatev, fma.fma_glm_quat_rotatev, [Reads Flt 4; Reads Flt 3; Writes 3]);
   (glm_quat_rotate, fma.fma_glm_quat_rotate, [Reads Flt 16; Reads Flt 4; Writes 16]);
   (glm_quat_rotate_at, fma.fma_glm_quat_rotate_at, [Updates Flt 16; Reads Flt 4; Reads Flt 3]);
   (glm_quat_rotate_atm, fma.fma_glm_quat_rotate_atm, [Writes 16; Reads Flt 4; Reads Flt 3]);
   (glm_unprojecti_no, fma.fma_glm_unprojecti_no, [Reads Flt 3; Reads Flt 16; Reads Flt 4; Writes 3]);
   (glm_project_no, fma.fma_glm_project_no, [Reads Flt 3; Reads Flt 16; Reads Flt 4; Writes 3]);
   (glm_unprojecti, fma.fma_glm_unprojecti, [Reads Flt 3; Reads Flt 16; Reads Flt 4; Writes 3]);
   (glm_unproject, fma.fma_glm_unproject, [Reads Flt 3; Reads Flt 16; Reads Flt 4; Writes 3]);
   (glm_project, fma.fma_glm_project, [Reads Flt 3; Reads Flt 16; Reads Flt 4; Writes 3]);
   (glm_sphere_transform, fma.fma_glm_sphere_transform, [Reads Flt 4; Reads Flt 16; Writes 4]);
   (glm_smc, fma.fma_glm_smc, [Float; Reads Flt 16; Reads Flt 4]);
   (glm_unprojecti_zo, fma.fma_glm_unprojecti_zo, [Reads Flt 3; Reads Flt 16; Reads Flt 4; Writes 3]);
   (glm_project_zo, fma.fma_glm_project_zo, [Reads Flt 3; Reads Flt 16; Reads Flt 4; Writes 3])].

Definition neon_exact : list (fundef * fundef * list param) :=
  [(glm_vec4_abs, neon.neon_glm_vec4_abs, [Reads Flt 4; Writes 4]);
   (glm_vec4_copy, neon.neon_glm_vec4_copy, [Reads Flt 4; Writes 4]);
   (glm_vec4_zero, neon.neon_glm_vec4_zero, [Updates Flt 4]);
   (glm_vec4_one, neon.neon_glm_vec4_one, [Updates Flt 4]);
   (glm_vec4_add, neon.neon_glm_vec4_add, [Reads Flt 4; Reads Flt 4; Writes 4]);
   (glm_vec4_adds, neon.neon_glm_vec4_adds, [Reads Flt 4; Float; Writes 4]);
   (glm_vec4_sub, neon.neon_glm_vec4_sub, [Reads Flt 4; Reads Flt 4; Writes 4]);
   (glm_vec4_subs, neon.neon_glm_vec4_subs, [Reads Flt 4; Float; Writes 4]);
   (glm_vec4_mul, neon.neon_glm_vec4_mul, [Reads Flt 4; Reads Flt 4; Writes 4]);
   (glm_vec4_scale, neon.neon_glm_vec4_scale, [Reads Flt 4; Float; Writes 4]);
   (glm_vec4_div, neon.neon_glm_vec4_div, [Reads Flt 4; Reads Flt 4; Writes 4]);
   (glm_vec4_addadd, neon.neon_glm_vec4_addadd, [Reads Flt 4; Reads Flt 4; Updates Flt 4]);
   (glm_vec4_subadd, neon.neon_glm_vec4_subadd, [Reads Flt 4; Reads Flt 4; Updates Flt 4]);
   (glm_vec4_subsub, neon.neon_glm_vec4_subsub, [Reads Flt 4; Reads Flt 4; Updates Flt 4]);
   (glm_vec4_addsub, neon.neon_glm_vec4_addsub, [Reads Flt 4; Reads Flt 4; Updates Flt 4]);
   (glm_vec4_negate_to, neon.neon_glm_vec4_negate_to, [Reads Flt 4; Writes 4]);
   (glm_vec4_negate, neon.neon_glm_vec4_negate, [Updates Flt 4]);
   (glm_vec4_lerp, neon.neon_glm_vec4_lerp, [Reads Flt 4; Reads Flt 4; Float; Writes 4]);
   (glm_vec4_lerpc, neon.neon_glm_vec4_lerpc, [Reads Flt 4; Reads Flt 4; Float; Writes 4]);
   (glm_vec4_mix, neon.neon_glm_vec4_mix, [Reads Flt 4; Reads Flt 4; Float; Writes 4]);
   (glm_vec4_mixc, neon.neon_glm_vec4_mixc, [Reads Flt 4; Reads Flt 4; Float; Writes 4]);
   (glm_vec4_smoothinterp, neon.neon_glm_vec4_smoothinterp, [Reads Flt 4; Reads Flt 4; Float; Writes 4]);
   (glm_vec4_smoothinterpc, neon.neon_glm_vec4_smoothinterpc, [Reads Flt 4; Reads Flt 4; Float; Writes 4]);
   (glm_vec4_swizzle, neon.neon_glm_vec4_swizzle, [Reads Flt 4; Index 256; Writes 4]);
   (glm_mat4_copy, neon.neon_glm_mat4_copy, [Reads Flt 16; Writes 16]);
   (glm_mat4_identity, neon.neon_glm_mat4_identity, [Updates Flt 16]);
   (glm_mat4_zero, neon.neon_glm_mat4_zero, [Updates Flt 16]);
   (glm_mat4_mulv, neon.neon_glm_mat4_mulv, [Reads Flt 16; Reads Flt 4; Writes 4]);
   (glm_mat4_mulv3, neon.neon_glm_mat4_mulv3, [Reads Flt 16; Reads Flt 3; Float; Writes 3]);
   (glm_mat4_transpose, neon.neon_glm_mat4_transpose, [Updates Flt 16]);
   (glm_mat4_scale, neon.neon_glm_mat4_scale, [Updates Flt 16; Float]);
   (glm_mat4_swap_col, neon.neon_glm_mat4_swap_col, [Updates Flt 16; Index 4; Index 4]);
   (glm_mat4_textrans, neon.neon_glm_mat4_textrans, [Float; Float; Float; Float; Float; Writes 16]);
   (glm_mat2_scale, neon.neon_glm_mat2_scale, [Updates Flt 4; Float]);
   (glm_translate_make, neon.neon_glm_translate_make, [Writes 16; Reads Flt 3]);
   (glm_scale_to, neon.neon_glm_scale_to, [Reads Flt 16; Reads Flt 3; Writes 16]);
   (glm_scale_make, neon.neon_glm_scale_make, [Writes 16; Reads Flt 3]);
   (glm_scale, neon.neon_glm_scale, [Updates Flt 16; Reads Flt 3]);
   (glm_scale_uni, neon.neon_glm_scale_uni, [Updates Flt 16; Float]);
   (glm_decompose_rs, neon.neon_glm_decompose_rs, [Reads Flt 16; Writes 16; Writes 3]);
   (glm_decompose, neon.neon_glm_decompose, [Reads Flt 16; Writes 4; Writes 16; Writes 3]);
   (glm_translated_to, neon.neon_glm_translated_to, [Reads Flt 16; Reads Flt 3; Writes 16]);
   (glm_plane_normalize, neon.neon_glm_plane_normalize, [Updates Flt 4]);
   (glm_ortho_rh_no, neon.neon_glm_ortho_rh_no, [Float; Float; Float; Float; Float; Float; Writes 16]);
   (glm_ortho_aabb_rh_no, neon.neon_glm_ortho_aabb_rh_no, [Reads Flt 6; Writes 16]);
   (glm_ortho_aabb_p_rh_no, neon.neon_glm_ortho_aabb_p_rh_no, [Reads Flt 6; Float; Writes 16]);
   (glm_ortho_aabb_pz_rh_no, neon.neon_glm_ortho_aabb_pz_rh_no, [Reads Flt 6; Float; Writes 16]);
   (glm_ortho_default_rh_no, neon.neon_glm_ortho_default_rh_no, [Float; Writes 16]);
   (glm_ortho_default_s_rh_no, neon.neon_glm_ortho_default_s_rh_no, [Float; Float; Writes 16]);
   (glm_frustum_rh_no, neon.neon_glm_frustum_rh_no, [Float; Float; Float; Float; Float; Float; Writes 16]);
   (glm_perspective_rh_no, neon.neon_glm_perspective_rh_no, [Float; Float; Float; Float; Writes 16]);
   (glm_perspective_default_rh_no, neon.neon_glm_perspective_default_rh_no, [Float; Writes 16]);
   (glm_frustum, neon.neon_glm_frustum, [Float; Float; Float; Float; Float; Float; Writes 16]);
   (glm_ortho, neon.neon_glm_ortho, [Float; Float; Float; Float; Float; Float; Writes 16]);
   (glm_ortho_aabb, neon.neon_glm_ortho_aabb, [Reads Flt 6; Writes 16]);
   (glm_ortho_aabb_p, neon.neon_glm_ortho_aabb_p, [Reads Flt 6; Float; Writes 16]);
   (glm_ortho_aabb_pz, neon.neon_glm_ortho_aabb_pz, [Reads Flt 6; Float; Writes 16]);
   (glm_ortho_default, neon.neon_glm_ortho_default, [Float; Writes 16]);
   (glm_ortho_default_s, neon.neon_glm_ortho_default_s, [Float; Float; Writes 16]);
   (glm_perspective, neon.neon_glm_perspective, [Float; Float; Float; Float; Writes 16]);
   (glm_perspective_default, neon.neon_glm_perspective_default, [Float; Writes 16]);
   (glm_frustum_planes, neon.neon_glm_frustum_planes, [Reads Flt 16; Writes 24]);
   (glm_frustum_corners, neon.neon_glm_frustum_corners, [Reads Flt 16; Writes 32]);
   (glm_frustum_center, neon.neon_glm_frustum_center, [Reads Flt 32; Writes 4]);
   (glm_frustum_box, neon.neon_glm_frustum_box, [Reads Flt 32; Reads Flt 16; Writes 6]);
   (glm_quat_identity, neon.neon_glm_quat_identity, [Updates Flt 4]);
   (glm_quat_copy, neon.neon_glm_quat_copy, [Reads Flt 4; Writes 4]);
   (glm_quat_conjugate, neon.neon_glm_quat_conjugate, [Reads Flt 4; Writes 4]);
   (glm_quat_add, neon.neon_glm_quat_add, [Reads Flt 4; Reads Flt 4; Writes 4]);
   (glm_quat_sub, neon.neon_glm_quat_sub, [Reads Flt 4; Reads Flt 4; Writes 4]);
   (glm_quat_lerp, neon.neon_glm_quat_lerp, [Reads Flt 4; Reads Flt 4; Float; Writes 4]);
   (glm_quat_lerpc, neon.neon_glm_quat_lerpc, [Reads Flt 4; Reads Flt 4; Float; Writes 4]);
   (glm_project_no, neon.neon_glm_project_no, [Reads Flt 3; Reads Flt 16; Reads Flt 4; Writes 3]);
   (glm_project, neon.neon_glm_project, [Reads Flt 3; Reads Flt 16; Reads Flt 4; Writes 3]);
   (glm_pickmatrix, neon.neon_glm_pickmatrix, [Reads Flt 2; Reads Flt 2; Reads Flt 4; Writes 16]);
   (glm_sphere_transform, neon.neon_glm_sphere_transform, [Reads Flt 4; Reads Flt 16; Writes 4]);
   (glm_ortho_lh_no, neon.neon_glm_ortho_lh_no, [Float; Float; Float; Float; Float; Float; Writes 16]);
   (glm_ortho_aabb_lh_no, neon.neon_glm_ortho_aabb_lh_no, [Reads Flt 6; Writes 16]);
   (glm_ortho_aabb_p_lh_no, neon.neon_glm_ortho_aabb_p_lh_no, [Reads Flt 6; Float; Writes 16]);
   (glm_ortho_aabb_pz_lh_no, neon.neon_glm_ortho_aabb_pz_lh_no, [Reads Flt 6; Float; Writes 16]);
   (glm_ortho_default_lh_no, neon.neon_glm_ortho_default_lh_no, [Float; Writes 16]);
   (glm_ortho_default_s_lh_no, neon.neon_glm_ortho_default_s_lh_no, [Float; Float; Writes 16]);
   (glm_ortho_lh_zo, neon.neon_glm_ortho_lh_zo, [Float; Float; Float; Float; Float; Float; Writes 16]);
   (glm_ortho_aabb_lh_zo, neon.neon_glm_ortho_aabb_lh_zo, [Reads Flt 6; Writes 16]);
   (glm_ortho_aabb_p_lh_zo, neon.neon_glm_ortho_aabb_p_lh_zo, [Reads Flt 6; Float; Writes 16]);
   (glm_ortho_aabb_pz_lh_zo, neon.neon_glm_ortho_aabb_pz_lh_zo, [Reads Flt 6; Float; Writes 16]);
   (glm_ortho_default_lh_zo, neon.neon_glm_ortho_default_lh_zo, [Float; Writes 16]);
   (glm_ortho_default_s_lh_zo, neon.neon_glm_ortho_default_s_lh_zo, [Float; Float; Writes 16]);
   (glm_ortho_rh_zo, neon.neon_glm_ortho_rh_zo, [Float; Float; Float; Float; Float; Float; Writes 16]);
   (glm_ortho_aabb_rh_zo, neon.neon_glm_ortho_aabb_rh_zo, [Reads Flt 6; Writes 16]);
   (glm_ortho_aabb_p_rh_zo, neon.neon_glm_ortho_aabb_p_rh_zo, [Reads Flt 6; Float; Writes 16]);
   (glm_ortho_aabb_pz_rh_zo, neon.neon_glm_ortho_aabb_pz_rh_zo, [Reads Flt 6; Float; Writes 16]);
   (glm_ortho_default_rh_zo, neon.neon_glm_ortho_default_rh_zo, [Float; Writes 16]);
   (glm_ortho_default_s_rh_zo, neon.neon_glm_ortho_default_s_rh_zo, [Float; Float; Writes 16]);
   (glm_frustum_lh_no, neon.neon_glm_frustum_lh_no, [Float; Float; Float; Float; Float; Float; Writes 16]);
   (glm_perspective_lh_no, neon.neon_glm_perspective_lh_no, [Float; Float; Float; Float; Writes 16]);
   (glm_perspective_default_lh_no, neon.neon_glm_perspective_default_lh_no, [Float; Writes 16]);
   (glm_frustum_lh_zo, neon.neon_glm_frustum_lh_zo, [Float; Float; Float; Float; Float; Float; Writes 16]);
   (glm_perspective_lh_zo, neon.neon_glm_perspective_lh_zo, [Float; Float; Float; Float; Writes 16]);
   (glm_perspective_default_lh_zo, neon.neon_glm_perspective_default_lh_zo, [Float; Writes 16]);
   (glm_frustum_rh_zo, neon.neon_glm_frustum_rh_zo, [Float; Float; Float; Float; Float; Float; Writes 16]);
   (glm_perspective_rh_zo, neon.neon_glm_perspective_rh_zo, [Float; Float; Float; Float; Writes 16]);
   (glm_perspective_default_rh_zo, neon.neon_glm_perspective_default_rh_zo, [Float; Writes 16]);
   (glm_unprojecti_zo, neon.neon_glm_unprojecti_zo, [Reads Flt 3; Reads Flt 16; Reads Flt 4; Writes 3]);
   (glm_project_zo, neon.neon_glm_project_zo, [Reads Flt 3; Reads Flt 16; Reads Flt 4; Writes 3])].

Definition neon_real : list (fundef * fundef * list param) :=
  [(glm_vec4_dot, neon.neon_glm_vec4_dot, [Reads Flt 4; Reads Flt 4]);
   (glm_vec4_norm2, neon.neon_glm_vec4_norm2, [Reads Flt 4]);
   (glm_vec4_norm, neon.neon_glm_vec4_norm, [Reads Flt 4]);
   (glm_vec4_norm_one, neon.neon_glm_vec4_norm_one, [Reads Flt 4]);
   (glm_vec4_scale_as, neon.neon_glm_vec4_scale_as, [Reads Flt 4; Float; Writes 4]);
   (glm_vec4_divs, neon.neon_glm_vec4_divs, [Reads Flt 4; Float; Writes 4]);
   (glm_vec4_muladd, neon.neon_glm_vec4_muladd, [Reads Flt 4; Reads Flt 4; Updates Flt 4]);
   (glm_vec4_muladds, neon.neon_glm_vec4_muladds, [Reads Flt 4; Float; Updates Flt 4]);
   (glm_vec4_maxadd, neon.neon_glm_vec4_maxadd, [Reads Flt 4; Reads Flt 4; Updates Flt 4]);
   (glm_vec4_minadd, neon.neon_glm_vec4_minadd, [Reads Flt 4; Reads Flt 4; Updates Flt 4]);
   (glm_vec4_mulsub, neon.neon_glm_vec4_mulsub, [Reads Flt 4; Reads Flt 4; Updates Flt 4]);
   (glm_vec4_mulsubs, neon.neon_glm_vec4_mulsubs, [Reads Flt 4; Float; Updates Flt 4]);
   (glm_vec4_maxsub, neon.neon_glm_vec4_maxsub, [Reads Flt 4; Reads Flt 4; Updates Flt 4]);
   (glm_vec4_minsub, neon.neon_glm_vec4_minsub, [Reads Flt 4; Reads Flt 4; Updates Flt 4]);
   (glm_vec4_normalize_to, neon.neon_glm_vec4_normalize_to, [Reads Flt 4; Writes 4]);
   (glm_vec4_normalize, neon.neon_glm_vec4_normalize, [Updates Flt 4]);
   (glm_vec4_distance, neon.neon_glm_vec4_distance, [Reads Flt 4; Reads Flt 4]);
   (glm_vec4_distance2, neon.neon_glm_vec4_distance2, [Reads Flt 4; Reads Flt 4]);
   (glm_vec4_maxv, neon.neon_glm_vec4_maxv, [Reads Flt 4; Reads Flt 4; Writes 4]);
   (glm_vec4_minv, neon.neon_glm_vec4_minv, [Reads Flt 4; Reads Flt 4; Writes 4]);
   (glm_vec4_clamp, neon.neon_glm_vec4_clamp, [Updates Flt 4; Float; Float]);
   (glm_vec4_reflect, neon.neon_glm_vec4_reflect, [Reads Flt 4; Reads Flt 4; Writes 4]);
   (glm_vec4_refract, neon.neon_glm_vec4_refract, [Reads Flt 4; Reads Flt 4; Float; Writes 4]);
   (glm_vec3_rotate_m4, neon.neon_glm_vec3_rotate_m4, [Reads Flt 16; Reads Flt 3; Writes 3]);
   (glm_vec3_rotate_m3, neon.neon_glm_vec3_rotate_m3, [Reads Flt 9; Reads Flt 3; Writes 3]);
   (glm_mat4_mul, neon.neon_glm_mat4_mul, [Reads Flt 16; Reads Flt 16; Writes 16]);
   (glm_mat4_transpose_to, neon.neon_glm_mat4_transpose_to, [Apart Flt 16; Writes 16]);
   (glm_mat4_det, neon.neon_glm_mat4_det, [Reads Flt 16]);
   (glm_mat4_inv, neon.neon_glm_mat4_inv, [Reads Flt 16; Writes 16]);
   (glm_mat4_inv_fast, neon.neon_glm_mat4_inv_fast, [Reads Flt 16; Writes 16]);
   (glm_mat4_rmc, neon.neon_glm_mat4_rmc, [Reads Flt 4; Reads Flt 16; Reads Flt 4]);
   (glm_mat2_mul, neon.neon_glm_mat2_mul, [Reads Flt 4; Reads Flt 4; Writes 4]);
   (glm_mul, neon.neon_glm_mul, [Reads Flt 16; Reads Flt 16; Writes 16]);
   (glm_mul_rot, neon.neon_glm_mul_rot, [Reads Flt 16; Reads Flt 16; Writes 16]);
   (glm_translate, neon.neon_glm_translate, [Updates Flt 16; Reads Flt 3]);
   (glm_translate_to, neon.neon_glm_translate_to, [Reads Flt 16; Reads Flt 3; Writes 16]);
   (glm_translate_x, neon.neon_glm_translate_x, [Updates Flt 16; Float]);
   (glm_translate_y, neon.neon_glm_translate_y, [Updates Flt 16; Float]);
   (glm_translate_z, neon.neon_glm_translate_z, [Updates Flt 16; Float]);
   (glm_rotate_x, neon.neon_glm_rotate_x, [Reads Flt 16; Float; Writes 16]);
   (glm_rotate_y, neon.neon_glm_rotate_y, [Reads Flt 16; Float; Writes 16]);
   (glm_rotate_z, neon.neon_glm_rotate_z, [Reads Flt 16; Float; Writes 16]);
   (glm_rotate, neon.neon_glm_rotate, [Updates Flt 16; Float; Reads Flt 3]);
   (glm_rotate_at, neon.neon_glm_rotate_at, [Updates Flt 16; Reads Flt 3; Float; Reads Flt 3]);
   (glm_rotate_atm, neon.neon_glm_rotate_atm, [Writes 16; Reads Flt 3; Float; Reads Flt 3]);
   (glm_spin, neon.neon_glm_spin, [Updates Flt 16; Float; Reads Flt 3]);
   (glm_rotated_x, neon.neon_glm_rotated_x, [Reads Flt 16; Float; Writes 16]);
   (glm_rotated_y, neon.neon_glm_rotated_y, [Reads Flt 16; Float; Writes 16]);
   (glm_rotated_z, neon.neon_glm_rotated_z, [Reads Flt 16; Float; Writes 16]);
   (glm_rotated, neon.neon_glm_rotated, [Updates Flt 16; Float; Reads Flt 3]);
   (glm_rotated_at, neon.neon_glm_rotated_at, [Updates Flt 16; Reads Flt 3; Float; Reads Flt 3]);
   (glm_spinned, neon.neon_glm_spinned, [Updates Flt 16; Float; Reads Flt 3]);
   (glm_frustum_corners_at, neon.neon_glm_frustum_corners_at, [Reads Flt 32; Float; Float; Writes 16]);
   (glm_quat_normalize_to, neon.neon_glm_quat_normalize_to, [Reads Flt 4; Writes 4]);
   (glm_quat_normalize, neon.neon_glm_quat_normalize, [Updates Flt 4]);
   (glm_quat_from_vecs, neon.neon_glm_quat_from_vecs, [Reads Flt 3; Reads Flt 3; Writes 4]);
   (glm_quat_norm, neon.neon_glm_quat_norm, [Reads Flt 4]);
   (glm_quat_dot, neon.neon_glm_quat_dot, [Reads Flt 4; Reads Flt 4]);
   (glm_quat_inv, neon.neon_glm_quat_inv, [Reads Flt 4; Writes 4]);
   (glm_quat_mul, neon.neon_glm_quat_mul, [Apart Flt 4; Apart Flt 4; Writes 4]);
   (glm_quat_mat4, neon.neon_glm_quat_mat4, [Reads Flt 4; Writes 16]);
   (glm_quat_mat4t, neon.neon_glm_quat_mat4t, [Reads Flt 4; Writes 16]);
   (glm_quat_mat3, neon.neon_glm_quat_mat3, [Reads Flt 4; Writes 9]);
   (glm_quat_mat3t, neon.neon_glm_quat_mat3t, [Reads Flt 4; Writes 9]);
   (glm_quat_nlerp, neon.neon_glm_quat_nlerp, [Reads Flt 4; Reads Flt 4; Float; Writes 4]);
   (glm_quat_slerp, neon.neon_glm_quat_slerp, [Reads Flt 4; Reads Flt 4; Float; Writes 4]);
   (glm_quat_slerp_longest, neon.neon_glm_quat_slerp_longest, [Reads Flt 4; Reads Flt 4; Float; Writes 4]);
   (glm_quat_look, neon.neon_glm_quat_look, [Reads Flt 3; Reads Flt 4; Writes 16]);
   (glm_quat_rotatev, neon.neon_glm_quat_rotatev, [Reads Flt 4; Reads Flt 3; Writes 3]);
   (glm_quat_rotate, neon.neon_glm_quat_rotate, [Reads Flt 16; Reads Flt 4; Writes 16]);
   (glm_quat_rotate_at, neon.neon_glm_quat_rotate_at, [Updates Flt 16; Reads Flt 4; Reads Flt 3]);
   (glm_quat_rotate_atm, neon.neon_glm_quat_rotate_atm, [Writes 16; Reads Flt 4; Reads Flt 3]);
   (glm_unprojecti_no, neon.neon_glm_unprojecti_no, [Reads Flt 3; Reads Flt 16; Reads Flt 4; Writes 3]);
   (glm_unprojecti, neon.neon_glm_unprojecti, [Reads Flt 3; Reads Flt 16; Reads Flt 4; Writes 3]);
   (glm_unproject, neon.neon_glm_unproject, [Reads Flt 3; Reads Flt 16; Reads Flt 4; Writes 3]);
   (glm_smc, neon.neon_glm_smc, [Float; Reads Flt 16; Reads Flt 4])].

Definition neon32_exact : list (fundef * fundef * list param) :=
  [(glm_vec4_abs, neon32.neon32_glm_vec4_abs, [Reads Flt 4; Writes 4]);
   (glm_vec4_copy, neon32.neon32_glm_vec4_copy, [Reads Flt 4; Writes 4]);
   (glm_vec4_zero, neon32.neon32_glm_vec4_zero, [Updates Flt 4]);
   (glm_vec4_one, neon32.neon32_glm_vec4_one, [Updates Flt 4]);
   (glm_vec4_add, neon32.neon32_glm_vec4_add, [Reads Flt 4; Reads Flt 4; Writes 4]);
   (glm_vec4_adds, neon32.neon32_glm_vec4_adds, [Reads Flt 4; Float; Writes 4]);
   (glm_vec4_sub, neon32.neon32_glm_vec4_sub, [Reads Flt 4; Reads Flt 4; Writes 4]);
   (glm_vec4_subs, neon32.neon32_glm_vec4_subs, [Reads Flt 4; Float; Writes 4]);
   (glm_vec4_mul, neon32.neon32_glm_vec4_mul, [Reads Flt 4; Reads Flt 4; Writes 4]);
   (glm_vec4_scale, neon32.neon32_glm_vec4_scale, [Reads Flt 4; Float; Writes 4]);
   (glm_vec4_addadd, neon32.neon32_glm_vec4_addadd, [Reads Flt 4; Reads Flt 4; Updates Flt 4]);
   (glm_vec4_subadd, neon32.neon32_glm_vec4_subadd, [Reads Flt 4; Reads Flt 4; Updates Flt 4]);
   (glm_vec4_muladd, neon32.neon32_glm_vec4_muladd, [Reads Flt 4; Reads Flt 4; Updates Flt 4]);
   (glm_vec4_muladds, neon32.neon32_glm_vec4_muladds, [Reads Flt 4; Float; Updates Flt 4]);
   (glm_vec4_subsub, neon32.neon32_glm_vec4_subsub, [Reads Flt 4; Reads Flt 4; Updates Flt 4]);
   (glm_vec4_addsub, neon32.neon32_glm_vec4_addsub, [Reads Flt 4; Reads Flt 4; Updates Flt 4]);
   (glm_vec4_mulsub, neon32.neon32_glm_vec4_mulsub, [Reads Flt 4; Reads Flt 4; Updates Flt 4]);
   (glm_vec4_mulsubs, neon32.neon32_glm_vec4_mulsubs, [Reads Flt 4; Float; Updates Flt 4]);
   (glm_vec4_negate_to, neon32.neon32_glm_vec4_negate_to, [Reads Flt 4; Writes 4]);
   (glm_vec4_negate, neon32.neon32_glm_vec4_negate, [Updates Flt 4]);
   (glm_vec4_lerp, neon32.neon32_glm_vec4_lerp, [Reads Flt 4; Reads Flt 4; Float; Writes 4]);
   (glm_vec4_lerpc, neon32.neon32_glm_vec4_lerpc, [Reads Flt 4; Reads Flt 4; Float; Writes 4]);
   (glm_vec4_mix, neon32.neon32_glm_vec4_mix, [Reads Flt 4; Reads Flt 4; Float; Writes 4]);
   (glm_vec4_mixc, neon32.neon32_glm_vec4_mixc, [Reads Flt 4; Reads Flt 4; Float; Writes 4]);
   (glm_vec4_smoothinterp, neon32.neon32_glm_vec4_smoothinterp, [Reads Flt 4; Reads Flt 4; Float; Writes 4]);
   (glm_vec4_smoothinterpc, neon32.neon32_glm_vec4_smoothinterpc, [Reads Flt 4; Reads Flt 4; Float; Writes 4]);
   (glm_vec4_swizzle, neon32.neon32_glm_vec4_swizzle, [Reads Flt 4; Index 256; Writes 4]);
   (glm_mat4_copy, neon32.neon32_glm_mat4_copy, [Reads Flt 16; Writes 16]);
   (glm_mat4_identity, neon32.neon32_glm_mat4_identity, [Updates Flt 16]);
   (glm_mat4_zero, neon32.neon32_glm_mat4_zero, [Updates Flt 16]);
   (glm_mat4_mulv, neon32.neon32_glm_mat4_mulv, [Reads Flt 16; Reads Flt 4; Writes 4]);
   (glm_mat4_mulv3, neon32.neon32_glm_mat4_mulv3, [Reads Flt 16; Reads Flt 3; Float; Writes 3]);
   (glm_mat4_transpose, neon32.neon32_glm_mat4_transpose, [Updates Flt 16]);
   (glm_mat4_scale, neon32.neon32_glm_mat4_scale, [Updates Flt 16; Float]);
   (glm_mat4_swap_col, neon32.neon32_glm_mat4_swap_col, [Updates Flt 16; Index 4; Index 4]);
   (glm_mat4_textrans, neon32.neon32_glm_mat4_textrans, [Float; Float; Float; Float; Float; Writes 16]);
   (glm_mat2_scale, neon32.neon32_glm_mat2_scale, [Updates Flt 4; Float]);
   (glm_translate_make, neon32.neon32_glm_translate_make, [Writes 16; Reads Flt 3]);
   (glm_scale_to, neon32.neon32_glm_scale_to, [Reads Flt 16; Reads Flt 3; Writes 16]);
   (glm_scale_make, neon32.neon32_glm_scale_make, [Writes 16; Reads Flt 3]);
   (glm_scale, neon32.neon32_glm_scale, [Updates Flt 16; Reads Flt 3]);
   (glm_scale_uni, neon32.neon32_glm_scale_uni, [Updates Flt 16; Float]);
   (glm_decompose_rs, neon32.neon32_glm_decompose_rs, [Reads Flt 16; Writes 16; Writes 3]);
   (glm_decompose, neon32.neon32_glm_decompose, [Reads Flt 16; Writes 4; Writes 16; Writes 3]);
   (glm_translated_to, neon32.neon32_glm_translated_to, [Reads Flt 16; Reads Flt 3; Writes 16]);
   (glm_plane_normalize, neon32.neon32_glm_plane_normalize, [Updates Flt 4]);
   (glm_ortho_rh_no, neon32.neon32_glm_ortho_rh_no, [Float; Float; Float; Float; Float; Float; Writes 16]);
   (glm_ortho_aabb_rh_no, neon32.neon32_glm_ortho_aabb_rh_no, [Reads Flt 6; Writes 16]);
   (glm_ortho_aabb_p_rh_no, neon32.neon32_glm_ortho_aabb_p_rh_no, [Reads Flt 6; Float; Writes 16]);
   (glm_ortho_aabb_pz_rh_no, neon32.neon32_glm_ortho_aabb_pz_rh_no, [Reads Flt 6; Float; Writes 16]);
   (glm_ortho_default_rh_no, neon32.neon32_glm_ortho_default_rh_no, [Float; Writes 16]);
   (glm_ortho_default_s_rh_no, neon32.neon32_glm_ortho_default_s_rh_no, [Float; Float; Writes 16]);
   (glm_frustum_rh_no, neon32.neon32_glm_frustum_rh_no, [Float; Float; Float; Float; Float; Float; Writes 16]);
   (glm_perspective_rh_no, neon32.neon32_glm_perspective_rh_no, [Float; Float; Float; Float; Writes 16]);
   (glm_perspective_default_rh_no, neon32.neon32_glm_perspective_default_rh_no, [Float; Writes 16]);
   (glm_frustum, neon32.neon32_glm_frustum, [Float; Float; Float; Float; Float; Float; Writes 16]);
   (glm_ortho, neon32.neon32_glm_ortho, [Float; Float; Float; Float; Float; Float; Writes 16]);
   (glm_ortho_aabb, neon32.neon32_glm_ortho_aabb, [Reads Flt 6; Writes 16]);
   (glm_ortho_aabb_p, neon32.neon32_glm_ortho_aabb_p, [Reads Flt 6; Float; Writes 16]);
   (glm_ortho_aabb_pz, neon32.neon32_glm_ortho_aabb_pz, [Reads Flt 6; Float; Writes 16]);
   (glm_ortho_default, neon32.neon32_glm_ortho_default, [Float; Writes 16]);
   (glm_ortho_default_s, neon32.neon32_glm_ortho_default_s, [Float; Float; Writes 16]);
   (glm_perspective, neon32.neon32_glm_perspective, [Float; Float; Float; Float; Writes 16]);
   (glm_perspective_default, neon32.neon32_glm_perspective_default, [Float; Writes 16]);
   (glm_frustum_planes, neon32.neon32_glm_frustum_planes, [Reads Flt 16; Writes 24]);
   (glm_frustum_corners, neon32.neon32_glm_frustum_corners, [Reads Flt 16; Writes 32]);
   (glm_frustum_center, neon32.neon32_glm_frustum_center, [Reads Flt 32; Writes 4]);
   (glm_frustum_box, neon32.neon32_glm_frustum_box, [Reads Flt 32; Reads Flt 16; Writes 6]);
   (glm_quat_identity, neon32.neon32_glm_quat_identity, [Updates Flt 4]);
   (glm_quat_copy, neon32.neon32_glm_quat_copy, [Reads Flt 4; Writes 4]);
   (glm_quat_conjugate, neon32.neon32_glm_quat_conjugate, [Reads Flt 4; Writes 4]);
   (glm_quat_add, neon32.neon32_glm_quat_add, [Reads Flt 4; Reads Flt 4; Writes 4]);
   (glm_quat_sub, neon32.neon32_glm_quat_sub, [Reads Flt 4; Reads Flt 4; Writes 4]);
   (glm_quat_lerp, neon32.neon32_glm_quat_lerp, [Reads Flt 4; Reads Flt 4; Float; Writes 4]);
   (glm_quat_lerpc, neon32.neon32_glm_quat_lerpc, [Reads Flt 4; Reads Flt 4; Float; Writes 4]);
   (glm_project_no, neon32.neon32_glm_project_no, [Reads Flt 3; Reads Flt 16; Reads Flt 4; Writes 3]);
   (glm_project, neon32.neon32_glm_project, [Reads Flt 3; Reads Flt 16; Reads Flt 4; Writes 3]);
   (glm_pickmatrix, neon32.neon32_glm_pickmatrix, [Reads Flt 2; Reads Flt 2; Reads Flt 4; Writes 16]);
   (glm_sphere_transform, neon32.neon32_glm_sphere_transform, [Reads Flt 4; Reads Flt 16; Writes 4]);
   (glm_ortho_lh_no, neon32.neon32_glm_ortho_lh_no, [Float; Float; Float; Float; Float; Float; Writes 16]);
   (glm_ortho_aabb_lh_no, neon32.neon32_glm_ortho_aabb_lh_no, [Reads Flt 6; Writes 16]);
   (glm_ortho_aabb_p_lh_no, neon32.neon32_glm_ortho_aabb_p_lh_no, [Reads Flt 6; Float; Writes 16]);
   (glm_ortho_aabb_pz_lh_no, neon32.neon32_glm_ortho_aabb_pz_lh_no, [Reads Flt 6; Float; Writes 16]);
   (glm_ortho_default_lh_no, neon32.neon32_glm_ortho_default_lh_no, [Float; Writes 16]);
   (glm_ortho_default_s_lh_no, neon32.neon32_glm_ortho_default_s_lh_no, [Float; Float; Writes 16]);
   (glm_ortho_lh_zo, neon32.neon32_glm_ortho_lh_zo, [Float; Float; Float; Float; Float; Float; Writes 16]);
   (glm_ortho_aabb_lh_zo, neon32.neon32_glm_ortho_aabb_lh_zo, [Reads Flt 6; Writes 16]);
   (glm_ortho_aabb_p_lh_zo, neon32.neon32_glm_ortho_aabb_p_lh_zo, [Reads Flt 6; Float; Writes 16]);
   (glm_ortho_aabb_pz_lh_zo, neon32.neon32_glm_ortho_aabb_pz_lh_zo, [Reads Flt 6; Float; Writes 16]);
   (glm_ortho_default_lh_zo, neon32.neon32_glm_ortho_default_lh_zo, [Float; Writes 16]);
   (glm_ortho_default_s_lh_zo, neon32.neon32_glm_ortho_default_s_lh_zo, [Float; Float; Writes 16]);
   (glm_ortho_rh_zo, neon32.neon32_glm_ortho_rh_zo, [Float; Float; Float; Float; Float; Float; Writes 16]);
   (glm_ortho_aabb_rh_zo, neon32.neon32_glm_ortho_aabb_rh_zo, [Reads Flt 6; Writes 16]);
   (glm_ortho_aabb_p_rh_zo, neon32.neon32_glm_ortho_aabb_p_rh_zo, [Reads Flt 6; Float; Writes 16]);
   (glm_ortho_aabb_pz_rh_zo, neon32.neon32_glm_ortho_aabb_pz_rh_zo, [Reads Flt 6; Float; Writes 16]);
   (glm_ortho_default_rh_zo, neon32.neon32_glm_ortho_default_rh_zo, [Float; Writes 16]);
   (glm_ortho_default_s_rh_zo, neon32.neon32_glm_ortho_default_s_rh_zo, [Float; Float; Writes 16]);
   (glm_frustum_lh_no, neon32.neon32_glm_frustum_lh_no, [Float; Float; Float; Float; Float; Float; Writes 16]);
   (glm_perspective_lh_no, neon32.neon32_glm_perspective_lh_no, [Float; Float; Float; Float; Writes 16]);
   (glm_perspective_default_lh_no, neon32.neon32_glm_perspective_default_lh_no, [Float; Writes 16]);
   (glm_frustum_lh_zo, neon32.neon32_glm_frustum_lh_zo, [Float; Float; Float; Float; Float; Float; Writes 16]);
   (glm_perspective_lh_zo, neon32.neon32_glm_perspective_lh_zo, [Float; Float; Float; Float; Writes 16]);
   (glm_perspective_default_lh_zo, neon32.neon32_glm_perspective_default_lh_zo, [Float; Writes 16]);
   (glm_frustum_rh_zo, neon32.neon32_glm_frustum_rh_zo, [Float; Float; Float; Float; Float; Float; Writes 16]);
   (glm_perspective_rh_zo, neon32.neon32_glm_perspective_rh_zo, [Float; Float; Float; Float; Writes 16]);
   (glm_perspective_default_rh_zo, neon32.neon32_glm_perspective_default_rh_zo, [Float; Writes 16]);
   (glm_unprojecti_zo, neon32.neon32_glm_unprojecti_zo, [Reads Flt 3; Reads Flt 16; Reads Flt 4; Writes 3]);
   (glm_project_zo, neon32.neon32_glm_project_zo, [Reads Flt 3; Reads Flt 16; Reads Flt 4; Writes 3])].

Definition neon32_real : list (fundef * fundef * list param) :=
  [(glm_vec4_dot, neon32.neon32_glm_vec4_dot, [Reads Flt 4; Reads Flt 4]);
   (glm_vec4_norm2, neon32.neon32_glm_vec4_norm2, [Reads Flt 4]);
   (glm_vec4_norm, neon32.neon32_glm_vec4_norm, [Reads Flt 4]);
   (glm_vec4_norm_one, neon32.neon32_glm_vec4_norm_one, [Reads Flt 4]);
   (glm_vec4_scale_as, neon32.neon32_glm_vec4_scale_as, [Reads Flt 4; Float; Writes 4]);
   (glm_vec4_div, neon32.neon32_glm_vec4_div, [Reads Flt 4; Reads Flt 4; Writes 4]);
   (glm_vec4_divs, neon32.neon32_glm_vec4_divs, [Reads Flt 4; Float; Writes 4]);
   (glm_vec4_maxadd, neon32.neon32_glm_vec4_maxadd, [Reads Flt 4; Reads Flt 4; Updates Flt 4]);
   (glm_vec4_minadd, neon32.neon32_glm_vec4_minadd, [Reads Flt 4; Reads Flt 4; Updates Flt 4]);
   (glm_vec4_maxsub, neon32.neon32_glm_vec4_maxsub, [Reads Flt 4; Reads Flt 4; Updates Flt 4]);
   (glm_vec4_minsub, neon32.neon32_glm_vec4_minsub, [Reads Flt 4; Reads Flt 4; Updates Flt 4]);
   (glm_vec4_normalize_to, neon32.neon32_glm_vec4_normalize_to, [Reads Flt 4; Writes 4]);
   (glm_vec4_normalize, neon32.neon32_glm_vec4_normalize, [Updates Flt 4]);
   (glm_vec4_distance, neon32.neon32_glm_vec4_distance, [Reads Flt 4; Reads Flt 4]);
   (glm_vec4_distance2, neon32.neon32_glm_vec4_distance2, [Reads Flt 4; Reads Flt 4]);
   (glm_vec4_maxv, neon32.neon32_glm_vec4_maxv, [Reads Flt 4; Reads Flt 4; Writes 4]);
   (glm_vec4_minv, neon32.neon32_glm_vec4_minv, [Reads Flt 4; Reads Flt 4; Writes 4]);
   (glm_vec4_clamp, neon32.neon32_glm_vec4_clamp, [Updates Flt 4; Float; Float]);
   (glm_vec4_reflect, neon32.neon32_glm_vec4_reflect, [Reads Flt 4; Reads Flt 4; Writes 4]);
   (glm_vec4_refract, neon32.neon32_glm_vec4_refract, [Reads Flt 4; Reads Flt 4; Float; Writes 4]);
   (glm_vec3_rotate_m4, neon32.neon32_glm_vec3_rotate_m4, [Reads Flt 16; Reads Flt 3; Writes 3]);
   (glm_vec3_rotate_m3, neon32.neon32_glm_vec3_rotate_m3, [Reads Flt 9; Reads Flt 3; Writes 3]);
   (glm_mat4_mul, neon32.neon32_glm_mat4_mul, [Reads Flt 16; Reads Flt 16; Writes 16]);
   (glm_mat4_transpose_to, neon32.neon32_glm_mat4_transpose_to, [Apart Flt 16; Writes 16]);
   (glm_mat4_det, neon32.neon32_glm_mat4_det, [Reads Flt 16]);
   (glm_mat4_inv, neon32.neon32_glm_mat4_inv, [Reads Flt 16; Writes 16]);
   (glm_mat4_inv_fast, neon32.neon32_glm_mat4_inv_fast, [Reads Flt 16; Writes 16]);
   (glm_mat4_rmc, neon32.neon32_glm_mat4_rmc, [Reads Flt 4; Reads Flt 16; Reads Flt 4]);
   (glm_mat2_mul, neon32.neon32_glm_mat2_mul, [Reads Flt 4; Reads Flt 4; Writes 4]);
   (glm_mul, neon32.neon32_glm_mul, [Reads Flt 16; Reads Flt 16; Writes 16]);
   (glm_mul_rot, neon32.neon32_glm_mul_rot, [Reads Flt 16; Reads Flt 16; Writes 16]);
   (glm_translate, neon32.neon32_glm_translate, [Updates Flt 16; Reads Flt 3]);
   (glm_translate_to, neon32.neon32_glm_translate_to, [Reads Flt 16; Reads Flt 3; Writes 16]);
   (glm_translate_x, neon32.neon32_glm_translate_x, [Updates Flt 16; Float]);
   (glm_translate_y, neon32.neon32_glm_translate_y, [Updates Flt 16; Float]);
   (glm_translate_z, neon32.neon32_glm_translate_z, [Updates Flt 16; Float]);
   (glm_rotate_x, neon32.neon32_glm_rotate_x, [Reads Flt 16; Float; Writes 16]);
   (glm_rotate_y, neon32.neon32_glm_rotate_y, [Reads Flt 16; Float; Writes 16]);
   (glm_rotate_z, neon32.neon32_glm_rotate_z, [Reads Flt 16; Float; Writes 16]);
   (glm_rotate, neon32.neon32_glm_rotate, [Updates Flt 16; Float; Reads Flt 3]);
   (glm_rotate_at, neon32.neon32_glm_rotate_at, [Updates Flt 16; Reads Flt 3; Float; Reads Flt 3]);
   (glm_rotate_atm, neon32.neon32_glm_rotate_atm, [Writes 16; Reads Flt 3; Float; Reads Flt 3]);
   (glm_spin, neon32.neon32_glm_spin, [Updates Flt 16; Float; Reads Flt 3]);
   (glm_rotated_x, neon32.neon32_glm_rotated_x, [Reads Flt 16; Float; Writes 16]);
   (glm_rotated_y, neon32.neon32_glm_rotated_y, [Reads Flt 16; Float; Writes 16]);
   (glm_rotated_z, neon32.neon32_glm_rotated_z, [Reads Flt 16; Float; Writes 16]);
   (glm_rotated, neon32.neon32_glm_rotated, [Updates Flt 16; Float; Reads Flt 3]);
   (glm_rotated_at, neon32.neon32_glm_rotated_at, [Updates Flt 16; Reads Flt 3; Float; Reads Flt 3]);
   (glm_spinned, neon32.neon32_glm_spinned, [Updates Flt 16; Float; Reads Flt 3]);
   (glm_frustum_corners_at, neon32.neon32_glm_frustum_corners_at, [Reads Flt 32; Float; Float; Writes 16]);
   (glm_quat_normalize_to, neon32.neon32_glm_quat_normalize_to, [Reads Flt 4; Writes 4]);
   (glm_quat_normalize, neon32.neon32_glm_quat_normalize, [Updates Flt 4]);
   (glm_quat_from_vecs, neon32.neon32_glm_quat_from_vecs, [Reads Flt 3; Reads Flt 3; Writes 4]);
   (glm_quat_norm, neon32.neon32_glm_quat_norm, [Reads Flt 4]);
   (glm_quat_dot, neon32.neon32_glm_quat_dot, [Reads Flt 4; Reads Flt 4]);
   (glm_quat_inv, neon32.neon32_glm_quat_inv, [Reads Flt 4; Writes 4]);
   (glm_quat_mul, neon32.neon32_glm_quat_mul, [Apart Flt 4; Apart Flt 4; Writes 4]);
   (glm_quat_mat4, neon32.neon32_glm_quat_mat4, [Reads Flt 4; Writes 16]);
   (glm_quat_mat4t, neon32.neon32_glm_quat_mat4t, [Reads Flt 4; Writes 16]);
   (glm_quat_mat3, neon32.neon32_glm_quat_mat3, [Reads Flt 4; Writes 9]);
   (glm_quat_mat3t, neon32.neon32_glm_quat_mat3t, [Reads Flt 4; Writes 9]);
   (glm_quat_nlerp, neon32.neon32_glm_quat_nlerp, [Reads Flt 4; Reads Flt 4; Float; Writes 4]);
   (glm_quat_slerp, neon32.neon32_glm_quat_slerp, [Reads Flt 4; Reads Flt 4; Float; Writes 4]);
   (glm_quat_slerp_longest, neon32.neon32_glm_quat_slerp_longest, [Reads Flt 4; Reads Flt 4; Float; Writes 4]);
   (glm_quat_look, neon32.neon32_glm_quat_look, [Reads Flt 3; Reads Flt 4; Writes 16]);
   (glm_quat_rotatev, neon32.neon32_glm_quat_rotatev, [Reads Flt 4; Reads Flt 3; Writes 3]);
   (glm_quat_rotate, neon32.neon32_glm_quat_rotate, [Reads Flt 16; Reads Flt 4; Writes 16]);
   (glm_quat_rotate_at, neon32.neon32_glm_quat_rotate_at, [Updates Flt 16; Reads Flt 4; Reads Flt 3]);
   (glm_quat_rotate_atm, neon32.neon32_glm_quat_rotate_atm, [Writes 16; Reads Flt 4; Reads Flt 3]);
   (glm_unprojecti_no, neon32.neon32_glm_unprojecti_no, [Reads Flt 3; Reads Flt 16; Reads Flt 4; Writes 3]);
   (glm_unprojecti, neon32.neon32_glm_unprojecti, [Reads Flt 3; Reads Flt 16; Reads Flt 4; Writes 3]);
   (glm_unproject, neon32.neon32_glm_unproject, [Reads Flt 3; Reads Flt 16; Reads Flt 4; Writes 3]);
   (glm_smc, neon32.neon32_glm_smc, [Float; Reads Flt 16; Reads Flt 4])].

Definition wasm_exact : list (fundef * fundef * list param) :=
  [(glm_vec4_broadcast, wasm.wasm_glm_vec4_broadcast, [Float; Writes 4]);
   (glm_vec4_fill, wasm.wasm_glm_vec4_fill, [Writes 4; Float]);
   (glm_vec4_abs, wasm.wasm_glm_vec4_abs, [Reads Flt 4; Writes 4]);
   (glm_vec4_sqrt, wasm.wasm_glm_vec4_sqrt, [Reads Flt 4; Writes 4]);
   (glm_vec4_copy, wasm.wasm_glm_vec4_copy, [Reads Flt 4; Writes 4]);
   (glm_vec4_ucopy, wasm.wasm_glm_vec4_ucopy, [Reads Flt 4; Writes 4]);
   (glm_vec4_zero, wasm.wasm_glm_vec4_zero, [Updates Flt 4]);
   (glm_vec4_one, wasm.wasm_glm_vec4_one, [Updates Flt 4]);
   (glm_vec4_add, wasm.wasm_glm_vec4_add, [Reads Flt 4; Reads Flt 4; Writes 4]);
   (glm_vec4_adds, wasm.wasm_glm_vec4_adds, [Reads Flt 4; Float; Writes 4]);
   (glm_vec4_sub, wasm.wasm_glm_vec4_sub, [Reads Flt 4; Reads Flt 4; Writes 4]);
   (glm_vec4_subs, wasm.wasm_glm_vec4_subs, [Reads Flt 4; Float; Writes 4]);
   (glm_vec4_mul, wasm.wasm_glm_vec4_mul, [Reads Flt 4; Reads Flt 4; Writes 4]);
   (glm_vec4_scale, wasm.wasm_glm_vec4_scale, [Reads Flt 4; Float; Writes 4]);
   (glm_vec4_div, wasm.wasm_glm_vec4_div, [Reads Flt 4; Reads Flt 4; Writes 4]);
   (glm_vec4_addadd, wasm.wasm_glm_vec4_addadd, [Reads Flt 4; Reads Flt 4; Updates Flt 4]);
   (glm_vec4_subadd, wasm.wasm_glm_vec4_subadd, [Reads Flt 4; Reads Flt 4; Updates Flt 4]);
   (glm_vec4_muladd, wasm.wasm_glm_vec4_muladd, [Reads Flt 4; Reads Flt 4; Updates Flt 4]);
   (glm_vec4_muladds, wasm.wasm_glm_vec4_muladds, [Reads Flt 4; Float; Updates Flt 4]);
   (glm_vec4_subsub, wasm.wasm_glm_vec4_subsub, [Reads Flt 4; Reads Flt 4; Updates Flt 4]);
   (glm_vec4_addsub, wasm.wasm_glm_vec4_addsub, [Reads Flt 4; Reads Flt 4; Updates Flt 4]);
   (glm_vec4_mulsub, wasm.wasm_glm_vec4_mulsub, [Reads Flt 4; Reads Flt 4; Updates Flt 4]);
   (glm_vec4_mulsubs, wasm.wasm_glm_vec4_mulsubs, [Reads Flt 4; Float; Updates Flt 4]);
   (glm_vec4_negate_to, wasm.wasm_glm_vec4_negate_to, [Reads Flt 4; Writes 4]);
   (glm_vec4_negate, wasm.wasm_glm_vec4_negate, [Updates Flt 4]);
   (glm_vec4_clamp, wasm.wasm_glm_vec4_clamp, [Updates Flt 4; Float; Float]);
   (glm_vec4_lerp, wasm.wasm_glm_vec4_lerp, [Reads Flt 4; Reads Flt 4; Float; Writes 4]);
   (glm_vec4_mix, wasm.wasm_glm_vec4_mix, [Reads Flt 4; Reads Flt 4; Float; Writes 4]);
   (glm_vec4_smoothinterp, wasm.wasm_glm_vec4_smoothinterp, [Reads Flt 4; Reads Flt 4; Float; Writes 4]);
   (glm_vec4_swizzle, wasm.wasm_glm_vec4_swizzle, [Reads Flt 4; Index 256; Writes 4]);
   (glm_mat4_copy, wasm.wasm_glm_mat4_copy, [Reads Flt 16; Writes 16]);
   (glm_mat4_identity, wasm.wasm_glm_mat4_identity, [Updates Flt 16]);
   (glm_mat4_zero, wasm.wasm_glm_mat4_zero, [Updates Flt 16]);
   (glm_mat4_transpose, wasm.wasm_glm_mat4_transpose, [Updates Flt 16]);
   (glm_mat4_scale, wasm.wasm_glm_mat4_scale, [Updates Flt 16; Float]);
   (glm_mat4_swap_col, wasm.wasm_glm_mat4_swap_col, [Updates Flt 16; Index 4; Index 4]);
   (glm_mat4_textrans, wasm.wasm_glm_mat4_textrans, [Float; Float; Float; Float; Float; Writes 16]);
   (glm_mat3x4_copy, wasm.wasm_glm_mat3x4_copy, [Reads Flt 12; Writes 12]);
   (glm_mat3x4_zero, wasm.wasm_glm_mat3x4_zero, [Writes 12]);
   (glm_mat2_copy, wasm.wasm_glm_mat2_copy, [Reads Flt 4; Writes 4]);
   (glm_mat2_identity, wasm.wasm_glm_mat2_identity, [Updates Flt 4]);
   (glm_mat2_zero, wasm.wasm_glm_mat2_zero, [Updates Flt 4]);
   (glm_mat2_scale, wasm.wasm_glm_mat2_scale, [Updates Flt 4; Float]);
   (glm_mat2x4_copy, wasm.wasm_glm_mat2x4_copy, [Reads Flt 8; Writes 8]);
   (glm_mat2x4_zero, wasm.wasm_glm_mat2x4_zero, [Writes 8]);
   (glm_translate_make, wasm.wasm_glm_translate_make, [Writes 16; Reads Flt 3]);
   (glm_scale_to, wasm.wasm_glm_scale_to, [Reads Flt 16; Reads Flt 3; Writes 16]);
   (glm_scale_make, wasm.wasm_glm_scale_make, [Writes 16; Reads Flt 3]);
   (glm_scale, wasm.wasm_glm_scale, [Updates Flt 16; Reads Flt 3]);
   (glm_scale_uni, wasm.wasm_glm_scale_uni, [Updates Flt 16; Float]);
   (glm_decompose_rs, wasm.wasm_glm_decompose_rs, [Reads Flt 16; Writes 16; Writes 3]);
   (glm_decompose, wasm.wasm_glm_decompose, [Reads Flt 16; Writes 4; Writes 16; Writes 3]);
   (glm_translated_to, wasm.wasm_glm_translated_to, [Reads Flt 16; Reads Flt 3; Writes 16]);
   (glm_plane_normalize, wasm.wasm_glm_plane_normalize, [Updates Flt 4]);
   (glm_ortho_rh_no, wasm.wasm_glm_ortho_rh_no, [Float; Float; Float; Float; Float; Float; Writes 16]);
   (glm_ortho_aabb_rh_no, wasm.wasm_glm_ortho_aabb_rh_no, [Reads Flt 6; Writes 16]);
   (glm_ortho_aabb_p_rh_no, wasm.wasm_glm_ortho_aabb_p_rh_no, [Reads Flt 6; Float; Writes 16]);
   (glm_ortho_aabb_pz_rh_no, wasm.wasm_glm_ortho_aabb_pz_rh_no, [Reads Flt 6; Float; Writes 16]);
   (glm_ortho_default_rh_no, wasm.wasm_glm_ortho_default_rh_no, [Float; Writes 16]);
   (glm_ortho_default_s_rh_no, wasm.wasm_glm_ortho_default_s_rh_no, [Float; Float; Writes 16]);
   (glm_frustum_rh_no, wasm.wasm_glm_frustum_rh_no, [Float; Float; Float; Float; Float; Float; Writes 16]);
   (glm_perspective_rh_no, wasm.wasm_glm_perspective_rh_no, [Float; Float; Float; Float; Writes 16]);
   (glm_perspective_default_rh_no, wasm.wasm_glm_perspective_default_rh_no, [Float; Writes 16]);
   (glm_frustum, wasm.wasm_glm_frustum, [Float; Float; Float; Float; Float; Float; Writes 16]);
   (glm_ortho, wasm.wasm_glm_ortho, [Float; Float; Float; Float; Float; Float; Writes 16]);
   (glm_ortho_aabb, wasm.wasm_glm_ortho_aabb, [Reads Flt 6; Writes 16]);
   (glm_ortho_aabb_p, wasm.wasm_glm_ortho_aabb_p, [Reads Flt 6; Float; Writes 16]);
   (glm_ortho_aabb_pz, wasm.wasm_glm_ortho_aabb_pz, [Reads Flt 6; Float; Writes 16]);
   (glm_ortho_default, wasm.wasm_glm_ortho_default, [Float; Writes 16]);
   (glm_ortho_default_s, wasm.wasm_glm_ortho_default_s, [Float; Float; Writes 16]);
   (glm_perspective, wasm.wasm_glm_perspective, [Float; Float; Float; Float; Writes 16]);
   (glm_perspective_default, wasm.wasm_glm_perspective_default, [Float; Writes 16]);
   (glm_frustum_planes, wasm.wasm_glm_frustum_planes, [Reads Flt 16; Writes 24]);
   (glm_frustum_center, wasm.wasm_glm_frustum_center, [Reads Flt 32; Writes 4]);
   (glm_quat_identity, wasm.wasm_glm_quat_identity, [Updates Flt 4]);
   (glm_quat_copy, wasm.wasm_glm_quat_copy, [Reads Flt 4; Writes 4]);
   (glm_quat_conjugate, wasm.wasm_glm_quat_conjugate, [Reads Flt 4; Writes 4]);
   (glm_quat_add, wasm.wasm_glm_quat_add, [Reads Flt 4; Reads Flt 4; Writes 4]);
   (glm_quat_sub, wasm.wasm_glm_quat_sub, [Reads Flt 4; Reads Flt 4; Writes 4]);
   (glm_quat_lerp, wasm.wasm_glm_quat_lerp, [Reads Flt 4; Reads Flt 4; Float; Writes 4]);
   (glm_pickmatrix, wasm.wasm_glm_pickmatrix, [Reads Flt 2; Reads Flt 2; Reads Flt 4; Writes 16]);
   (glm_ortho_lh_no, wasm.wasm_glm_ortho_lh_no, [Float; Float; Float; Float; Float; Float; Writes 16]);
   (glm_ortho_aabb_lh_no, wasm.wasm_glm_ortho_aabb_lh_no, [Reads Flt 6; Writes 16]);
   (glm_ortho_aabb_p_lh_no, wasm.wasm_glm_ortho_aabb_p_lh_no, [Reads Flt 6; Float; Writes 16]);
   (glm_ortho_aabb_pz_lh_no, wasm.wasm_glm_ortho_aabb_pz_lh_no, [Reads Flt 6; Float; Writes 16]);
   (glm_ortho_default_lh_no, wasm.wasm_glm_ortho_default_lh_no, [Float; Writes 16]);
   (glm_ortho_default_s_lh_no, wasm.wasm_glm_ortho_default_s_lh_no, [Float; Float; Writes 16]);
   (glm_ortho_lh_zo, wasm.wasm_glm_ortho_lh_zo, [Float; Float; Float; Float; Float; Float; Writes 16]);
   (glm_ortho_aabb_lh_zo, wasm.wasm_glm_ortho_aabb_lh_zo, [Reads Flt 6; Writes 16]);
   (glm_ortho_aabb_p_lh_zo, wasm.wasm_glm_ortho_aabb_p_lh_zo, [Reads Flt 6; Float; Writes 16]);
   (glm_ortho_aabb_pz_lh_zo, wasm.wasm_glm_ortho_aabb_pz_lh_zo, [Reads Flt 6; Float; Writes 16]);
   (glm_ortho_default_lh_zo, wasm.wasm_glm_ortho_default_lh_zo, [Float; Writes 16]);
   (glm_ortho_default_s_lh_zo, wasm.wasm_glm_ortho_default_s_lh_zo, [Float; Float; Writes 16]);
   (glm_ortho_rh_zo, wasm.wasm_glm_ortho_rh_zo, [Float; Float; Float; Float; Float; Float; Writes 16]);
   (glm_ortho_aabb_rh_zo, wasm.wasm_glm_ortho_aabb_rh_zo, [Reads Flt 6; Writes 16]);
   (glm_ortho_aabb_p_rh_zo, wasm.wasm_glm_ortho_aabb_p_rh_zo, [Reads Flt 6; Float; Writes 16]);
   (glm_ortho_aabb_pz_rh_zo, wasm.wasm_glm_ortho_aabb_pz_rh_zo, [Reads Flt 6; Float; Writes 16]);
   (glm_ortho_default_rh_zo, wasm.wasm_glm_ortho_default_rh_zo, [Float; Writes 16]);
   (glm_ortho_default_s_rh_zo, wasm.wasm_glm_ortho_default_s_rh_zo, [Float; Float; Writes 16]);
   (glm_frustum_lh_no, wasm.wasm_glm_frustum_lh_no, [Float; Float; Float; Float; Float; Float; Writes 16]);
   (glm_perspective_lh_no, wasm.wasm_glm_perspective_lh_no, [Float; Float; Float; Float; Writes 16]);
   (glm_perspective_default_lh_no, wasm.wasm_glm_perspective_default_lh_no, [Float; Writes 16]);
   (glm_frustum_lh_zo, wasm.wasm_glm_frustum_lh_zo, [Float; Float; Float; Float; Float; Float; Writes 16]);
   (glm_perspective_lh_zo, wasm.wasm_glm_perspective_lh_zo, [Float; Float; Float; Float; Writes 16]);
   (glm_perspective_default_lh_zo, wasm.wasm_glm_perspective_default_lh_zo, [Float; Writes 16]);
   (glm_frustum_rh_zo, wasm.wasm_glm_frustum_rh_zo, [Float; Float; Float; Float; Float; Float; Writes 16]);
   (glm_perspective_rh_zo, wasm.wasm_glm_perspective_rh_zo, [Float; Float; Float; Float; Writes 16]);
   (glm_perspective_default_rh_zo, wasm.wasm_glm_perspective_default_rh_zo, [Float; Writes 16])].

Definition wasm_real : list (fundef * fundef * list param) :=
  [(glm_vec4_hadd, wasm.wasm_glm_vec4_hadd, [Reads Flt 4]);
   (glm_vec4_dot, wasm.wasm_glm_vec4_dot, [Reads Flt 4; Reads Flt 4]);
   (glm_vec4_norm2, wasm.wasm_glm_vec4_norm2, [Reads Flt 4]);
   (glm_vec4_norm, wasm.wasm_glm_vec4_norm, [Reads Flt 4]);
   (glm_vec4_norm_one, wasm.wasm_glm_vec4_norm_one, [Reads Flt 4]);
   (glm_vec4_scale_as, wasm.wasm_glm_vec4_scale_as, [Reads Flt 4; Float; Writes 4]);
   (glm_vec4_divs, wasm.wasm_glm_vec4_divs, [Reads Flt 4; Float; Writes 4]);
   (glm_vec4_maxadd, wasm.wasm_glm_vec4_maxadd, [Reads Flt 4; Reads Flt 4; Updates Flt 4]);
   (glm_vec4_minadd, wasm.wasm_glm_vec4_minadd, [Reads Flt 4; Reads Flt 4; Updates Flt 4]);
   (glm_vec4_maxsub, wasm.wasm_glm_vec4_maxsub, [Reads Flt 4; Reads Flt 4; Updates Flt 4]);
   (glm_vec4_minsub, wasm.wasm_glm_vec4_minsub, [Reads Flt 4; Reads Flt 4; Updates Flt 4]);
   (glm_vec4_distance, wasm.wasm_glm_vec4_distance, [Reads Flt 4; Reads Flt 4]);
   (glm_vec4_distance2, wasm.wasm_glm_vec4_distance2, [Reads Flt 4; Reads Flt 4]);
   (glm_vec4_maxv, wasm.wasm_glm_vec4_maxv, [Reads Flt 4; Reads Flt 4; Writes 4]);
   (glm_vec4_minv, wasm.wasm_glm_vec4_minv, [Reads Flt 4; Reads Flt 4; Writes 4]);
   (glm_vec4_lerpc, wasm.wasm_glm_vec4_lerpc, [Reads Flt 4; Reads Flt 4; Float; Writes 4]);
   (glm_vec4_mixc, wasm.wasm_glm_vec4_mixc, [Reads Flt 4; Reads Flt 4; Float; Writes 4]);
   (glm_vec4_smoothinterpc, wasm.wasm_glm_vec4_smoothinterpc, [Reads Flt 4; Reads Flt 4; Float; Writes 4]);
   (glm_vec4_reflect, wasm.wasm_glm_vec4_reflect, [Reads Flt 4; Reads Flt 4; Writes 4]);
   (glm_vec4_refract, wasm.wasm_glm_vec4_refract, [Reads Flt 4; Reads Flt 4; Float; Writes 4]);
   (glm_mat4_mul, wasm.wasm_glm_mat4_mul, [Reads Flt 16; Reads Flt 16; Writes 16]);
   (glm_mat4_mulv, wasm.wasm_glm_mat4_mulv, [Reads Flt 16; Reads Flt 4; Writes 4]);
   (glm_mat4_mulv3, wasm.wasm_glm_mat4_mulv3, [Reads Flt 16; Reads Flt 3; Float; Writes 3]);
   (glm_mat4_transpose_to, wasm.wasm_glm_mat4_transpose_to, [Apart Flt 16; Writes 16]);
   (glm_mat4_det, wasm.wasm_glm_mat4_det, [Reads Flt 16]);
   (glm_mat4_inv, wasm.wasm_glm_mat4_inv, [Reads Flt 16; Writes 16]);
   (glm_mat4_inv_fast, wasm.wasm_glm_mat4_inv_fast, [Reads Flt 16; Writes 16]);
   (glm_mat4_rmc, wasm.wasm_glm_mat4_rmc, [Reads Flt 4; Reads Flt 16; Reads Flt 4]);
   (glm_mat3_mul, wasm.wasm_glm_mat3_mul, [Reads Flt 9; Reads Flt 9; Writes 9]);
   (glm_mat2_mul, wasm.wasm_glm_mat2_mul, [Reads Flt 4; Reads Flt 4; Writes 4]);
   (glm_mat2_transpose_to, wasm.wasm_glm_mat2_transpose_to, [Apart Flt 4; Writes 4]);
   (glm_mul, wasm.wasm_glm_mul, [Reads Flt 16; Reads Flt 16; Writes 16]);
   (glm_mul_rot, wasm.wasm_glm_mul_rot, [Reads Flt 16; Reads Flt 16; Writes 16]);
   (glm_translate, wasm.wasm_glm_translate, [Updates Flt 16; Reads Flt 3]);
   (glm_translate_to, wasm.wasm_glm_translate_to, [Reads Flt 16; Reads Flt 3; Writes 16]);
   (glm_translate_x, wasm.wasm_glm_translate_x, [Updates Flt 16; Float]);
   (glm_translate_y, wasm.wasm_glm_translate_y, [Updates Flt 16; Float]);
   (glm_translate_z, wasm.wasm_glm_translate_z, [Updates Flt 16; Float]);
   (glm_rotate_x, wasm.wasm_glm_rotate_x, [Reads Flt 16; Float; Writes 16]);
   (glm_rotate_y, wasm.wasm_glm_rotate_y, [Reads Flt 16; Float; Writes 16]);
   (glm_rotate_z, wasm.wasm_glm_rotate_z, [Reads Flt 16; Float; Writes 16]);
   (glm_rotate, wasm.wasm_glm_rotate, [Updates Flt 16; Float; Reads Flt 3]);
   (glm_rotate_at, wasm.wasm_glm_rotate_at, [Updates Flt 16; Reads Flt 3; Float; Reads Flt 3]);
   (glm_rotate_atm, wasm.wasm_glm_rotate_atm, [Writes 16; Reads Flt 3; Float; Reads Flt 3]);
   (glm_spin, wasm.wasm_glm_spin, [Updates Flt 16; Float; Reads Flt 3]);
   (glm_rotated_x, wasm.wasm_glm_rotated_x, [Reads Flt 16; Float; Writes 16]);
   (glm_rotated_y, wasm.wasm_glm_rotated_y, [Reads Flt 16; Float; Writes 16]);
   (glm_rotated_z, wasm.wasm_glm_rotated_z, [Reads Flt 16; Float; Writes 16]);
   (glm_rotated, wasm.wasm_glm_rotated, [Updates Flt 16; Float; Reads Flt 3]);
   (glm_rotated_at, wasm.wasm_glm_rotated_at, [Updates Flt 16; Reads Flt 3; Float; Reads Flt 3]);
   (glm_spinned, wasm.wasm_glm_spinned, [Updates Flt 16; Float; Reads Flt 3]);
   (glm_frustum_corners, wasm.wasm_glm_frustum_corners, [Reads Flt 16; Writes 32]);
   (glm_frustum_box, wasm.wasm_glm_frustum_box, [Reads Flt 32; Reads Flt 16; Writes 6]);
   (glm_frustum_corners_at, wasm.wasm_glm_frustum_corners_at, [Reads Flt 32; Float; Float; Writes 16]);
   (glm_quat_normalize_to, wasm.wasm_glm_quat_normalize_to, [Reads Flt 4; Writes 4]);
   (glm_quat_normalize, wasm.wasm_glm_quat_normalize, [Updates Flt 4]);
   (glm_quat_from_vecs, wasm.wasm_glm_quat_from_vecs, [Reads Flt 3; Reads Flt 3; Writes 4]);
   (glm_quat_norm, wasm.wasm_glm_quat_norm, [Reads Flt 4]);
   (glm_quat_dot, wasm.wasm_glm_quat_dot, [Reads Flt 4; Reads Flt 4]);
   (glm_quat_inv, wasm.wasm_glm_quat_inv, [Reads Flt 4; Writes 4]);
   (glm_quat_mul, wasm.wasm_glm_quat_mul, [Apart Flt 4; Apart Flt 4; Writes 4]);
   (glm_quat_mat4, wasm.wasm_glm_quat_mat4, [Reads Flt 4; Writes 16]);
   (glm_quat_mat4t, wasm.wasm_glm_quat_mat4t, [Reads Flt 4; Writes 16]);
   (glm_quat_mat3, wasm.wasm_glm_quat_mat3, [Reads Flt 4; Writes 9]);
   (glm_quat_mat3t, wasm.wasm_glm_quat_mat3t, [Reads Flt 4; Writes 9]);
   (glm_quat_lerpc, wasm.wasm_glm_quat_lerpc, [Reads Flt 4; Reads Flt 4; Float; Writes 4]);
   (glm_quat_nlerp, wasm.wasm_glm_quat_nlerp, [Reads Flt 4; Reads Flt 4; Float; Writes 4]);
   (glm_quat_slerp, wasm.wasm_glm_quat_slerp, [Reads Flt 4; Reads Flt 4; Float; Writes 4]);
   (glm_quat_slerp_longest, wasm.wasm_glm_quat_slerp_longest, [Reads Flt 4; Reads Flt 4; Float; Writes 4]);
   (glm_quat_look, wasm.wasm_glm_quat_look, [Reads Flt 3; Reads Flt 4; Writes 16]);
   (glm_quat_rotatev, wasm.wasm_glm_quat_rotatev, [Reads Flt 4; Reads Flt 3; Writes 3]);
   (glm_quat_rotate, wasm.wasm_glm_quat_rotate, [Reads Flt 16; Reads Flt 4; Writes 16]);
   (glm_quat_rotate_at, wasm.wasm_glm_quat_rotate_at, [Updates Flt 16; Reads Flt 4; Reads Flt 3]);
   (glm_quat_rotate_atm, wasm.wasm_glm_quat_rotate_atm, [Writes 16; Reads Flt 4; Reads Flt 3]);
   (glm_unprojecti_no, wasm.wasm_glm_unprojecti_no, [Reads Flt 3; Reads Flt 16; Reads Flt 4; Writes 3]);
   (glm_project_no, wasm.wasm_glm_project_no, [Reads Flt 3; Reads Flt 16; Reads Flt 4; Writes 3]);
   (glm_unprojecti, wasm.wasm_glm_unprojecti, [Reads Flt 3; Reads Flt 16; Reads Flt 4; Writes 3]);
   (glm_unproject, wasm.wasm_glm_unproject, [Reads Flt 3; Reads Flt 16; Reads Flt 4; Writes 3]);
   (glm_project, wasm.wasm_glm_project, [Reads Flt 3; Reads Flt 16; Reads Flt 4; Writes 3]);
   (glm_sphere_transform, wasm.wasm_glm_sphere_transform, [Reads Flt 4; Reads Flt 16; Writes 4]);
   (glm_smc, wasm.wasm_glm_smc, [Float; Reads Flt 16; Reads Flt 4]);
   (glm_unprojecti_zo, wasm.wasm_glm_unprojecti_zo, [Reads Flt 3; Reads Flt 16; Reads Flt 4; Writes 3]);
   (glm_project_zo, wasm.wasm_glm_project_zo, [Reads Flt 3; Reads Flt 16; Reads Flt 4; Writes 3])].

(** the declared parameters of the functions that differ, except glm_vec4_sign of the x86 builds *)
Definition simd_signatures : list (fundef * list param) :=
  [(sse2.sse2_glm_vec4_broadcast, [Float; Writes 4]);
   (sse2.sse2_glm_vec4_fill, [Writes 4; Float]);
   (sse2.sse2_glm_vec4_abs, [Reads Flt 4; Writes 4]);
   (sse2.sse2_glm_vec4_hadd, [Reads Flt 4]);
   (sse2.sse2_glm_vec4_sqrt, [Reads Flt 4; Writes 4]);
   (sse2.sse2_glm_vec4_copy, [Reads Flt 4; Writes 4]);
   (sse2.sse2_glm_vec4_zero, [Updates Flt 4]);
   (sse2.sse2_glm_vec4_one, [Updates Flt 4]);
   (sse2.sse2_glm_vec4_dot, [Reads Flt 4; Reads Flt 4]);
   (sse2.sse2_glm_vec4_norm2, [Reads Flt 4]);
   (sse2.sse2_glm_vec4_norm, [Reads Flt 4]);
   (sse2.sse2_glm_vec4_norm_one, [Reads Flt 4]);
   (sse2.sse2_glm_vec4_norm_inf, [Reads Flt 4]);
   (sse2.sse2_glm_vec4_add, [Reads Flt 4; Reads Flt 4; Writes 4]);
   (sse2.sse2_glm_vec4_adds, [Reads Flt 4; Float; Writes 4]);
   (sse2.sse2_glm_vec4_sub, [Reads Flt 4; Reads Flt 4; Writes 4]);
   (sse2.sse2_glm_vec4_subs, [Reads Flt 4; Float; Writes 4]);
   (sse2.sse2_glm_vec4_mul, [Reads Flt 4; Reads Flt 4; Writes 4]);
   (sse2.sse2_glm_vec4_scale, [Reads Flt 4; Float; Writes 4]);
   (sse2.sse2_glm_vec4_scale_as, [Reads Flt 4; Float; Writes 4]);
   (sse2.sse2_glm_vec4_div, [Reads Flt 4; Reads Flt 4; Writes 4]);
   (sse2.sse2_glm_vec4_divs, [Reads Flt 4; Float; Writes 4]);
   (sse2.sse2_glm_vec4_addadd, [Reads Flt 4; Reads Flt 4; Updates Flt 4]);
   (sse2.sse2_glm_vec4_subadd, [Reads Flt 4; Reads Flt 4; Updates Flt 4]);
   (sse2.sse2_glm_vec4_muladd, [Reads Flt 4; Reads Flt 4; Updates Flt 4]);
   (sse2.sse2_glm_vec4_muladds, [Reads Flt 4; Float; Updates Flt 4]);
   (sse2.sse2_glm_vec4_maxadd, [Reads Flt 4; Reads Flt 4; Updates Flt 4]);
   (sse2.sse2_glm_vec4_minadd, [Reads Flt 4; Reads Flt 4; Updates Flt 4]);
   (sse2.sse2_glm_vec4_subsub, [Reads Flt 4; Reads Flt 4; Updates Flt 4]);
   (sse2.sse2_glm_vec4_addsub, [Reads Flt 4; Reads Flt 4; Updates Flt 4]);
   (sse2.sse2_glm_vec4_mulsub, [Reads Flt 4; Reads Flt 4; Updates Flt 4]);
   (sse2.sse2_glm_vec4_mulsubs, [Reads Flt 4; Float; Updates Flt 4]);
   (sse2.sse2_glm_vec4_maxsub, [Reads Flt 4; Reads Flt 4; Updates Flt 4]);
   (sse2.sse2_glm_vec4_minsub, [Reads Flt 4; Reads Flt 4; Updates Flt 4]);
   (sse2.sse2_glm_vec4_negate_to, [Reads Flt 4; Writes 4]);
   (sse2.sse2_glm_vec4_negate, [Updates Flt 4]);
   (sse2.sse2_glm_vec4_normalize_to, [Reads Flt 4; Writes 4]);
   (sse2.sse2_glm_vec4_normalize, [Updates Flt 4]);
   (sse2.sse2_glm_vec4_distance, [Reads Flt 4; Reads Flt 4]);
   (sse2.sse2_glm_vec4_distance2, [Reads Flt 4; Reads Flt 4]);
   (sse2.sse2_glm_vec4_maxv, [Reads Flt 4; Reads Flt 4; Writes 4]);
   (sse2.sse2_glm_vec4_minv, [Reads Flt 4; Reads Flt 4; Writes 4]);
   (sse2.sse2_glm_vec4_clamp, [Updates Flt 4; Float; Float]);
   (sse2.sse2_glm_vec4_lerp, [Reads Flt 4; Reads Flt 4; Float; Writes 4]);
   (sse2.sse2_glm_vec4_lerpc, [Reads Flt 4; Reads Flt 4; Float; Writes 4]);
   (sse2.sse2_glm_vec4_mix, [Reads Flt 4; Reads Flt 4; Float; Writes 4]);
   (sse2.sse2_glm_vec4_mixc, [Reads Flt 4; Reads Flt 4; Float; Writes 4]);
   (sse2.sse2_glm_vec4_smoothinterp, [Reads Flt 4; Reads Flt 4; Float; Writes 4]);
   (sse2.sse2_glm_vec4_smoothinterpc, [Reads Flt 4; Reads Flt 4; Float; Writes 4]);
   (sse2.sse2_glm_vec4_swizzle, [Reads Flt 4; Index 256; Writes 4]);
   (sse2.sse2_glm_vec4_reflect, [Reads Flt 4; Reads Flt 4; Writes 4]);
   (sse2.sse2_glm_vec4_refract, [Reads Flt 4; Reads Flt 4; Float; Writes 4]);
   (sse2.sse2_glm_vec3_rotate_m4, [Reads Flt 16; Reads Flt 3; Writes 3]);
   (sse2.sse2_glm_vec3_rotate_m3, [Reads Flt 9; Reads Flt 3; Writes 3]);
   (sse2.sse2_glm_mat4_copy, [Reads Flt 16; Writes 16]);
   (sse2.sse2_glm_mat4_identity, [Updates Flt 16]);
   (sse2.sse2_glm_mat4_zero, [Updates Flt 16]);
   (sse2.sse2_glm_mat4_mul, [Reads Flt 16; Reads Flt 16; Writes 16]);
   (sse2.sse2_glm_mat4_mulv, [Reads Flt 16; Reads Flt 4; Writes 4]);
   (sse2.sse2_glm_mat4_mulv3, [Reads Flt 16; Reads Flt 3; Float; Writes 3]);
   (sse2.sse2_glm_mat4_transpose_to, [Reads Flt 16; Writes 16]);
   (sse2.sse2_glm_mat4_transpose, [Updates Flt 16]);
   (sse2.sse2_glm_mat4_scale, [Updates Flt 16; Float]);
   (sse2.sse2_glm_mat4_det, [Reads Flt 16]);
   (sse2.sse2_glm_mat4_inv, [Reads Flt 16; Writes 16]);
   (sse2.sse2_glm_mat4_inv_fast, [Reads Flt 16; Writes 16]);
   (sse2.sse2_glm_mat4_swap_col, [Updates Flt 16; Index 4; Index 4]);
   (sse2.sse2_glm_mat4_rmc, [Reads Flt 4; Reads Flt 16; Reads Flt 4]);
   (sse2.sse2_glm_mat4_textrans, [Float; Float; Float; Float; Float; Writes 16]);
   (sse2.sse2_glm_mat3_mul, [Reads Flt 9; Reads Flt 9; Writes 9]);
   (sse2.sse2_glm_mat2_mul, [Reads Flt 4; Reads Flt 4; Writes 4]);
   (sse2.sse2_glm_mat2_transpose_to, [Reads Flt 4; Writes 4]);
   (sse2.sse2_glm_mat2_scale, [Updates Flt 4; Float]);
   (sse2.sse2_glm_mul, [Reads Flt 16; Reads Flt 16; Writes 16]);
   (sse2.sse2_glm_mul_rot, [Reads Flt 16; Reads Flt 16; Writes 16]);
   (sse2.sse2_glm_inv_tr, [Updates Flt 16]);
   (sse2.sse2_glm_translate_make, [Writes 16; Reads Flt 3]);
   (sse2.sse2_glm_scale_to, [Reads Flt 16; Reads Flt 3; Writes 16]);
   (sse2.sse2_glm_scale_make, [Writes 16; Reads Flt 3]);
   (sse2.sse2_glm_scale, [Updates Flt 16; Reads Flt 3]);
   (sse2.sse2_glm_scale_uni, [Updates Flt 16; Float]);
   (sse2.sse2_glm_decompose_rs, [Reads Flt 16; Writes 16; Writes 3]);
   (sse2.sse2_glm_decompose, [Reads Flt 16; Writes 4; Writes 16; Writes 3]);
   (sse2.sse2_glm_translate, [Updates Flt 16; Reads Flt 3]);
   (sse2.sse2_glm_translate_to, [Reads Flt 16; Reads Flt 3; Writes 16]);
   (sse2.sse2_glm_translate_x, [Updates Flt 16; Float]);
   (sse2.sse2_glm_translate_y, [Updates Flt 16; Float]);
   (sse2.sse2_glm_translate_z, [Updates Flt 16; Float]);
   (sse2.sse2_glm_rotate_x, [Reads Flt 16; Float; Writes 16]);
   (sse2.sse2_glm_rotate_y, [Reads Flt 16; Float; Writes 16]);
   (sse2.sse2_glm_rotate_z, [Reads Flt 16; Float; Writes 16]);
   (sse2.sse2_glm_rotate, [Updates Flt 16; Float; Reads Flt 3]);
   (sse2.sse2_glm_rotate_at, [Updates Flt 16; Reads Flt 3; Float; Reads Flt 3]);
   (sse2.sse2_glm_rotate_atm, [Writes 16; Reads Flt 3; Float; Reads Flt 3]);
   (sse2.sse2_glm_spin, [Updates Flt 16; Float; Reads Flt 3]);
   (sse2.sse2_glm_translated_to, [Reads Flt 16; Reads Flt 3; Writes 16]);
   (sse2.sse2_glm_rotated_x, [Reads Flt 16; Float; Writes 16]);
   (sse2.sse2_glm_rotated_y, [Reads Flt 16; Float; Writes 16]);
   (sse2.sse2_glm_rotated_z, [Reads Flt 16; Float; Writes 16]);
   (sse2.sse2_glm_rotated, [Updates Flt 16; Float; Reads Flt 3]);
   (sse2.sse2_glm_rotated_at, [Updates Flt 16; Reads Flt 3; Float; Reads Flt 3]);
   (sse2.sse2_glm_spinned, [Updates Flt 16; Float; Reads Flt 3]);
   (sse2.sse2_glm_plane_normalize, [Updates Flt 4]);
   (sse2.sse2_glm_ortho_rh_no, [Float; Float; Float; Float; Float; Float; Writes 16]);
   (sse2.sse2_glm_ortho_aabb_rh_no, [Reads Flt 6; Writes 16]);
   (sse2.sse2_glm_ortho_aabb_p_rh_no, [Reads Flt 6; Float; Writes 16]);
   (sse2.sse2_glm_ortho_aabb_pz_rh_no, [Reads Flt 6; Float; Writes 16]);
   (sse2.sse2_glm_ortho_default_rh_no, [Float; Writes 16]);
   (sse2.sse2_glm_ortho_default_s_rh_no, [Float; Float; Writes 16]);
   (sse2.sse2_glm_frustum_rh_no, [Float; Float; Float; Float; Float; Float; Writes 16]);
   (sse2.sse2_glm_perspective_rh_no, [Float; Float; Float; Float; Writes 16]);
   (sse2.sse2_glm_perspective_default_rh_no, [Float; Writes 16]);
   (sse2.sse2_glm_frustum, [Float; Float; Float; Float; Float; Float; Writes 16]);
   (sse2.sse2_glm_ortho, [Float; Float; Float; Float; Float; Float; Writes 16]);
   (sse2.sse2_glm_ortho_aabb, [Reads Flt 6; Writes 16]);
   (sse2.sse2_glm_ortho_aabb_p, [Reads Flt 6; Float; Writes 16]);
   (sse2.sse2_glm_ortho_aabb_pz, [Reads Flt 6; Float; Writes 16]);
   (sse2.sse2_glm_ortho_default, [Float; Writes 16]);
   (sse2.sse2_glm_ortho_default_s, [Float; Float; Writes 16]);
   (sse2.sse2_glm_perspective, [Float; Float; Float; Float; Writes 16]);
   (sse2.sse2_glm_perspective_default, [Float; Writes 16]);
   (sse2.sse2_glm_frustum_planes, [Reads Flt 16; Writes 24]);
   (sse2.sse2_glm_frustum_corners, [Reads Flt 16; Writes 32]);
   (sse2.sse2_glm_frustum_center, [Reads Flt 32; Writes 4]);
   (sse2.sse2_glm_frustum_box, [Reads Flt 32; Reads Flt 16; Writes 6]);
   (sse2.sse2_glm_frustum_corners_at, [Reads Flt 32; Float; Float; Writes 16]);
   (sse2.sse2_glm_quat_identity, [Updates Flt 4]);
   (sse2.sse2_glm_quat_copy, [Reads Flt 4; Writes 4]);
   (sse2.sse2_glm_quat_normalize_to, [Reads Flt 4; Writes 4]);
   (sse2.sse2_glm_quat_normalize, [Updates Flt 4]);
   (sse2.sse2_glm_quat_from_vecs, [Reads Flt 3; Reads Flt 3; Writes 4]);
   (sse2.sse2_glm_quat_norm, [Reads Flt 4]);
   (sse2.sse2_glm_quat_dot, [Reads Flt 4; Reads Flt 4]);
   (sse2.sse2_glm_quat_conjugate, [Reads Flt 4; Writes 4]);
   (sse2.sse2_glm_quat_inv, [Reads Flt 4; Writes 4]);
   (sse2.sse2_glm_quat_add, [Reads Flt 4; Reads Flt 4; Writes 4]);
   (sse2.sse2_glm_quat_sub, [Reads Flt 4; Reads Flt 4; Writes 4]);
   (sse2.sse2_glm_quat_mul, [Reads Flt 4; Reads Flt 4; Writes 4]);
   (sse2.sse2_glm_quat_mat4, [Reads Flt 4; Writes 16]);
   (sse2.sse2_glm_quat_mat4t, [Reads Flt 4; Writes 16]);
   (sse2.sse2_glm_quat_mat3, [Reads Flt 4; Writes 9]);
   (sse2.sse2_glm_quat_mat3t, [Reads Flt 4; Writes 9]);
   (sse2.sse2_glm_quat_lerp, [Reads Flt 4; Reads Flt 4; Float; Writes 4]);
   (sse2.sse2_glm_quat_lerpc, [Reads Flt 4; Reads Flt 4; Float; Writes 4]);
   (sse2.sse2_glm_quat_nlerp, [Reads Flt 4; Reads Flt 4; Float; Writes 4]);
   (sse2.sse2_glm_quat_slerp, [Reads Flt 4; Reads Flt 4; Float; Writes 4]);
   (sse2.sse2_glm_quat_slerp_longest, [Reads Flt 4; Reads Flt 4; Float; Writes 4]);
   (sse2.sse2_glm_quat_look, [Reads Flt 3; Reads Flt 4; Writes 16]);
   (sse2.sse2_glm_quat_rotatev, [Reads Flt 4; Reads Flt 3; Writes 3]);
   (sse2.sse2_glm_quat_rotate, [Reads Flt 16; Reads Flt 4; Writes 16]);
   (sse2.sse2_glm_quat_rotate_at, [Updates Flt 16; Reads Flt 4; Reads Flt 3]);
   (sse2.sse2_glm_quat_rotate_atm, [Writes 16; Reads Flt 4; Reads Flt 3]);
   (sse2.sse2_glm_perlin_vec4, [Reads Flt 4]);
   (sse2.sse2_glm_perlin_vec3, [Reads Flt 3]);
   (sse2.sse2_glm_perlin_vec2, [Reads Flt 2]);
   (sse2.sse2_glm_unprojecti_no, [Reads Flt 3; Reads Flt 16; Reads Flt 4; Writes 3]);
   (sse2.sse2_glm_project_no, [Reads Flt 3; Reads Flt 16; Reads Flt 4; Writes 3]);
   (sse2.sse2_glm_unprojecti, [Reads Flt 3; Reads Flt 16; Reads Flt 4; Writes 3]);
   (sse2.sse2_glm_unproject, [Reads Flt 3; Reads Flt 16; Reads Flt 4; Writes 3]);
   (sse2.sse2_glm_project, [Reads Flt 3; Reads Flt 16; Reads Flt 4; Writes 3]);
   (sse2.sse2_glm_pickmatrix, [Reads Flt 2; Reads Flt 2; Reads Flt 4; Writes 16]);
   (sse2.sse2_glm_sphere_transform, [Reads Flt 4; Reads Flt 16; Writes 4]);
   (sse2.sse2_glm_smc, [Float; Reads Flt 16; Reads Flt 4]);
   (sse2.sse2_glm_ortho_lh_no, [Float; Float; Float; Float; Float; Float; Writes 16]);
   (sse2.sse2_glm_ortho_aabb_lh_no, [Reads Flt 6; Writes 16]);
   (sse2.sse2_glm_ortho_aabb_p_lh_no, [Reads Flt 6; Float; Writes 16]);
   (sse2.sse2_glm_ortho_aabb_pz_lh_no, [Reads Flt 6; Float; Writes 16]);
   (sse2.sse2_glm_ortho_default_lh_no, [Float; Writes 16]);
   (sse2.sse2_glm_ortho_default_s_lh_no, [Float; Float; Writes 16]);
   (sse2.sse2_glm_ortho_lh_zo, [Float; Float; Float; Float; Float; Float; Writes 16]);
   (sse2.sse2_glm_ortho_aabb_lh_zo, [Reads Flt 6; Writes 16]);
   (sse2.sse2_glm_ortho_aabb_p_lh_zo, [Reads Flt 6; Float; Writes 16]);
   (sse2.sse2_glm_ortho_aabb_pz_lh_zo, [Reads Flt 6; Float; Writes 16]);
   (sse2.sse2_glm_ortho_default_lh_zo, [Float; Writes 16]);
   (sse2.sse2_glm_ortho_default_s_lh_zo, [Float; Float; Writes 16]);
   (sse2.sse2_glm_ortho_rh_zo, [Float; Float; Float; Float; Float; Float; Writes 16]);
   (sse2.sse2_glm_ortho_aabb_rh_zo, [Reads Flt 6; Writes 16]);
   (sse2.sse2_glm_ortho_aabb_p_rh_zo, [Reads Flt 6; Float; Writes 16]);
   (sse2.sse2_glm_ortho_aabb_pz_rh_zo, [Reads Flt 6; Float; Writes 16]);
   (sse2.sse2_glm_ortho_default_rh_zo, [Float; Writes 16]);
   (sse2.sse2_glm_ortho_default_s_rh_zo, [Float; Float; Writes 16]);
   (sse2.sse2_glm_frustum_lh_no, [Float; Float; Float; Float; Float; Float; Writes 16]);
   (sse2.sse2_glm_perspective_lh_no, [Float; Float; Float; Float; Writes 16]);
   (sse2.sse2_glm_perspective_default_lh_no, [Float; Writes 16]);
   (sse2.sse2_glm_frustum_lh_zo, [Float; Float; Float; Float; Float; Float; Writes 16]);
   (sse2.sse2_glm_perspective_lh_zo, [Float; Float; Float; Float; Writes 16]);
   (sse2.sse2_glm_perspective_default_lh_zo, [Float; Writes 16]);
   (sse2.sse2_glm_frustum_rh_zo, [Float; Float; Float; Float; Float; Float; Writes 16]);
   (sse2.sse2_glm_perspective_rh_zo, [Float; Float; Float; Float; Writes 16]);
   (sse2.sse2_glm_perspective_default_rh_zo, [Float; Writes 16]);
   (sse2.sse2_glm_unprojecti_zo, [Reads Flt 3; Reads Flt 16; Reads Flt 4; Writes 3]);
   (sse2.sse2_glm_project_zo, [Reads Flt 3; Reads Flt 16; Reads Flt 4; Writes 3]);
   (avx.avx_glm_vec4_broadcast, [Float; Writes 4]);
   (avx.avx_glm_vec4_fill, [Writes 4; Float]);
   (avx.avx_glm_vec4_abs, [Reads Flt 4; Writes 4]);
   (avx.avx_glm_vec4_hadd, [Reads Flt 4]);
   (avx.avx_glm_vec4_sqrt, [Reads Flt 4; Writes 4]);
   (avx.avx_glm_vec4_copy, [Reads Flt 4; Writes 4]);
   (avx.avx_glm_vec4_zero, [Updates Flt 4]);
   (avx.avx_glm_vec4_one, [Updates Flt 4]);
   (avx.avx_glm_vec4_dot, [Reads Flt 4; Reads Flt 4]);
   (avx.avx_glm_vec4_norm2, [Reads Flt 4]);
   (avx.avx_glm_vec4_norm, [Reads Flt 4]);
   (avx.avx_glm_vec4_norm_one, [Reads Flt 4]);
   (avx.avx_glm_vec4_norm_inf, [Reads Flt 4]);
   (avx.avx_glm_vec4_add, [Reads Flt 4; Reads Flt 4; Writes 4]);
   (avx.avx_glm_vec4_adds, [Reads Flt 4; Float; Writes 4]);
   (avx.avx_glm_vec4_sub, [Reads Flt 4; Reads Flt 4; Writes 4]);
   (avx.avx_glm_vec4_subs, [Reads Flt 4; Float; Writes 4]);
   (avx.avx_glm_vec4_mul, [Reads Flt 4; Reads Flt 4; Writes 4]);
   (avx.avx_glm_vec4_scale, [Reads Flt 4; Float; Writes 4]);
   (avx.avx_glm_vec4_scale_as, [Reads Flt 4; Float; Writes 4]);
   (avx.avx_glm_vec4_div, [Reads Flt 4; Reads Flt 4; Writes 4]);
   (avx.avx_glm_vec4_divs, [Reads Flt 4; Float; Writes 4]);
   (avx.avx_glm_vec4_addadd, [Reads Flt 4; Reads Flt 4; Updates Flt 4]);
   (avx.avx_glm_vec4_subadd, [Reads Flt 4; Reads Flt 4; Updates Flt 4]);
   (avx.avx_glm_vec4_muladd, [Reads Flt 4; Reads Flt 4; Updates Flt 4]);
   (avx.avx_glm_vec4_muladds, [Reads Flt 4; Float; Updates Flt 4]);
   (avx.avx_glm_vec4_maxadd, [Reads Flt 4; Reads Flt 4; Updates Flt 4]);
   (avx.avx_glm_vec4_minadd, [Reads Flt 4; Reads Flt 4; Updates Flt 4]);
   (avx.avx_glm_vec4_subsub, [Reads Flt 4; Reads Flt 4; Updates Flt 4]);
   (avx.avx_glm_vec4_addsub, [Reads Flt 4; Reads Flt 4; Updates Flt 4]);
   (avx.avx_glm_vec4_mulsub, [Reads Flt 4; Reads Flt 4; Updates Flt 4]);
   (avx.avx_glm_vec4_mulsubs, [Reads Flt 4; Float; Updates Flt 4]);
   (avx.avx_glm_vec4_maxsub, [Reads Flt 4; Reads Flt 4; Updates Flt 4]);
   (avx.avx_glm_vec4_minsub, [Reads Flt 4; Reads Flt 4; Updates Flt 4]);
   (avx.avx_glm_vec4_negate_to, [Reads Flt 4; Writes 4]);
   (avx.avx_glm_vec4_negate, [Updates Flt 4]);
   (avx.avx_glm_vec4_normalize_to, [Reads Flt 4; Writes 4]);
   (avx.avx_glm_vec4_normalize, [Updates Flt 4]);
   (avx.avx_glm_vec4_distance, [Reads Flt 4; Reads Flt 4]);
   (avx.avx_glm_vec4_distance2, [Reads Flt 4; Reads Flt 4]);
   (avx.avx_glm_vec4_maxv, [Reads Flt 4; Reads Flt 4; Writes 4]);
   (avx.avx_glm_vec4_minv, [Reads Flt 4; Reads Flt 4; Writes 4]);
   (avx.avx_glm_vec4_clamp, [Updates Flt 4; Float; Float]);
   (avx.avx_glm_vec4_lerp, [Reads Flt 4; Reads Flt 4; Float; Writes 4]);
   (avx.avx_glm_vec4_lerpc, [Reads Flt 4; Reads Flt 4; Float; Writes 4]);
   (avx.avx_glm_vec4_mix, [Reads Flt 4; Reads Flt 4; Float; Writes 4]);
   (avx.avx_glm_vec4_mixc, [Reads Flt 4; Reads Flt 4; Float; Writes 4]);
   (avx.avx_glm_vec4_smoothinterp, [Reads Flt 4; Reads Flt 4; Float; Writes 4]);
   (avx.avx_glm_vec4_smoothinterpc, [Reads Flt 4; Reads Flt 4; Float; Writes 4]);
   (avx.avx_glm_vec4_swizzle, [Reads Flt 4; Index 256; Writes 4]);
   (avx.avx_glm_vec4_reflect, [Reads Flt 4; Reads Flt 4; Writes 4]);
   (avx.avx_glm_vec4_refract, [Reads Flt 4; Reads Flt 4; Float; Writes 4]);
   (avx.avx_glm_vec3_rotate_m4, [Reads Flt 16; Reads Flt 3; Writes 3]);
   (avx.avx_glm_vec3_rotate_m3, [Reads Flt 9; Reads Flt 3; Writes 3]);
   (avx.avx_glm_mat4_copy, [Reads Flt 16; Writes 16]);
   (avx.avx_glm_mat4_identity, [Updates Flt 16]);
   (avx.avx_glm_mat4_zero, [Updates Flt 16]);
   (avx.avx_glm_mat4_mul, [Reads Flt 16; Reads Flt 16; Writes 16]);
   (avx.avx_glm_mat4_mulv, [Reads Flt 16; Reads Flt 4; Writes 4]);
   (avx.avx_glm_mat4_mulv3, [Reads Flt 16; Reads Flt 3; Float; Writes 3]);
   (avx.avx_glm_mat4_transpose_to, [Reads Flt 16; Writes 16]);
   (avx.avx_glm_mat4_transpose, [Updates Flt 16]);
   (avx.avx_glm_mat4_scale, [Updates Flt 16; Float]);
   (avx.avx_glm_mat4_det, [Reads Flt 16]);
   (avx.avx_glm_mat4_inv, [Reads Flt 16; Writes 16]);
   (avx.avx_glm_mat4_inv_fast, [Reads Flt 16; Writes 16]);
   (avx.avx_glm_mat4_swap_col, [Updates Flt 16; Index 4; Index 4]);
   (avx.avx_glm_mat4_rmc, [Reads Flt 4; Reads Flt 16; Reads Flt 4]);
   (avx.avx_glm_mat4_textrans, [Float; Float; Float; Float; Float; Writes 16]);
   (avx.avx_glm_mat3_mul, [Reads Flt 9; Reads Flt 9; Writes 9]);
   (avx.avx_glm_mat2_mul, [Reads Flt 4; Reads Flt 4; Writes 4]);
   (avx.avx_glm_mat2_transpose_to, [Reads Flt 4; Writes 4]);
   (avx.avx_glm_mat2_scale, [Updates Flt 4; Float]);
   (avx.avx_glm_mul, [Reads Flt 16; Reads Flt 16; Writes 16]);
   (avx.avx_glm_mul_rot, [Reads Flt 16; Reads Flt 16; Writes 16]);
   (avx.avx_glm_inv_tr, [Updates Flt 16]);
   (avx.avx_glm_translate_make, [Writes 16; Reads Flt 3]);
   (avx.avx_glm_scale_to, [Reads Flt 16; Reads Flt 3; Writes 16]);
   (avx.avx_glm_scale_make, [Writes 16; Reads Flt 3]);
   (avx.avx_glm_scale, [Updates Flt 16; Reads Flt 3]);
   (avx.avx_glm_scale_uni, [Updates Flt 16; Float]);
   (avx.avx_glm_decompose_rs, [Reads Flt 16; Writes 16; Writes 3]);
   (avx.avx_glm_decompose, [Reads Flt 16; Writes 4; Writes 16; Writes 3]);
   (avx.avx_glm_translate, [Updates Flt 16; Reads Flt 3]);
   (avx.avx_glm_translate_to, [Reads Flt 16; Reads Flt 3; Writes 16]);
   (avx.avx_glm_translate_x, [Updates Flt 16; Float]);
   (avx.avx_glm_translate_y, [Updates Flt 16; Float]);
   (avx.avx_glm_translate_z, [Updates Flt 16; Float]);
   (avx.avx_glm_rotate_x, [Reads Flt 16; Float; Writes 16]);
   (avx.avx_glm_rotate_y, [Reads Flt 16; Float; Writes 16]);
   (avx.avx_glm_rotate_z, [Reads Flt 16; Float; Writes 16]);
   (avx.avx_glm_rotate, [Updates Flt 16; Float; Reads Flt 3]);
   (avx.avx_glm_rotate_at, [Updates Flt 16; Reads Flt 3; Float; Reads Flt 3]);
   (avx.avx_glm_rotate_atm, [Writes 16; Reads Flt 3; Float; Reads Flt 3]);
   (avx.avx_glm_spin, [Updates Flt 16; Float; Reads Flt 3]);
   (avx.avx_glm_translated_to, [Reads Flt 16; Reads Flt 3; Writes 16]);
   (avx.avx_glm_rotated_x, [Reads Flt 16; Float; Writes 16]);
   (avx.avx_glm_rotated_y, [Reads Flt 16; Float; Writes 16]);
   (avx.avx_glm_rotated_z, [Reads Flt 16; Float; Writes 16]);
   (avx.avx_glm_rotated, [Updates Flt 16; Float; Reads Flt 3]);
   (avx.avx_glm_rotated_at, [Updates Flt 16; Reads Flt 3; Float; Reads Flt 3]);
   (avx.avx_glm_spinned, [Updates Flt 16; Float; Reads Flt 3]);
   (avx.avx_glm_plane_normalize, [Updates Flt 4]);
   (avx.avx_glm_ortho_rh_no, [Float; Float; Float; Float; Float; Float; Writes 16]);
   (avx.avx_glm_ortho_aabb_rh_no, [Reads Flt 6; Writes 16]);
   (avx.avx_glm_ortho_aabb_p_rh_no, [Reads Flt 6; Float; Writes 16]);
   (avx.avx_glm_ortho_aabb_pz_rh_no, [Reads Flt 6; Float; Writes 16]);
   (avx.avx_glm_ortho_default_rh_no, [Float; Writes 16]);
   (avx.avx_glm_ortho_default_s_rh_no, [Float; Float; Writes 16]);
   (avx.avx_glm_frustum_rh_no, [Float; Float; Float; Float; Float; Float; Writes 16]);
   (avx.avx_glm_perspective_rh_no, [Float; Float; Float; Float; Writes 16]);
   (avx.avx_glm_perspective_default_rh_no, [Float; Writes 16]);
   (avx.avx_glm_frustum, [Float; Float; Float; Float; Float; Float; Writes 16]);
   (avx.avx_glm_ortho, [Float; Float; Float; Float; Float; Float; Writes 16]);
   (avx.avx_glm_ortho_aabb, [Reads Flt 6; Writes 16]);
   (avx.avx_glm_ortho_aabb_p, [Reads Flt 6; Float; Writes 16]);
   (avx.avx_glm_ortho_aabb_pz, [Reads Flt 6; Float; Writes 16]);
   (avx.avx_glm_ortho_default, [Float; Writes 16]);
   (avx.avx_glm_ortho_default_s, [Float; Float; Writes 16]);
   (avx.avx_glm_perspective, [Float; Float; Float; Float; Writes 16]);
   (avx.avx_glm_perspective_default, [Float; Writes 16]);
   (avx.avx_glm_frustum_planes, [Reads Flt 16; Writes 24]);
   (avx.avx_glm_frustum_corners, [Reads Flt 16; Writes 32]);
   (avx.avx_glm_frustum_center, [Reads Flt 32; Writes 4]);
   (avx.avx_glm_frustum_box, [Reads Flt 32; Reads Flt 16; Writes 6]);
   (avx.avx_glm_frustum_corners_at, [Reads Flt 32; Float; Float; Writes 16]);
   (avx.avx_glm_quat_identity, [Updates Flt 4]);
   (avx.avx_glm_quat_copy, [Reads Flt 4; Writes 4]);
   (avx.avx_glm_quat_normalize_to, [Reads Flt 4; Writes 4]);
   (avx.avx_glm_quat_normalize, [Updates Flt 4]);
   (avx.avx_glm_quat_from_vecs, [Reads Flt 3; Reads Flt 3; Writes 4]);
   (avx.avx_glm_quat_norm, [Reads Flt 4]);
   (avx.avx_glm_quat_dot, [Reads Flt 4; Reads Flt 4]);
   (avx.avx_glm_quat_conjugate, [Reads Flt 4; Writes 4]);
   (avx.avx_glm_quat_inv, [Reads Flt 4; Writes 4]);
   (avx.avx_glm_quat_add, [Reads Flt 4; Reads Flt 4; Writes 4]);
   (avx.avx_glm_quat_sub, [Reads Flt 4; Reads Flt 4; Writes 4]);
   (avx.avx_glm_quat_mul, [Reads Flt 4; Reads Flt 4; Writes 4]);
   (avx.avx_glm_quat_mat4, [Reads Flt 4; Writes 16]);
   (avx.avx_glm_quat_mat4t, [Reads Flt 4; Writes 16]);
   (avx.avx_glm_quat_mat3, [Reads Flt 4; Writes 9]);
   (avx.avx_glm_quat_mat3t, [Reads Flt 4; Writes 9]);
   (avx.avx_glm_quat_lerp, [Reads Flt 4; Reads Flt 4; Float; Writes 4]);
   (avx.avx_glm_quat_lerpc, [Reads Flt 4; Reads Flt 4; Float; Writes 4]);
   (avx.avx_glm_quat_nlerp, [Reads Flt 4; Reads Flt 4; Float; Writes 4]);
   (avx.avx_glm_quat_slerp, [Reads Flt 4; Reads Flt 4; Float; Writes 4]);
   (avx.avx_glm_quat_slerp_longest, [Reads Flt 4; Reads Flt 4; Float; Writes 4]);
   (avx.avx_glm_quat_look, [Reads Flt 3; Reads Flt 4; Writes 16]);
   (avx.avx_glm_quat_rotatev, [Reads Flt 4; Reads Flt 3; Writes 3]);
   (avx.avx_glm_quat_rotate, [Reads Flt 16; Reads Flt 4; Writes 16]);
   (avx.avx_glm_quat_rotate_at, [Updates Flt 16; Reads Flt 4; Reads Flt 3]);
   (avx.avx_glm_quat_rotate_atm, [Writes 16; Reads Flt 4; Reads Flt 3]);
   (avx.avx_glm_perlin_vec4, [Reads Flt 4]);
   (avx.avx_glm_perlin_vec3, [Reads Flt 3]);
   (avx.avx_glm_perlin_vec2, [Reads Flt 2]);
   (avx.avx_glm_unprojecti_no, [Reads Flt 3; Reads Flt 16; Reads Flt 4; Writes 3]);
   (avx.avx_glm_project_no, [Reads Flt 3; Reads Flt 16; Reads Flt 4; Writes 3]);
   (avx.avx_glm_unprojecti, [Reads Flt 3; Reads Flt 16; Reads Flt 4; Writes 3]);
   (avx.avx_glm_unproject, [Reads Flt 3; Reads Flt 16; Reads Flt 4; Writes 3]);
   (avx.avx_glm_project, [Reads Flt 3; Reads Flt 16; Reads Flt 4; Writes 3]);
   (avx.avx_glm_pickmatrix, [Reads Flt 2; Reads Flt 2; Reads Flt 4; Writes 16]);
   (avx.avx_glm_sphere_transform, [Reads Flt 4; Reads Flt 16; Writes 4]);
   (avx.avx_glm_smc, [Float; Reads Flt 16; Reads Flt 4]);
   (avx.avx_glm_ortho_lh_no, [Float; Float; Float; Float; Float; Float; Writes 16]);
   (avx.avx_glm_ortho_aabb_lh_no, [Reads Flt 6; Writes 16]);
   (avx.avx_glm_ortho_aabb_p_lh_no, [Reads Flt 6; Float; Writes 16]);
   (avx.avx_glm_ortho_aabb_pz_lh_no, [Reads Flt 6; Float; Writes 16]);
   (avx.avx_glm_ortho_default_lh_no, [Float; Writes 16]);
   (avx.avx_glm_ortho_default_s_lh_no, [Float; Float; Writes 16]);
   (avx.avx_glm_ortho_lh_zo, [Float; Float; Float; Float; Float; Float; Writes 16]);
   (avx.avx_glm_ortho_aabb_lh_zo, [Reads Flt 6; Writes 16]);
   (avx.avx_glm_ortho_aabb_p_lh_zo, [Reads Flt 6; Float; Writes 16]);
   (avx.avx_glm_ortho_aabb_pz_lh_zo, [Reads Flt 6; Float; Writes 16]);
   (avx.avx_glm_ortho_default_lh_zo, [Float; Writes 16]);
   (avx.avx_glm_ortho_default_s_lh_zo, [Float; Float; Writes 16]);
   (avx.avx_glm_ortho_rh_zo, [Float; Float; Float; Float; Float; Float; Writes 16]);
   (avx.avx_glm_ortho_aabb_rh_zo, [Reads Flt 6; Writes 16]);
   (avx.avx_glm_ortho_aabb_p_rh_zo, [Reads Flt 6; Float; Writes 16]);
   (avx.avx_glm_ortho_aabb_pz_rh_zo, [Reads Flt 6; Float; Writes 16]);
   (avx.avx_glm_ortho_default_rh_zo, [Float; Writes 16]);
   (avx.avx_glm_ortho_default_s_rh_zo, [Float; Float; Writes 16]);
   (avx.avx_glm_frustum_lh_no, [Float; Float; Float; Float; Float; Float; Writes 16]);
   (avx.avx_glm_perspective_lh_no, [Float; Float; Float; Float; Writes 16]);
   (avx.avx_glm_perspective_default_lh_no, [Float; Writes 16]);
   (avx.avx_glm_frustum_lh_zo, [Float; Float; Float; Float; Float; Float; Writes 16]);
   (avx.avx_glm_perspective_lh_zo, [Float; Float; Float; Float; Writes 16]);
   (avx.avx_glm_perspective_default_lh_zo, [Float; Writes 16]);
   (avx.avx_glm_frustum_rh_zo, [Float; Float; Float; Float; Float; Float; Writes 16]);
   (avx.avx_glm_perspective_rh_zo, [Float; Float; Float; Float; Writes 16]);
   (avx.avx_glm_perspective_default_rh_zo, [Float; Writes 16]);
   (avx.avx_glm_unprojecti_zo, [Reads Flt 3; Reads Flt 16; Reads Flt 4; Writes 3]);
   (avx.avx_glm_project_zo, [Reads Flt 3; Reads Flt 16; Reads Flt 4; Writes 3]);
   (fma.fma_glm_vec4_broadcast, [Float; Writes 4]);
   (fma.fma_glm_vec4_fill, [Writes 4; Float]);
   (fma.fma_glm_vec4_abs, [Reads Flt 4; Writes 4]);
   (fma.fma_glm_vec4_hadd, [Reads Flt 4]);
   (fma.fma_glm_vec4_sqrt, [Reads Flt 4; Writes 4]);
   (fma.fma_glm_vec4_copy, [Reads Flt 4; Writes 4]);
   (fma.fma_glm_vec4_zero, [Updates Flt 4]);
   (fma.fma_glm_vec4_one, [Updates Flt 4]);
   (fma.fma_glm_vec4_dot, [Reads Flt 4; Reads Flt 4]);
   (fma.fma_glm_vec4_norm2, [Reads Flt 4]);
   (fma.fma_glm_vec4_norm, [Reads Flt 4]);
   (fma.fma_glm_vec4_norm_one, [Reads Flt 4]);
   (fma.fma_glm_vec4_norm_inf, [Reads Flt 4]);
   (fma.fma_glm_vec4_add, [Reads Flt 4; Reads Flt 4; Writes 4]);
   (fma.fma_glm_vec4_adds, [Reads Flt 4; Float; Writes 4]);
   (fma.fma_glm_vec4_sub, [Reads Flt 4; Reads Flt 4; Writes 4]);
   (fma.fma_glm_vec4_subs, [Reads Flt 4; Float; Writes 4]);
   (fma.fma_glm_vec4_mul, [Reads Flt 4; Reads Flt 4; Writes 4]);
   (fma.fma_glm_vec4_scale, [Reads Flt 4; Float; Writes 4]);
   (fma.fma_glm_vec4_scale_as, [Reads Flt 4; Float; Writes 4]);
   (fma.fma_glm_vec4_div, [Reads Flt 4; Reads Flt 4; Writes 4]);
   (fma.fma_glm_vec4_divs, [Reads Flt 4; Float; Writes 4]);
   (fma.fma_glm_vec4_addadd, [Reads Flt 4; Reads Flt 4; Updates Flt 4]);
   (fma.fma_glm_vec4_subadd, [Reads Flt 4; Reads Flt 4; Updates Flt 4]);
   (fma.fma_glm_vec4_muladd, [Reads Flt 4; Reads Flt 4; Updates Flt 4]);
   (fma.fma_glm_vec4_muladds, [Reads Flt 4; Float; Updates Flt 4]);
   (fma.fma_glm_vec4_maxadd, [Reads Flt 4; Reads Flt 4; Updates Flt 4]);
   (fma.fma_glm_vec4_minadd, [Reads Flt 4; Reads Flt 4; Updates Flt 4]);
   (fma.fma_glm_vec4_subsub, [Reads Flt 4; Reads Flt 4; Updates Flt 4]);
   (fma.fma_glm_vec4_addsub, [Reads Flt 4; Reads Flt 4; Updates Flt 4]);
   (fma.fma_glm_vec4_mulsub, [Reads Flt 4; Reads Flt 4; Updates Flt 4]);
   (fma.fma_glm_vec4_mulsubs, [Reads Flt 4; Float; Updates Flt 4]);
   (fma.fma_glm_vec4_maxsub, [Reads Flt 4; Reads Flt 4; Updates Flt 4]);
   (fma.fma_glm_vec4_minsub, [Reads Flt 4; Reads Flt 4; Updates Flt 4]);
   (fma.fma_glm_vec4_negate_to, [Reads Flt 4; Writes 4]);
   (fma.fma_glm_vec4_negate, [Updates Flt 4]);
   (fma.fma_glm_vec4_normalize_to, [Reads Flt 4; Writes 4]);
   (fma.fma_glm_vec4_normalize, [Updates Flt 4]);
   (fma.fma_glm_vec4_distance, [Reads Flt 4; Reads Flt 4]);
   (fma.fma_glm_vec4_distance2, [Reads Flt 4; Reads Flt 4]);
   (fma.fma_glm_vec4_maxv, [Reads Flt 4; Reads Flt 4; Writes 4]);
   (fma.fma_glm_vec4_minv, [Reads Flt 4; Reads Flt 4; Writes 4]);
   (fma.fma_glm_vec4_clamp, [Updates Flt 4; Float; Float]);
   (fma.fma_glm_vec4_lerp, [Reads Flt 4; Reads Flt 4; Float; Writes 4]);
   (fma.fma_glm_vec4_lerpc, [Reads Flt 4; Reads Flt 4; Float; Writes 4]);
   (fma.fma_glm_vec4_mix, [Reads Flt 4; Reads Flt 4; Float; Writes 4]);
   (fma.fma_glm_vec4_mixc, [Reads Flt 4; Reads Flt 4; Float; Writes 4]);
   (fma.fma_glm_vec4_smoothinterp, [Reads Flt 4; Reads Flt 4; Float; Writes 4]);
   (fma.fma_glm_vec4_smoothinterpc, [Reads Flt 4; Reads Flt 4; Float; Writes 4]);
   (fma.fma_glm_vec4_swizzle, [Reads Flt 4; Index 256; Writes 4]);
   (fma.fma_glm_vec4_reflect, [Reads Flt 4; Reads Flt 4; Writes 4]);
   (fma.fma_glm_vec4_refract, [Reads Flt 4; Reads Flt 4; Float; Writes 4]);
   (fma.fma_glm_vec3_rotate_m4, [Reads Flt 16; Reads Flt 3; Writes 3]);
   (fma.fma_glm_vec3_rotate_m3, [Reads Flt 9; Reads Flt 3; Writes 3]);
   (fma.fma_glm_mat4_copy, [Reads Flt 16; Writes 16]);
   (fma.fma_glm_mat4_identity, [Updates Flt 16]);
   (fma.fma_glm_mat4_zero, [Updates Flt 16]);
   (fma.fma_glm_mat4_mul, [Reads Flt 16; Reads Flt 16; Writes 16]);
   (fma.fma_glm_mat4_mulv, [Reads Flt 16; Reads Flt 4; Writes 4]);
   (fma.fma_glm_mat4_mulv3, [Reads Flt 16; Reads Flt 3; Float; Writes 3]);
   (fma.fma_glm_mat4_transpose_to, [Reads Flt 16; Writes 16]);
   (fma.fma_glm_mat4_transpose, [Updates Flt 16]);
   (fma.fma_glm_mat4_scale, [Updates Flt 16; Float]);
   (fma.fma_glm_mat4_det, [Reads Flt 16]);
   (fma.fma_glm_mat4_inv, [Reads Flt 16; Writes 16]);
   (fma.fma_glm_mat4_inv_fast, [Reads Flt 16; Writes 16]);
   (fma.fma_glm_mat4_swap_col, [Updates Flt 16; Index 4; Index 4]);
   (fma.fma_glm_mat4_rmc, [Reads Flt 4; Reads Flt 16; Reads Flt 4]);
   (fma.fma_glm_mat4_textrans, [Float; Float; Float; Float; Float; Writes 16]);
   (fma.fma_glm_mat3_mul, [Reads Flt 9; Reads Flt 9; Writes 9]);
   (fma.fma_glm_mat2_mul, [Reads Flt 4; Reads Flt 4; Writes 4]);
   (fma.fma_glm_mat2_transpose_to, [Reads Flt 4; Writes 4]);
   (fma.fma_glm_mat2_scale, [Updates Flt 4; Float]);
   (fma.fma_glm_mul, [Reads Flt 16; Reads Flt 16; Writes 16]);
   (fma.fma_glm_mul_rot, [Reads Flt 16; Reads Flt 16; Writes 16]);
   (fma.fma_glm_inv_tr, [Updates Flt 16]);
   (fma.fma_glm_translate_make, [Writes 16; Reads Flt 3]);
   (fma.fma_glm_scale_to, [Reads Flt 16; Reads Flt 3; Writes 16]);
   (fma.fma_glm_scale_make, [Writes 16; Reads Flt 3]);
   (fma.fma_glm_scale, [Updates Flt 16; Reads Flt 3]);
   (fma.fma_glm_scale_uni, [Updates Flt 16; Float]);
   (fma.fma_glm_decompose_rs, [Reads Flt 16; Writes 16; Writes 3]);
   (fma.fma_glm_decompose, [Reads Flt 16; Writes 4; Writes 16; Writes 3]);
   (fma.fma_glm_translate, [Updates Flt 16; Reads Flt 3]);
   (fma.fma_glm_translate_to, [Reads Flt 16; Reads Flt 3; Writes 16]);
   (fma.fma_glm_translate_x, [Updates Flt 16; Float]);
   (fma.fma_glm_translate_y, [Updates Flt 16; Float]);
   (fma.fma_glm_translate_z, [Updates Flt 16; Float]);
   (fma.fma_glm_rotate_x, [Reads Flt 16; Float; Writes 16]);
   (fma.fma_glm_rotate_y, [Reads Flt 16; Float; Writes 16]);
   (fma.fma_glm_rotate_z, [Reads Flt 16; Float; Writes 16]);
   (fma.fma_glm_rotate, [Updates Flt 16; Float; Reads Flt 3]);
   (fma.fma_glm_rotate_at, [Updates Flt 16; Reads Flt 3; Float; Reads Flt 3]);
   (fma.fma_glm_rotate_atm, [Writes 16; Reads Flt 3; Float; Reads Flt 3]);
   (fma.fma_glm_spin, [Updates Flt 16; Float; Reads Flt 3]);
   (fma.fma_glm_translated_to, [Reads Flt 16; Reads Flt 3; Writes 16]);
   (fma.fma_glm_rotated_x, [Reads Flt 16; Float; Writes 16]);
   (fma.fma_glm_rotated_y, [Reads Flt 16; Float; Writes 16]);
   (fma.fma_glm_rotated_z, [Reads Flt 16; Float; Writes 16]);
   (fma.fma_glm_rotated, [Updates Flt 16; Float; Reads Flt 3]);
   (fma.fma_glm_rotated_at, [Updates Flt 16; Reads Flt 3; Float; Reads Flt 3]);
   (fma.fma_glm_spinned, [Updates Flt 16; Float; Reads Flt 3]);
   (fma.fma_glm_plane_normalize, [Updates Flt 4]);
   (fma.fma_glm_ortho_rh_no, [Float; Float; Float; Float; Float; Float; Writes 16]);
   (fma.fma_glm_ortho_aabb_rh_no, [Reads Flt 6; Writes 16]);
   (fma.fma_glm_ortho_aabb_p_rh_no, [Reads Flt 6; Float; Writes 16]);
   (fma.fma_glm_ortho_aabb_pz_rh_no, [Reads Flt 6; Float; Writes 16]);
   (fma.fma_glm_ortho_default_rh_no, [Float; Writes 16]);
   (fma.fma_glm_ortho_default_s_rh_no, [Float; Float; Writes 16]);
   (fma.fma_glm_frustum_rh_no, [Float; Float; Float; Float; Float; Float; Writes 16]);
   (fma.fma_glm_perspective_rh_no, [Float; Float; Float; Float; Writes 16]);
   (fma.fma_glm_perspective_default_rh_no, [Float; Writes 16]);
   (fma.fma_glm_frustum, [Float; Float; Float; Float; Float; Float; Writes 16]);
   (fma.fma_glm_ortho, [Float; Float; Float; Float; Float; Float; Writes 16]);
   (fma.fma_glm_ortho_aabb, [Reads Flt 6; Writes 16]);
   (fma.fma_glm_ortho_aabb_p, [Reads Flt 6; Float; Writes 16]);
   (fma.fma_glm_ortho_aabb_pz, [Reads Flt 6; Float; Writes 16]);
   (fma.fma_glm_ortho_default, [Float; Writes 16]);
   (fma.fma_glm_ortho_default_s, [Float; Float; Writes 16]);
   (fma.fma_glm_perspective, [Float; Float; Float; Float; Writes 16]);
   (fma.fma_glm_perspective_default, [Float; Writes 16]);
   (fma.fma_glm_frustum_planes, [Reads Flt 16; Writes 24]);
   (fma.fma_glm_frustum_corners, [Reads Flt 16; Writes 32]);
   (fma.fma_glm_frustum_center, [Reads Flt 32; Writes 4]);
   (fma.fma_glm_frustum_box, [Reads Flt 32; Reads Flt 16; Writes 6]);
   (fma.fma_glm_frustum_corners_at, [Reads Flt 32; Float; Float; Writes 16]);
   (fma.fma_glm_quat_identity, [Updates Flt 4]);
   (fma.fma_glm_quat_copy, [Reads Flt 4; Writes 4]);
   (fma.fma_glm_quat_normalize_to, [Reads Flt 4; Writes 4]);
   (fma.fma_glm_quat_normalize, [Updates Flt 4]);
   (fma.fma_glm_quat_from_vecs, [Reads Flt 3; Reads Flt 3; Writes 4]);
   (fma.fma_glm_quat_norm, [Reads Flt 4]);
   (fma.fma_glm_quat_dot, [Reads Flt 4; Reads Flt 4]);
   (fma.fma_glm_quat_conjugate, [Reads Flt 4; Writes 4]);
   (fma.fma_glm_quat_inv, [Reads Flt 4; Writes 4]);
   (fma.fma_glm_quat_add, [Reads Flt 4; Reads Flt 4; Writes 4]);
   (fma.fma_glm_quat_sub, [Reads Flt 4; Reads Flt 4; Writes 4]);
   (fma.fma_glm_quat_mul, [Reads Flt 4; Reads Flt 4; Writes 4]);
   (fma.fma_glm_quat_mat4, [Reads Flt 4; Writes 16]);
   (fma.fma_glm_quat_mat4t, [Reads Flt 4; Writes 16]);
   (fma.fma_glm_quat_mat3, [Reads Flt 4; Writes 9]);
   (fma.fma_glm_quat_mat3t, [Reads Flt 4; Writes 9]);
   (fma.fma_glm_quat_lerp, [Reads Flt 4; Reads Flt 4; Float; Writes 4]);
   (fma.fma_glm_quat_lerpc, [Reads Flt 4; Reads Flt 4; Float; Writes 4]);
   (fma.fma_glm_quat_nlerp, [Reads Flt 4; Reads Flt 4; Float; Writes 4]);
   (fma.fma_glm_quat_slerp, [Reads Flt 4; Reads Flt 4; Float; Writes 4]);
   (fma.fma_glm_quat_slerp_longest, [Reads Flt 4; Reads Flt 4; Float; Writes 4]);
   (fma.fma_glm_quat_look, [Reads Flt 3; Reads Flt 4; Writes 16]);
   (fma.fma_glm_quat_rotatev, [Reads Flt 4; Reads Flt 3; Writes 3]);
   (fma.fma_glm_quat_rotate, [Reads Flt 16; Reads Flt 4; Writes 16]);
   (fma.fma_glm_quat_rotate_at, [Updates Flt 16; Reads Flt 4; Reads Flt 3]);
   (fma.fma_glm_quat_rotate_atm, [Writes 16; Reads Flt 4; Reads Flt 3]);
   (fma.fma_glm_perlin_vec4, [Reads Flt 4]);
   (fma.fma_glm_perlin_vec3, [Reads Flt 3]);
   (fma.fma_glm_perlin_vec2, [Reads Flt 2]);
   (fma.fma_glm_unprojecti_no, [Reads Flt 3; Reads Flt 16; Reads Flt 4; Writes 3]);
   (fma.fma_glm_project_no, [Reads Flt 3; Reads Flt 16; Reads Flt 4; Writes 3]);
   (fma.fma_glm_unprojecti, [Reads Flt 3; Reads Flt 16; Reads Flt 4; Writes 3]);
   (fma.fma_glm_unproject, [Reads Flt 3; Reads Flt 16; Reads Flt 4; Writes 3]);
   (fma.fma_glm_project, [Reads Flt 3; Reads Flt 16; Reads Flt 4; Writes 3]);
   (fma.fma_glm_pickmatrix, [Reads Flt 2; Reads Flt 2; Reads Flt 4; Writes 16]);
   (fma.fma_glm_sphere_transform, [Reads Flt 4; Reads Flt 16; Writes 4]);
   (fma.fma_glm_smc, [Float; Reads Flt 16; Reads Flt 4]);
   (fma.fma_glm_ortho_lh_no, [Float; Float; Float; Float; Float; Float; Writes 16]);
   (fma.fma_glm_ortho_aabb_lh_no, [Reads Flt 6; Writes 16]);
   (fma.fma_glm_ortho_aabb_p_lh_no, [Reads Flt 6; Float; Writes 16]);
   (fma.fma_glm_ortho_aabb_pz_lh_no, [Reads Flt 6; Float; Writes 16]);
   (fma.fma_glm_ortho_default_lh_no, [Float; Writes 16]);
   (fma.fma_glm_ortho_default_s_lh_no, [Float; Float; Writes 16]);
   (fma.fma_glm_ortho_lh_zo, [Float; Float; Float; Float; Float; Float; Writes 16]);
   (fma.fma_glm_ortho_aabb_lh_zo, [Reads Flt 6; Writes 16]);
   (fma.fma_glm_ortho_aabb_p_lh_zo, [Reads Flt 6; Float; Writes 16]);
   (fma.fma_glm_ortho_aabb_pz_lh_zo, [Reads Flt 6; Float; Writes 16]);
   (fma.fma_glm_ortho_default_lh_zo, [Float; Writes 16]);
   (fma.fma_glm_ortho_default_s_lh_zo, [Float; Float; Writes 16]);
   (fma.fma_glm_ortho_rh_zo, [Float; Float; Float; Float; Float; Float; Writes 16]);
   (fma.fma_glm_ortho_aabb_rh_zo, [Reads Flt 6; Writes 16]);
   (fma.fma_glm_ortho_aabb_p_rh_zo, [Reads Flt 6; Float; Writes 16]);
   (fma.fma_glm_ortho_aabb_pz_rh_zo, [Reads Flt 6; Float; Writes 16]);
   (fma.fma_glm_ortho_default_rh_zo, [Float; Writes 16]);
   (fma.fma_glm_ortho_default_s_rh_zo, [Float; Float; Writes 16]);
   (fma.fma_glm_frustum_lh_no, [Float; Float; Float; Float; Float; Float; Writes 16]);
   (fma.fma_glm_perspective_lh_no, [Float; Float; Float; Float; Writes 16]);
   (fma.fma_glm_perspective_default_lh_no, [Float; Writes 16]);
   (fma.fma_glm_frustum_lh_zo, [Float; Float; Float; Float; Float; Float; Writes 16]);
   (fma.fma_glm_perspective_lh_zo, [Float; Float; Float; Float; Writes 16]);
   (fma.fma_glm_perspective_default_lh_zo, [Float; Writes 16]);
   (fma.fma_glm_frustum_rh_zo, [Float; Float; Float; Float; Float; Float; Writes 16]);
   (fma.fma_glm_perspective_rh_zo, [Float; Float; Float; Float; Writes 16]);
   (fma.fma_glm_perspective_default_rh_zo, [Float; Writes 16]);
   (fma.fma_glm_unprojecti_zo, [Reads Flt 3; Reads Flt 16; Reads Flt 4; Writes 3]);
   (fma.fma_glm_project_zo, [Reads Flt 3; Reads Flt 16; Reads Flt 4; Writes 3]);
   (neon.neon_glm_vec4_abs, [Reads Flt 4; Writes 4]);
   (neon.neon_glm_vec4_copy, [Reads Flt 4; Writes 4]);
   (neon.neon_glm_vec4_zero, [Updates Flt 4]);
   (neon.neon_glm_vec4_one, [Updates Flt 4]);
   (neon.neon_glm_vec4_dot, [Reads Flt 4; Reads Flt 4]);
   (neon.neon_glm_vec4_norm2, [Reads Flt 4]);
   (neon.neon_glm_vec4_norm, [Reads Flt 4]);
   (neon.neon_glm_vec4_norm_one, [Reads Flt 4]);
   (neon.neon_glm_vec4_norm_inf, [Reads Flt 4]);
   (neon.neon_glm_vec4_add, [Reads Flt 4; Reads Flt 4; Writes 4]);
   (neon.neon_glm_vec4_adds, [Reads Flt 4; Float; Writes 4]);
   (neon.neon_glm_vec4_sub, [Reads Flt 4; Reads Flt 4; Writes 4]);
   (neon.neon_glm_vec4_subs, [Reads Flt 4; Float; Writes 4]);
   (neon.neon_glm_vec4_mul, [Reads Flt 4; Reads Flt 4; Writes 4]);
   (neon.neon_glm_vec4_scale, [Reads Flt 4; Float; Writes 4]);
   (neon.neon_glm_vec4_scale_as, [Reads Flt 4; Float; Writes 4]);
   (neon.neon_glm_vec4_div, [Reads Flt 4; Reads Flt 4; Writes 4]);
   (neon.neon_glm_vec4_divs, [Reads Flt 4; Float; Writes 4]);
   (neon.neon_glm_vec4_addadd, [Reads Flt 4; Reads Flt 4; Updates Flt 4]);
   (neon.neon_glm_vec4_subadd, [Reads Flt 4; Reads Flt 4; Updates Flt 4]);
   (neon.neon_glm_vec4_muladd, [Reads Flt 4; Reads Flt 4; Updates Flt 4]);
   (neon.neon_glm_vec4_muladds, [Reads Flt 4; Float; Updates Flt 4]);
   (neon.neon_glm_vec4_maxadd, [Reads Flt 4; Reads Flt 4; Updates Flt 4]);
   (neon.neon_glm_vec4_minadd, [Reads Flt 4; Reads Flt 4; Updates Flt 4]);
   (neon.neon_glm_vec4_subsub, [Reads Flt 4; Reads Flt 4; Updates Flt 4]);
   (neon.neon_glm_vec4_addsub, [Reads Flt 4; Reads Flt 4; Updates Flt 4]);
   (neon.neon_glm_vec4_mulsub, [Reads Flt 4; Reads Flt 4; Updates Flt 4]);
   (neon.neon_glm_vec4_mulsubs, [Reads Flt 4; Float; Updates Flt 4]);
   (neon.neon_glm_vec4_maxsub, [Reads Flt 4; Reads Flt 4; Updates Flt 4]);
   (neon.neon_glm_vec4_minsub, [Reads Flt 4; Reads Flt 4; Updates Flt 4]);
   (neon.neon_glm_vec4_negate_to, [Reads Flt 4; Writes 4]);
   (neon.neon_glm_vec4_negate, [Updates Flt 4]);
   (neon.neon_glm_vec4_normalize_to, [Reads Flt 4; Writes 4]);
   (neon.neon_glm_vec4_normalize, [Updates Flt 4]);
   (neon.neon_glm_vec4_distance, [Reads Flt 4; Reads Flt 4]);
   (neon.neon_glm_vec4_distance2, [Reads Flt 4; Reads Flt 4]);
   (neon.neon_glm_vec4_maxv, [Reads Flt 4; Reads Flt 4; Writes 4]);
   (neon.neon_glm_vec4_minv, [Reads Flt 4; Reads Flt 4; Writes 4]);
   (neon.neon_glm_vec4_clamp, [Updates Flt 4; Float; Float]);
   (neon.neon_glm_vec4_lerp, [Reads Flt 4; Reads Flt 4; Float; Writes 4]);
   (neon.neon_glm_vec4_lerpc, [Reads Flt 4; Reads Flt 4; Float; Writes 4]);
   (neon.neon_glm_vec4_mix, [Reads Flt 4; Reads Flt 4; Float; Writes 4]);
   (neon.neon_glm_vec4_mixc, [Reads Flt 4; Reads Flt 4; Float; Writes 4]);
   (neon.neon_glm_vec4_smoothinterp, [Reads Flt 4; Reads Flt 4; Float; Writes 4]);
   (neon.neon_glm_vec4_smoothinterpc, [Reads Flt 4; Reads Flt 4; Float; Writes 4]);
   (neon.neon_glm_vec4_swizzle, [Reads Flt 4; Index 256; Writes 4]);
   (neon.neon_glm_vec4_reflect, [Reads Flt 4; Reads Flt 4; Writes 4]);
   (neon.neon_glm_vec4_refract, [Reads Flt 4; Reads Flt 4; Float; Writes 4]);
   (neon.neon_glm_vec3_rotate_m4, [Reads Flt 16; Reads Flt 3; Writes 3]);
   (neon.neon_glm_vec3_rotate_m3, [Reads Flt 9; Reads Flt 3; Writes 3]);
   (neon.neon_glm_mat4_copy, [Reads Flt 16; Writes 16]);
   (neon.neon_glm_mat4_identity, [Updates Flt 16]);
   (neon.neon_glm_mat4_zero, [Updates Flt 16]);
   (neon.neon_glm_mat4_mul, [Reads Flt 16; Reads Flt 16; Writes 16]);
   (neon.neon_glm_mat4_mulv, [Reads Flt 16; Reads Flt 4; Writes 4]);
   (neon.neon_glm_mat4_mulv3, [Reads Flt 16; Reads Flt 3; Float; Writes 3]);
   (neon.neon_glm_mat4_transpose_to, [Reads Flt 16; Writes 16]);
   (neon.neon_glm_mat4_transpose, [Updates Flt 16]);
   (neon.neon_glm_mat4_scale, [Updates Flt 16; Float]);
   (neon.neon_glm_mat4_det, [Reads Flt 16]);
   (neon.neon_glm_mat4_inv, [Reads Flt 16; Writes 16]);
   (neon.neon_glm_mat4_inv_fast, [Reads Flt 16; Writes 16]);
   (neon.neon_glm_mat4_swap_col, [Updates Flt 16; Index 4; Index 4]);
   (neon.neon_glm_mat4_rmc, [Reads Flt 4; Reads Flt 16; Reads Flt 4]);
   (neon.neon_glm_mat4_textrans, [Float; Float; Float; Float; Float; Writes 16]);
   (neon.neon_glm_mat2_mul, [Reads Flt 4; Reads Flt 4; Writes 4]);
   (neon.neon_glm_mat2_scale, [Updates Flt 4; Float]);
   (neon.neon_glm_mul, [Reads Flt 16; Reads Flt 16; Writes 16]);
   (neon.neon_glm_mul_rot, [Reads Flt 16; Reads Flt 16; Writes 16]);
   (neon.neon_glm_inv_tr, [Updates Flt 16]);
   (neon.neon_glm_translate_make, [Writes 16; Reads Flt 3]);
   (neon.neon_glm_scale_to, [Reads Flt 16; Reads Flt 3; Writes 16]);
   (neon.neon_glm_scale_make, [Writes 16; Reads Flt 3]);
   (neon.neon_glm_scale, [Updates Flt 16; Reads Flt 3]);
   (neon.neon_glm_scale_uni, [Updates Flt 16; Float]);
   (neon.neon_glm_decompose_rs, [Reads Flt 16; Writes 16; Writes 3]);
   (neon.neon_glm_decompose, [Reads Flt 16; Writes 4; Writes 16; Writes 3]);
   (neon.neon_glm_translate, [Updates Flt 16; Reads Flt 3]);
   (neon.neon_glm_translate_to, [Reads Flt 16; Reads Flt 3; Writes 16]);
   (neon.neon_glm_translate_x, [Updates Flt 16; Float]);
   (neon.neon_glm_translate_y, [Updates Flt 16; Float]);
   (neon.neon_glm_translate_z, [Updates Flt 16; Float]);
   (neon.neon_glm_rotate_x, [Reads Flt 16; Float; Writes 16]);
   (neon.neon_glm_rotate_y, [Reads Flt 16; Float; Writes 16]);
   (neon.neon_glm_rotate_z, [Reads Flt 16; Float; Writes 16]);
   (neon.neon_glm_rotate, [Updates Flt 16; Float; Reads Flt 3]);
   (neon.neon_glm_rotate_at, [Updates Flt 16; Reads Flt 3; Float; Reads Flt 3]);
   (neon.neon_glm_rotate_atm, [Writes 16; Reads Flt 3; Float; Reads Flt 3]);
   (neon.neon_glm_spin, [Updates Flt 16; Float; Reads Flt 3]);
   (neon.neon_glm_translated_to, [Reads Flt 16; Reads Flt 3; Writes 16]);
   (neon.neon_glm_rotated_x, [Reads Flt 16; Float; Writes 16]);
   (neon.neon_glm_rotated_y, [Reads Flt 16; Float; Writes 16]);
   (neon.neon_glm_rotated_z, [Reads Flt 16; Float; Writes 16]);
   (neon.neon_glm_rotated, [Updates Flt 16; Float; Reads Flt 3]);
   (neon.neon_glm_rotated_at, [Updates Flt 16; Reads Flt 3; Float; Reads Flt 3]);
   (neon.neon_glm_spinned, [Updates Flt 16; Float; Reads Flt 3]);
   (neon.neon_glm_plane_normalize, [Updates Flt 4]);
   (neon.neon_glm_ortho_rh_no, [Float; Float; Float; Float; Float; Float; Writes 16]);
   (neon.neon_glm_ortho_aabb_rh_no, [Reads Flt 6; Writes 16]);
   (neon.neon_glm_ortho_aabb_p_rh_no, [Reads Flt 6; Float; Writes 16]);
   (neon.neon_glm_ortho_aabb_pz_rh_no, [Reads Flt 6; Float; Writes 16]);
   (neon.neon_glm_ortho_default_rh_no, [Float; Writes 16]);
   (neon.neon_glm_ortho_default_s_rh_no, [Float; Float; Writes 16]);
   (neon.neon_glm_frustum_rh_no, [Float; Float; Float; Float; Float; Float; Writes 16]);
   (neon.neon_glm_perspective_rh_no, [Float; Float; Float; Float; Writes 16]);
   (neon.neon_glm_perspective_default_rh_no, [Float; Writes 16]);
   (neon.neon_glm_frustum, [Float; Float; Float; Float; Float; Float; Writes 16]);
   (neon.neon_glm_ortho, [Float; Float; Float; Float; Float; Float; Writes 16]);
   (neon.neon_glm_ortho_aabb, [Reads Flt 6; Writes 16]);
   (neon.neon_glm_ortho_aabb_p, [Reads Flt 6; Float; Writes 16]);
   (neon.neon_glm_ortho_aabb_pz, [Reads Flt 6; Float; Writes 16]);
   (neon.neon_glm_ortho_default, [Float; Writes 16]);
   (neon.neon_glm_ortho_default_s, [Float; Float; Writes 16]);
   (neon.neon_glm_perspective, [Float; Float; Float; Float; Writes 16]);
   (neon.neon_glm_perspective_default, [Float; Writes 16]);
   (neon.neon_glm_frustum_planes, [Reads Flt 16; Writes 24]);
   (neon.neon_glm_frustum_corners, [Reads Flt 16; Writes 32]);
   (neon.neon_glm_frustum_center, [Reads Flt 32; Writes 4]);
   (neon.neon_glm_frustum_box, [Reads Flt 32; Reads Flt 16; Writes 6]);
   (neon.neon_glm_frustum_corners_at, [Reads Flt 32; Float; Float; Writes 16]);
   (neon.neon_glm_quat_identity, [Updates Flt 4]);
   (neon.neon_glm_quat_copy, [Reads Flt 4; Writes 4]);
   (neon.neon_glm_quat_normalize_to, [Reads Flt 4; Writes 4]);
   (neon.neon_glm_quat_normalize, [Updates Flt 4]);
   (neon.neon_glm_quat_from_vecs, [Reads Flt 3; Reads Flt 3; Writes 4]);
   (neon.neon_glm_quat_norm, [Reads Flt 4]);
   (neon.neon_glm_quat_dot, [Reads Flt 4; Reads Flt 4]);
   (neon.neon_glm_quat_conjugate, [Reads Flt 4; Writes 4]);
   (neon.neon_glm_quat_inv, [Reads Flt 4; Writes 4]);
   (neon.neon_glm_quat_add, [Reads Flt 4; Reads Flt 4; Writes 4]);
   (neon.neon_glm_quat_sub, [Reads Flt 4; Reads Flt 4; Writes 4]);
   (neon.neon_glm_quat_mul, [Reads Flt 4; Reads Flt 4; Writes 4]);
   (neon.neon_glm_quat_mat4, [Reads Flt 4; Writes 16]);
   (neon.neon_glm_quat_mat4t, [Reads Flt 4; Writes 16]);
   (neon.neon_glm_quat_mat3, [Reads Flt 4; Writes 9]);
   (neon.neon_glm_quat_mat3t, [Reads Flt 4; Writes 9]);
   (neon.neon_glm_quat_lerp, [Reads Flt 4; Reads Flt 4; Float; Writes 4]);
   (neon.neon_glm_quat_lerpc, [Reads Flt 4; Reads Flt 4; Float; Writes 4]);
   (neon.neon_glm_quat_nlerp, [Reads Flt 4; Reads Flt 4; Float; Writes 4]);
   (neon.neon_glm_quat_slerp, [Reads Flt 4; Reads Flt 4; Float; Writes 4]);
   (neon.neon_glm_quat_slerp_longest, [Reads Flt 4; Reads Flt 4; Float; Writes 4]);
   (neon.neon_glm_quat_look, [Reads Flt 3; Reads Flt 4; Writes 16]);
   (neon.neon_glm_quat_rotatev, [Reads Flt 4; Reads Flt 3; Writes 3]);
   (neon.neon_glm_quat_rotate, [Reads Flt 16; Reads Flt 4; Writes 16]);
   (neon.neon_glm_quat_rotate_at, [Updates Flt 16; Reads Flt 4; Reads Flt 3]);
   (neon.neon_glm_quat_rotate_atm, [Writes 16; Reads Flt 4; Reads Flt 3]);
   (neon.neon_glm_perlin_vec4, [Reads Flt 4]);
   (neon.neon_glm_perlin_vec3, [Reads Flt 3]);
   (neon.neon_glm_perlin_vec2, [Reads Flt 2]);
   (neon.neon_glm_unprojecti_no, [Reads Flt 3; Reads Flt 16; Reads Flt 4; Writes 3]);
   (neon.neon_glm_project_no, [Reads Flt 3; Reads Flt 16; Reads Flt 4; Writes 3]);
   (neon.neon_glm_unprojecti, [Reads Flt 3; Reads Flt 16; Reads Flt 4; Writes 3]);
   (neon.neon_glm_unproject, [Reads Flt 3; Reads Flt 16; Reads Flt 4; Writes 3]);
   (neon.neon_glm_project, [Reads Flt 3; Reads Flt 16; Reads Flt 4; Writes 3]);
   (neon.neon_glm_pickmatrix, [Reads Flt 2; Reads Flt 2; Reads Flt 4; Writes 16]);
   (neon.neon_glm_sphere_transform, [Reads Flt 4; Reads Flt 16; Writes 4]);
   (neon.neon_glm_smc, [Float; Reads Flt 16; Reads Flt 4]);
   (neon.neon_glm_ortho_lh_no, [Float; Float; Float; Float; Float; Float; Writes 16]);
   (neon.neon_glm_ortho_aabb_lh_no, [Reads Flt 6; Writes 16]);
   (neon.neon_glm_ortho_aabb_p_lh_no, [Reads Flt 6; Float; Writes 16]);
   (neon.neon_glm_ortho_aabb_pz_lh_no, [Reads Flt 6; Float; Writes 16]);
   (neon.neon_glm_ortho_default_lh_no, [Float; Writes 16]);
   (neon.neon_glm_ortho_default_s_lh_no, [Float; Float; Writes 16]);
   (neon.neon_glm_ortho_lh_zo, [Float; Float; Float; Float; Float; Float; Writes 16]);
   (neon.neon_glm_ortho_aabb_lh_zo, [Reads Flt 6; Writes 16]);
   (neon.neon_glm_ortho_aabb_p_lh_zo, [Reads Flt 6; Float; Writes 16]);
   (neon.neon_glm_ortho_aabb_pz_lh_zo, [Reads Flt 6; Float; Writes 16]);
   (neon.neon_glm_ortho_default_lh_zo, [Float; Writes 16]);
   (neon.neon_glm_ortho_default_s_lh_zo, [Float; Float; Writes 16]);
   (neon.neon_glm_ortho_rh_zo, [Float; Float; Float; Float; Float; Float; Writes 16]);
   (neon.neon_glm_ortho_aabb_rh_zo, [Reads Flt 6; Writes 16]);
   (neon.neon_glm_ortho_aabb_p_rh_zo, [Reads Flt 6; Float; Writes 16]);
   (neon.neon_glm_ortho_aabb_pz_rh_zo, [Reads Flt 6; Float; Writes 16]);
   (neon.neon_glm_ortho_default_rh_zo, [Float; Writes 16]);
   (neon.neon_glm_ortho_default_s_rh_zo, [Float; Float; Writes 16]);
   (neon.neon_glm_frustum_lh_no, [Float; Float; Float; Float; Float; Float; Writes 16]);
   (neon.neon_glm_perspective_lh_no, [Float; Float; Float; Float; Writes 16]);
   (neon.neon_glm_perspective_default_lh_no, [Float; Writes 16]);
   (neon.neon_glm_frustum_lh_zo, [Float; Float; Float; Float; Float; Float; Writes 16]);
   (neon.neon_glm_perspective_lh_zo, [Float; Float; Float; Float; Writes 16]);
   (neon.neon_glm_perspective_default_lh_zo, [Float; Writes 16]);
   (neon.neon_glm_frustum_rh_zo, [Float; Float; Float; Float; Float; Float; Writes 16]);
   (neon.neon_glm_perspective_rh_zo, [Float; Float; Float; Float; Writes 16]);
   (neon.neon_glm_perspective_default_rh_zo, [Float; Writes 16]);
   (neon.neon_glm_unprojecti_zo, [Reads Flt 3; Reads Flt 16; Reads Flt 4; Writes 3]);
   (neon.neon_glm_project_zo, [Reads Flt 3; Reads Flt 16; Reads Flt 4; Writes 3]);
   (neon32.neon32_glm_vec4_abs, [Reads Flt 4; Writes 4]);
   (neon32.neon32_glm_vec4_copy, [Reads Flt 4; Writes 4]);
   (neon32.neon32_glm_vec4_zero, [Updates Flt 4]);
   (neon32.neon32_glm_vec4_one, [Updates Flt 4]);
   (neon32.neon32_glm_vec4_dot, [Reads Flt 4; Reads Flt 4]);
   (neon32.neon32_glm_vec4_norm2, [Reads Flt 4]);
   (neon32.neon32_glm_vec4_norm, [Reads Flt 4]);
   (neon32.neon32_glm_vec4_norm_one, [Reads Flt 4]);
   (neon32.neon32_glm_vec4_norm_inf, [Reads Flt 4]);
   (neon32.neon32_glm_vec4_add, [Reads Flt 4; Reads Flt 4; Writes 4]);
   (neon32.neon32_glm_vec4_adds, [Reads Flt 4; Float; Writes 4]);
   (neon32.neon32_glm_vec4_sub, [Reads Flt 4; Reads Flt 4; Writes 4]);
   (neon32.neon32_glm_vec4_subs, [Reads Flt 4; Float; Writes 4]);
   (neon32.neon32_glm_vec4_mul, [Reads Flt 4; Reads Flt 4; Writes 4]);
   (neon32.neon32_glm_vec4_scale, [Reads Flt 4; Float; Writes 4]);
   (neon32.neon32_glm_vec4_scale_as, [Reads Flt 4; Float; Writes 4]);
   (neon32.neon32_glm_vec4_div, [Reads Flt 4; Reads Flt 4; Writes 4]);
   (neon32.neon32_glm_vec4_divs, [Reads Flt 4; Float; Writes 4]);
   (neon32.neon32_glm_vec4_addadd, [Reads Flt 4; Reads Flt 4; Updates Flt 4]);
   (neon32.neon32_glm_vec4_subadd, [Reads Flt 4; Reads Flt 4; Updates Flt 4]);
   (neon32.neon32_glm_vec4_muladd, [Reads Flt 4; Reads Flt 4; Updates Flt 4]);
   (neon32.neon32_glm_vec4_muladds, [Reads Flt 4; Float; Updates Flt 4]);
   (neon32.neon32_glm_vec4_maxadd, [Reads Flt 4; Reads Flt 4; Updates Flt 4]);
   (neon32.neon32_glm_vec4_minadd, [Reads Flt 4; Reads Flt 4; Updates Flt 4]);
   (neon32.neon32_glm_vec4_subsub, [Reads Flt 4; Reads Flt 4; Updates Flt 4]);
   (neon32.neon32_glm_vec4_addsub, [Reads Flt 4; Reads Flt 4; Updates Flt 4]);
   (neon32.neon32_glm_vec4_mulsub, [Reads Flt 4; Reads Flt 4; Updates Flt 4]);
   (neon32.neon32_glm_vec4_mulsubs, [Reads Flt 4; Float; Updates Flt 4]);
   (neon32.neon32_glm_vec4_maxsub, [Reads Flt 4; Reads Flt 4; Updates Flt 4]);
   (neon32.neon32_glm_vec4_minsub, [Reads Flt 4; Reads Flt 4; Updates Flt 4]);
   (neon32.neon32_glm_vec4_negate_to, [Reads Flt 4; Writes 4]);
   (neon32.neon32_glm_vec4_negate, [Updates Flt 4]);
   (neon32.neon32_glm_vec4_normalize_to, [Reads Flt 4; Writes 4]);
   (neon32.neon32_glm_vec4_normalize, [Updates Flt 4]);
   (neon32.neon32_glm_vec4_distance, [Reads Flt 4; Reads Flt 4]);
   (neon32.neon32_glm_vec4_distance2, [Reads Flt 4; Reads Flt 4]);
   (neon32.neon32_glm_vec4_maxv, [Reads Flt 4; Reads Flt 4; Writes 4]);
   (neon32.neon32_glm_vec4_minv, [Reads Flt 4; Reads Flt 4; Writes 4]);
   (neon32.neon32_glm_vec4_clamp, [Updates Flt 4; Float; Float]);
   (neon32.neon32_glm_vec4_lerp, [Reads Flt 4; Reads Flt 4; Float; Writes 4]);
   (neon32.neon32_glm_vec4_lerpc, [Reads Flt 4; Reads Flt 4; Float; Writes 4]);
   (neon32.neon32_glm_vec4_mix, [Reads Flt 4; Reads Flt 4; Float; Writes 4]);
   (neon32.neon32_glm_vec4_mixc, [Reads Flt 4; Reads Flt 4; Float; Writes 4]);
   (neon32.neon32_glm_vec4_smoothinterp, [Reads Flt 4; Reads Flt 4; Float; Writes 4]);
   (neon32.neon32_glm_vec4_smoothinterpc, [Reads Flt 4; Reads Flt 4; Float; Writes 4]);
   (neon32.neon32_glm_vec4_swizzle, [Reads Flt 4; Index 256; Writes 4]);
   (neon32.neon32_glm_vec4_reflect, [Reads Flt 4; Reads Flt 4; Writes 4]);
   (neon32.neon32_glm_vec4_refract, [Reads Flt 4; Reads Flt 4; Float; Writes 4]);
   (neon32.neon32_glm_vec3_rotate_m4, [Reads Flt 16; Reads Flt 3; Writes 3]);
   (neon32.neon32_glm_vec3_rotate_m3, [Reads Flt 9; Reads Flt 3; Writes 3]);
   (neon32.neon32_glm_mat4_copy, [Reads Flt 16; Writes 16]);
   (neon32.neon32_glm_mat4_identity, [Updates Flt 16]);
   (neon32.neon32_glm_mat4_zero, [Updates Flt 16]);
   (neon32.neon32_glm_mat4_mul, [Reads Flt 16; Reads Flt 16; Writes 16]);
   (neon32.neon32_glm_mat4_mulv, [Reads Flt 16; Reads Flt 4; Writes 4]);
   (neon32.neon32_glm_mat4_mulv3, [Reads Flt 16; Reads Flt 3; Float; Writes 3]);
   (neon32.neon32_glm_mat4_transpose_to, [Reads Flt 16; Writes 16]);
   (neon32.neon32_glm_mat4_transpose, [Updates Flt 16]);
   (neon32.neon32_glm_mat4_scale, [Updates Flt 16; Float]);
   (neon32.neon32_glm_mat4_det, [Reads Flt 16]);
   (neon32.neon32_glm_mat4_inv, [Reads Flt 16; Writes 16]);
   (neon32.neon32_glm_mat4_inv_fast, [Reads Flt 16; Writes 16]);
   (neon32.neon32_glm_mat4_swap_col, [Updates Flt 16; Index 4; Index 4]);
   (neon32.neon32_glm_mat4_rmc, [Reads Flt 4; Reads Flt 16; Reads Flt 4]);
   (neon32.neon32_glm_mat4_textrans, [Float; Float; Float; Float; Float; Writes 16]);
   (neon32.neon32_glm_mat2_mul, [Reads Flt 4; Reads Flt 4; Writes 4]);
   (neon32.neon32_glm_mat2_scale, [Updates Flt 4; Float]);
   (neon32.neon32_glm_mul, [Reads Flt 16; Reads Flt 16; Writes 16]);
   (neon32.neon32_glm_mul_rot, [Reads Flt 16; Reads Flt 16; Writes 16]);
   (neon32.neon32_glm_inv_tr, [Updates Flt 16]);
   (neon32.neon32_glm_translate_make, [Writes 16; Reads Flt 3]);
   (neon32.neon32_glm_scale_to, [Reads Flt 16; Reads Flt 3; Writes 16]);
   (neon32.neon32_glm_scale_make, [Writes 16; Reads Flt 3]);
   (neon32.neon32_glm_scale, [Updates Flt 16; Reads Flt 3]);
   (neon32.neon32_glm_scale_uni, [Updates Flt 16; Float]);
   (neon32.neon32_glm_decompose_rs, [Reads Flt 16; Writes 16; Writes 3]);
   (neon32.neon32_glm_decompose, [Reads Flt 16; Writes 4; Writes 16; Writes 3]);
   (neon32.neon32_glm_translate, [Updates Flt 16; Reads Flt 3]);
   (neon32.neon32_glm_translate_to, [Reads Flt 16; Reads Flt 3; Writes 16]);
   (neon32.neon32_glm_translate_x, [Updates Flt 16; Float]);
   (neon32.neon32_glm_translate_y, [Updates Flt 16; Float]);
   (neon32.neon32_glm_translate_z, [Updates Flt 16; Float]);
   (neon32.neon32_glm_rotate_x, [Reads Flt 16; Float; Writes 16]);
   (neon32.neon32_glm_rotate_y, [Reads Flt 16; Float; Writes 16]);
   (neon32.neon32_glm_rotate_z, [Reads Flt 16; Float; Writes 16]);
   (neon32.neon32_glm_rotate, [Updates Flt 16; Float; Reads Flt 3]);
   (neon32.neon32_glm_rotate_at, [Updates Flt 16; Reads Flt 3; Float; Reads Flt 3]);
   (neon32.neon32_glm_rotate_atm, [Writes 16; Reads Flt 3; Float; Reads Flt 3]);
   (neon32.neon32_glm_spin, [Updates Flt 16; Float; Reads Flt 3]);
   (neon32.neon32_glm_translated_to, [Reads Flt 16; Reads Flt 3; Writes 16]);
   (neon32.neon32_glm_rotated_x, [Reads Flt 16; Float; Writes 16]);
   (neon32.neon32_glm_rotated_y, [Reads Flt 16; Float; Writes 16]);
   (neon32.neon32_glm_rotated_z, [Reads Flt 16; Float; Writes 16]);
   (neon32.neon32_glm_rotated, [Updates Flt 16; Float; Reads Flt 3]);
   (neon32.neon32_glm_rotated_at, [Updates Flt 16; Reads Flt 3; Float; Reads Flt 3]);
   (neon32.neon32_glm_spinned, [Updates Flt 16; Float; Reads Flt 3]);
   (neon32.neon32_glm_plane_normalize, [Updates Flt 4]);
   (neon32.neon32_glm_ortho_rh_no, [Float; Float; Float; Float; Float; Float; Writes 16]);
   (neon32.neon32_glm_ortho_aabb_rh_no, [Reads Flt 6; Writes 16]);
   (neon32.neon32_glm_ortho_aabb_p_rh_no, [Reads Flt 6; Float; Writes 16]);
   (neon32.neon32_glm_ortho_aabb_pz_rh_no, [Reads Flt 6; Float; Writes 16]);
   (neon32.neon32_glm_ortho_default_rh_no, [Float; Writes 16]);
   (neon32.neon32_glm_ortho_default_s_rh_no, [Float; Float; Writes 16]);
   (neon32.neon32_glm_frustum_rh_no, [Float; Float; Float; Float; Float; Float; Writes 16]);
   (neon32.neon32_glm_perspective_rh_no, [Float; Float; Float; Float; Writes 16]);
   (neon32.neon32_glm_perspective_default_rh_no, [Float; Writes 16]);
   (neon32.neon32_glm_frustum, [Float; Float; Float; Float; Float; Float; Writes 16]);
   (neon32.neon32_glm_ortho, [Float; Float; Float; Float; Float; Float; Writes 16]);
   (neon32.neon32_glm_ortho_aabb, [Reads Flt 6; Writes 16]);
   (neon32.neon32_glm_ortho_aabb_p, [Reads Flt 6; Float; Writes 16]);
   (neon32.neon32_glm_ortho_aabb_pz, [Reads Flt 6; Float; Writes 16]);
   (neon32.neon32_glm_ortho_default, [Float; Writes 16]);
   (neon32.neon32_glm_ortho_default_s, [Float; Float; Writes 16]);
   (neon32.neon32_glm_perspective, [Float; Float; Float; Float; Writes 16]);
   (neon32.neon32_glm_perspective_default, [Float; Writes 16]);
   (neon32.neon32_glm_frustum_planes, [Reads Flt 16; Writes 24]);
   (neon32.neon32_glm_frustum_corners, [Reads Flt 16; Writes 32]);
   (neon32.neon32_glm_frustum_center, [Reads Flt 32; Writes 4]);
   (neon32.neon32_glm_frustum_box, [Reads Flt 32; Reads Flt 16; Writes 6]);
   (neon32.neon32_glm_frustum_corners_at, [Reads Flt 32; Float; Float; Writes 16]);
   (neon32.neon32_glm_quat_identity, [Updates Flt 4]);
   (neon32.neon32_glm_quat_copy, [Reads Flt 4; Writes 4]);
   (neon32.neon32_glm_quat_normalize_to, [Reads Flt 4; Writes 4]);
   (neon32.neon32_glm_quat_normalize, [Updates Flt 4]);
   (neon32.neon32_glm_quat_from_vecs, [Reads Flt 3; Reads Flt 3; Writes 4]);
   (neon32.neon32_glm_quat_norm, [Reads Flt 4]);
   (neon32.neon32_glm_quat_dot, [Reads Flt 4; Reads Flt 4]);
   (neon32.neon32_glm_quat_conjugate, [Reads Flt 4; Writes 4]);
   (neon32.neon32_glm_quat_inv, [Reads Flt 4; Writes 4]);
   (neon32.neon32_glm_quat_add, [Reads Flt 4; Reads Flt 4; Writes 4]);
   (neon32.neon32_glm_quat_sub, [Reads Flt 4; Reads Flt 4; Writes 4]);
   (neon32.neon32_glm_quat_mul, [Reads Flt 4; Reads Flt 4; Writes 4]);
   (neon32.neon32_glm_quat_mat4, [Reads Flt 4; Writes 16]);
   (neon32.neon32_glm_quat_mat4t, [Reads Flt 4; Writes 16]);
   (neon32.neon32_glm_quat_mat3, [Reads Flt 4; Writes 9]);
   (neon32.neon32_glm_quat_mat3t, [Reads Flt 4; Writes 9]);
   (neon32.neon32_glm_quat_lerp, [Reads Flt 4; Reads Flt 4; Float; Writes 4]);
   (neon32.neon32_glm_quat_lerpc, [Reads Flt 4; Reads Flt 4; Float; Writes 4]);
   (neon32.neon32_glm_quat_nlerp, [Reads Flt 4; Reads Flt 4; Float; Writes 4]);
   (neon32.neon32_glm_quat_slerp, [Reads Flt 4; Reads Flt 4; Float; Writes 4]);
   (neon32.neon32_glm_quat_slerp_longest, [Reads Flt 4; Reads Flt 4; Float; Writes 4]);
   (neon32.neon32_glm_quat_look, [Reads Flt 3; Reads Flt 4; Writes 16]);
   (neon32.neon32_glm_quat_rotatev, [Reads Flt 4; Reads Flt 3; Writes 3]);
   (neon32.neon32_glm_quat_rotate, [Reads Flt 16; Reads Flt 4; Writes 16]);
   (neon32.neon32_glm_quat_rotate_at, [Updates Flt 16; Reads Flt 4; Reads Flt 3]);
   (neon32.neon32_glm_quat_rotate_atm, [Writes 16; Reads Flt 4; Reads Flt 3]);
   (neon32.neon32_glm_perlin_vec4, [Reads Flt 4]);
   (neon32.neon32_glm_perlin_vec3, [Reads Flt 3]);
   (neon32.neon32_glm_perlin_vec2, [Reads Flt 2]);
   (neon32.neon32_glm_unprojecti_no, [Reads Flt 3; Reads Flt 16; Reads Flt 4; Writes 3]);
   (neon32.neon32_glm_project_no, [Reads Flt 3; Reads Flt 16; Reads Flt 4; Writes 3]);
   (neon32.neon32_glm_unprojecti, [Reads Flt 3; Reads Flt 16; Reads Flt 4; Writes 3]);
   (neon32.neon32_glm_unproject, [Reads Flt 3; Reads Flt 16; Reads Flt 4; Writes 3]);
   (neon32.neon32_glm_project, [Reads Flt 3; Reads Flt 16; Reads Flt 4; Writes 3]);
   (neon32.neon32_glm_pickmatrix, [Reads Flt 2; Reads Flt 2; Reads Flt 4; Writes 16]);
   (neon32.neon32_glm_sphere_transform, [Reads Flt 4; Reads Flt 16; Writes 4]);
   (neon32.neon32_glm_smc, [Float; Reads Flt 16; Reads Flt 4]);
   (neon32.neon32_glm_ortho_lh_no, [Float; Float; Float; Float; Float; Float; Writes 16]);
   (neon32.neon32_glm_ortho_aabb_lh_no, [Reads Flt 6; Writes 16]);
   (neon32.neon32_glm_ortho_aabb_p_lh_no, [Reads Flt 6; Float; Writes 16]);
   (neon32.neon32_glm_ortho_aabb_pz_lh_no, [Reads Flt 6; Float; Writes 16]);
   (neon32.neon32_glm_ortho_default_lh_no, [Float; Writes 16]);
   (neon32.neon32_glm_ortho_default_s_lh_no, [Float; Float; Writes 16]);
   (neon32.neon32_glm_ortho_lh_zo, [Float; Float; Float; Float; Float; Float; Writes 16]);
   (neon32.neon32_glm_ortho_aabb_lh_zo, [Reads Flt 6; Writes 16]);
   (neon32.neon32_glm_ortho_aabb_p_lh_zo, [Reads Flt 6; Float; Writes 16]);
   (neon32.neon32_glm_ortho_aabb_pz_lh_zo, [Reads Flt 6; Float; Writes 16]);
   (neon32.neon32_glm_ortho_default_lh_zo, [Float; Writes 16]);
   (neon32.neon32_glm_ortho_default_s_lh_zo, [Float; Float; Writes 16]);
   (neon32.neon32_glm_ortho_rh_zo, [Float; Float; Float; Float; Float; Float; Writes 16]);
   (neon32.neon32_glm_ortho_aabb_rh_zo, [Reads Flt 6; Writes 16]);
   (neon32.neon32_glm_ortho_aabb_p_rh_zo, [Reads Flt 6; Float; Writes 16]);
   (neon32.neon32_glm_ortho_aabb_pz_rh_zo, [Reads Flt 6; Float; Writes 16]);
   (neon32.neon32_glm_ortho_default_rh_zo, [Float; Writes 16]);
   (neon32.neon32_glm_ortho_default_s_rh_zo, [Float; Float; Writes 16]);
   (neon32.neon32_glm_frustum_lh_no, [Float; Float; Float; Float; Float; Float; Writes 16]);
   (neon32.neon32_glm_perspective_lh_no, [Float; Float; Float; Float; Writes 16]);
   (neon32.neon32_glm_perspective_default_lh_no, [Float; Writes 16]);
   (neon32.neon32_glm_frustum_lh_zo, [Float; Float; Float; Float; Float; Float; Writes 16]);
   (neon32.neon32_glm_perspective_lh_zo, [Float; Float; Float; Float; Writes 16]);
   (neon32.neon32_glm_perspective_default_lh_zo, [Float; Writes 16]);
   (neon32.neon32_glm_frustum_rh_zo, [Float; Float; Float; Float; Float; Float; Writes 16]);
   (neon32.neon32_glm_perspective_rh_zo, [Float; Float; Float; Float; Writes 16]);
   (neon32.neon32_glm_perspective_default_rh_zo, [Float; Writes 16]);
   (neon32.neon32_glm_unprojecti_zo, [Reads Flt 3; Reads Flt 16; Reads Flt 4; Writes 3]);
   (neon32.neon32_glm_project_zo, [Reads Flt 3; Reads Flt 16; Reads Flt 4; Writes 3]);
   (wasm.wasm_glm_vec4_broadcast, [Float; Writes 4]);
   (wasm.wasm_glm_vec4_fill, [Writes 4; Float]);
   (wasm.wasm_glm_vec4_abs, [Reads Flt 4; Writes 4]);
   (wasm.wasm_glm_vec4_hadd, [Reads Flt 4]);
   (wasm.wasm_glm_vec4_sqrt, [Reads Flt 4; Writes 4]);
   (wasm.wasm_glm_vec4_copy, [Reads Flt 4; Writes 4]);
   (wasm.wasm_glm_vec4_ucopy, [Reads Flt 4; Writes 4]);
   (wasm.wasm_glm_vec4_zero, [Updates Flt 4]);
   (wasm.wasm_glm_vec4_one, [Updates Flt 4]);
   (wasm.wasm_glm_vec4_dot, [Reads Flt 4; Reads Flt 4]);
   (wasm.wasm_glm_vec4_norm2, [Reads Flt 4]);
   (wasm.wasm_glm_vec4_norm, [Reads Flt 4]);
   (wasm.wasm_glm_vec4_norm_one, [Reads Flt 4]);
   (wasm.wasm_glm_vec4_norm_inf, [Reads Flt 4]);
   (wasm.wasm_glm_vec4_add, [Reads Flt 4; Reads Flt 4; Writes 4]);
   (wasm.wasm_glm_vec4_adds, [Reads Flt 4; Float; Writes 4]);
   (wasm.wasm_glm_vec4_sub, [Reads Flt 4; Reads Flt 4; Writes 4]);
   (wasm.wasm_glm_vec4_subs, [Reads Flt 4; Float; Writes 4]);
   (wasm.wasm_glm_vec4_mul, [Reads Flt 4; Reads Flt 4; Writes 4]);
   (wasm.wasm_glm_vec4_scale, [Reads Flt 4; Float; Writes 4]);
   (wasm.wasm_glm_vec4_scale_as, [Reads Flt 4; Float; Writes 4]);
   (wasm.wasm_glm_vec4_div, [Reads Flt 4; Reads Flt 4; Writes 4]);
   (wasm.wasm_glm_vec4_divs, [Reads Flt 4; Float; Writes 4]);
   (wasm.wasm_glm_vec4_addadd, [Reads Flt 4; Reads Flt 4; Updates Flt 4]);
   (wasm.wasm_glm_vec4_subadd, [Reads Flt 4; Reads Flt 4; Updates Flt 4]);
   (wasm.wasm_glm_vec4_muladd, [Reads Flt 4; Reads Flt 4; Updates Flt 4]);
   (wasm.wasm_glm_vec4_muladds, [Reads Flt 4; Float; Updates Flt 4]);
   (wasm.wasm_glm_vec4_maxadd, [Reads Flt 4; Reads Flt 4; Updates Flt 4]);
   (wasm.wasm_glm_vec4_minadd, [Reads Flt 4; Reads Flt 4; Updates Flt 4]);
   (wasm.wasm_glm_vec4_subsub, [Reads Flt 4; Reads Flt 4; Updates Flt 4]);
   (wasm.wasm_glm_vec4_addsub, [Reads Flt 4; Reads Flt 4; Updates Flt 4]);
   (wasm.wasm_glm_vec4_mulsub, [Reads Flt 4; Reads Flt 4; Updates Flt 4]);
   (wasm.wasm_glm_vec4_mulsubs, [Reads Flt 4; Float; Updates Flt 4]);
   (wasm.wasm_glm_vec4_maxsub, [Reads Flt 4; Reads Flt 4; Updates Flt 4]);
   (wasm.wasm_glm_vec4_minsub, [Reads Flt 4; Reads Flt 4; Updates Flt 4]);
   (wasm.wasm_glm_vec4_negate_to, [Reads Flt 4; Writes 4]);
   (wasm.wasm_glm_vec4_negate, [Updates Flt 4]);
   (wasm.wasm_glm_vec4_normalize_to, [Reads Flt 4; Writes 4]);
   (wasm.wasm_glm_vec4_normalize, [Updates Flt 4]);
   (wasm.wasm_glm_vec4_distance, [Reads Flt 4; Reads Flt 4]);
   (wasm.wasm_glm_vec4_distance2, [Reads Flt 4; Reads Flt 4]);
   (wasm.wasm_glm_vec4_maxv, [Reads Flt 4; Reads Flt 4; Writes 4]);
   (wasm.wasm_glm_vec4_minv, [Reads Flt 4; Reads Flt 4; Writes 4]);
   (wasm.wasm_glm_vec4_clamp, [Updates Flt 4; Float; Float]);
   (wasm.wasm_glm_vec4_lerp, [Reads Flt 4; Reads Flt 4; Float; Writes 4]);
   (wasm.wasm_glm_vec4_lerpc, [Reads Flt 4; Reads Flt 4; Float; Writes 4]);
   (wasm.wasm_glm_vec4_mix, [Reads Flt 4; Reads Flt 4; Float; Writes 4]);
   (wasm.wasm_glm_vec4_mixc, [Reads Flt 4; Reads Flt 4; Float; Writes 4]);
   (wasm.wasm_glm_vec4_smoothinterp, [Reads Flt 4; Reads Flt 4; Float; Writes 4]);
   (wasm.wasm_glm_vec4_smoothinterpc, [Reads Flt 4; Reads Flt 4; Float; Writes 4]);
   (wasm.wasm_glm_vec4_swizzle, [Reads Flt 4; Index 256; Writes 4]);
   (wasm.wasm_glm_vec4_reflect, [Reads Flt 4; Reads Flt 4; Writes 4]);
   (wasm.wasm_glm_vec4_refract, [Reads Flt 4; Reads Flt 4; Float; Writes 4]);
   (wasm.wasm_glm_vec3_rotate_m4, [Reads Flt 16; Reads Flt 3; Writes 3]);
   (wasm.wasm_glm_vec3_rotate_m3, [Reads Flt 9; Reads Flt 3; Writes 3]);
   (wasm.wasm_glm_mat4_copy, [Reads Flt 16; Writes 16]);
   (wasm.wasm_glm_mat4_identity, [Updates Flt 16]);
   (wasm.wasm_glm_mat4_zero, [Updates Flt 16]);
   (wasm.wasm_glm_mat4_mul, [Reads Flt 16; Reads Flt 16; Writes 16]);
   (wasm.wasm_glm_mat4_mulv, [Reads Flt 16; Reads Flt 4; Writes 4]);
   (wasm.wasm_glm_mat4_mulv3, [Reads Flt 16; Reads Flt 3; Float; Writes 3]);
   (wasm.wasm_glm_mat4_transpose_to, [Reads Flt 16; Writes 16]);
   (wasm.wasm_glm_mat4_transpose, [Updates Flt 16]);
   (wasm.wasm_glm_mat4_scale, [Updates Flt 16; Float]);
   (wasm.wasm_glm_mat4_det, [Reads Flt 16]);
   (wasm.wasm_glm_mat4_inv, [Reads Flt 16; Writes 16]);
   (wasm.wasm_glm_mat4_inv_fast, [Reads Flt 16; Writes 16]);
   (wasm.wasm_glm_mat4_swap_col, [Updates Flt 16; Index 4; Index 4]);
   (wasm.wasm_glm_mat4_rmc, [Reads Flt 4; Reads Flt 16; Reads Flt 4]);
   (wasm.wasm_glm_mat4_textrans, [Float; Float; Float; Float; Float; Writes 16]);
   (wasm.wasm_glm_mat3_mul, [Reads Flt 9; Reads Flt 9; Writes 9]);
   (wasm.wasm_glm_mat3x4_copy, [Reads Flt 12; Writes 12]);
   (wasm.wasm_glm_mat3x4_zero, [Writes 12]);
   (wasm.wasm_glm_mat2_copy, [Reads Flt 4; Writes 4]);
   (wasm.wasm_glm_mat2_identity, [Updates Flt 4]);
   (wasm.wasm_glm_mat2_zero, [Updates Flt 4]);
   (wasm.wasm_glm_mat2_mul, [Reads Flt 4; Reads Flt 4; Writes 4]);
   (wasm.wasm_glm_mat2_transpose_to, [Reads Flt 4; Writes 4]);
   (wasm.wasm_glm_mat2_scale, [Updates Flt 4; Float]);
   (wasm.wasm_glm_mat2x4_copy, [Reads Flt 8; Writes 8]);
   (wasm.wasm_glm_mat2x4_zero, [Writes 8]);
   (wasm.wasm_glm_mul, [Reads Flt 16; Reads Flt 16; Writes 16]);
   (wasm.wasm_glm_mul_rot, [Reads Flt 16; Reads Flt 16; Writes 16]);
   (wasm.wasm_glm_inv_tr, [Updates Flt 16]);
   (wasm.wasm_glm_translate_make, [Writes 16; Reads Flt 3]);
   (wasm.wasm_glm_scale_to, [Reads Flt 16; Reads Flt 3; Writes 16]);
   (wasm.wasm_glm_scale_make, [Writes 16; Reads Flt 3]);
   (wasm.wasm_glm_scale, [Updates Flt 16; Reads Flt 3]);
   (wasm.wasm_glm_scale_uni, [Updates Flt 16; Float]);
   (wasm.wasm_glm_decompose_rs, [Reads Flt 16; Writes 16; Writes 3]);
   (wasm.wasm_glm_decompose, [Reads Flt 16; Writes 4; Writes 16; Writes 3]);
   (wasm.wasm_glm_translate, [Updates Flt 16; Reads Flt 3]);
   (wasm.wasm_glm_translate_to, [Reads Flt 16; Reads Flt 3; Writes 16]);
   (wasm.wasm_glm_translate_x, [Updates Flt 16; Float]);
   (wasm.wasm_glm_translate_y, [Updates Flt 16; Float]);
   (wasm.wasm_glm_translate_z, [Updates Flt 16; Float]);
   (wasm.wasm_glm_rotate_x, [Reads Flt 16; Float; Writes 16]);
   (wasm.wasm_glm_rotate_y, [Reads Flt 16; Float; Writes 16]);
   (wasm.wasm_glm_rotate_z, [Reads Flt 16; Float; Writes 16]);
   (wasm.wasm_glm_rotate, [Updates Flt 16; Float; Reads Flt 3]);
   (wasm.wasm_glm_rotate_at, [Updates Flt 16; Reads Flt 3; Float; Reads Flt 3]);
   (wasm.wasm_glm_rotate_atm, [Writes 16; Reads Flt 3; Float; Reads Flt 3]);
   (wasm.wasm_glm_spin, [Updates Flt 16; Float; Reads Flt 3]);
   (wasm.wasm_glm_translated_to, [Reads Flt 16; Reads Flt 3; Writes 16]);
   (wasm.wasm_glm_rotated_x, [Reads Flt 16; Float; Writes 16]);
   (wasm.wasm_glm_rotated_y, [Reads Flt 16; Float; Writes 16]);
   (wasm.wasm_glm_rotated_z, [Reads Flt 16; Float; Writes 16]);
   (wasm.wasm_glm_rotated, [Updates Flt 16; Float; Reads Flt 3]);
   (wasm.wasm_glm_rotated_at, [Updates Flt 16; Reads Flt 3; Float; Reads Flt 3]);
   (wasm.wasm_glm_spinned, [Updates Flt 16; Float; Reads Flt 3]);
   (wasm.wasm_glm_plane_normalize, [Updates Flt 4]);
   (wasm.wasm_glm_ortho_rh_no, [Float; Float; Float; Float; Float; Float; Writes 16]);
   (wasm.wasm_glm_ortho_aabb_rh_no, [Reads Flt 6; Writes 16]);
   (wasm.wasm_glm_ortho_aabb_p_rh_no, [Reads Flt 6; Float; Writes 16]);
   (wasm.wasm_glm_ortho_aabb_pz_rh_no, [Reads Flt 6; Float; Writes 16]);
   (wasm.wasm_glm_ortho_default_rh_no, [Float; Writes 16]);
   (wasm.wasm_glm_ortho_default_s_rh_no, [Float; Float; Writes 16]);
   (wasm.wasm_glm_frustum_rh_no, [Float; Float; Float; Float; Float; Float; Writes 16]);
   (wasm.wasm_glm_perspective_rh_no, [Float; Float; Float; Float; Writes 16]);
   (wasm.wasm_glm_perspective_default_rh_no, [Float; Writes 16]);
   (wasm.wasm_glm_frustum, [Float; Float; Float; Float; Float; Float; Writes 16]);
   (wasm.wasm_glm_ortho, [Float; Float; Float; Float; Float; Float; Writes 16]);
   (wasm.wasm_glm_ortho_aabb, [Reads Flt 6; Writes 16]);
   (wasm.wasm_glm_ortho_aabb_p, [Reads Flt 6; Float; Writes 16]);
   (wasm.wasm_glm_ortho_aabb_pz, [Reads Flt 6; Float; Writes 16]);
   (wasm.wasm_glm_ortho_default, [Float; Writes 16]);
   (wasm.wasm_glm_ortho_default_s, [Float; Float; Writes 16]);
   (wasm.wasm_glm_perspective, [Float; Float; Float; Float; Writes 16]);
   (wasm.wasm_glm_perspective_default, [Float; Writes 16]);
   (wasm.wasm_glm_frustum_planes, [Reads Flt 16; Writes 24]);
   (wasm.wasm_glm_frustum_corners, [Reads Flt 16; Writes 32]);
   (wasm.wasm_glm_frustum_center, [Reads Flt 32; Writes 4]);
   (wasm.wasm_glm_frustum_box, [Reads Flt 32; Reads Flt 16; Writes 6]);
   (wasm.wasm_glm_frustum_corners_at, [Reads Flt 32; Float; Float; Writes 16]);
   (wasm.wasm_glm_quat_identity, [Updates Flt 4]);
   (wasm.wasm_glm_quat_copy, [Reads Flt 4; Writes 4]);
   (wasm.wasm_glm_quat_normalize_to, [Reads Flt 4; Writes 4]);
   (wasm.wasm_glm_quat_normalize, [Updates Flt 4]);
   (wasm.wasm_glm_quat_from_vecs, [Reads Flt 3; Reads Flt 3; Writes 4]);
   (wasm.wasm_glm_quat_norm, [Reads Flt 4]);
   (wasm.wasm_glm_quat_dot, [Reads Flt 4; Reads Flt 4]);
   (wasm.wasm_glm_quat_conjugate, [Reads Flt 4; Writes 4]);
   (wasm.wasm_glm_quat_inv, [Reads Flt 4; Writes 4]);
   (wasm.wasm_glm_quat_add, [Reads Flt 4; Reads Flt 4; Writes 4]);
   (wasm.wasm_glm_quat_sub, [Reads Flt 4; Reads Flt 4; Writes 4]);
   (wasm.wasm_glm_quat_mul, [Reads Flt 4; Reads Flt 4; Writes 4]);
   (wasm.wasm_glm_quat_mat4, [Reads Flt 4; Writes 16]);
   (wasm.wasm_glm_quat_mat4t, [Reads Flt 4; Writes 16]);
   (wasm.wasm_glm_quat_mat3, [Reads Flt 4; Writes 9]);
   (wasm.wasm_glm_quat_mat3t, [Reads Flt 4; Writes 9]);
   (wasm.wasm_glm_quat_lerp, [Reads Flt 4; Reads Flt 4; Float; Writes 4]);
   (wasm.wasm_glm_quat_lerpc, [Reads Flt 4; Reads Flt 4; Float; Writes 4]);
   (wasm.wasm_glm_quat_nlerp, [Reads Flt 4; Reads Flt 4; Float; Writes 4]);
   (wasm.wasm_glm_quat_slerp, [Reads Flt 4; Reads Flt 4; Float; Writes 4]);
   (wasm.wasm_glm_quat_slerp_longest, [Reads Flt 4; Reads Flt 4; Float; Writes 4]);
   (wasm.wasm_glm_quat_look, [Reads Flt 3; Reads Flt 4; Writes 16]);
   (wasm.wasm_glm_quat_rotatev, [Reads Flt 4; Reads Flt 3; Writes 3]);
   (wasm.wasm_glm_quat_rotate, [Reads Flt 16; Reads Flt 4; Writes 16]);
   (wasm.wasm_glm_quat_rotate_at, [Updates Flt 16; Reads Flt 4; Reads Flt 3]);
   (wasm.wasm_glm_quat_rotate_atm, [Writes 16; Reads Flt 4; Reads Flt 3]);
   (wasm.wasm_glm_perlin_vec4, [Reads Flt 4]);
   (wasm.wasm_glm_perlin_vec3, [Reads Flt 3]);
   (wasm.wasm_glm_perlin_vec2, [Reads Flt 2]);
   (wasm.wasm_glm_unprojecti_no, [Reads Flt 3; Reads Flt 16; Reads Flt 4; Writes 3]);
   (wasm.wasm_glm_project_no, [Reads Flt 3; Reads Flt 16; Reads Flt 4; Writes 3]);
   (wasm.wasm_glm_unprojecti, [Reads Flt 3; Reads Flt 16; Reads Flt 4; Writes 3]);
   (wasm.wasm_glm_unproject, [Reads Flt 3; Reads Flt 16; Reads Flt 4; Writes 3]);
   (wasm.wasm_glm_project, [Reads Flt 3; Reads Flt 16; Reads Flt 4; Writes 3]);
   (wasm.wasm_glm_pickmatrix, [Reads Flt 2; Reads Flt 2; Reads Flt 4; Writes 16]);
   (wasm.wasm_glm_sphere_transform, [Reads Flt 4; Reads Flt 16; Writes 4]);
   (wasm.wasm_glm_smc, [Float; Reads Flt 16; Reads Flt 4]);
   (wasm.wasm_glm_ortho_lh_no, [Float; Float; Float; Float; Float; Float; Writes 16]);
   (wasm.wasm_glm_ortho_aabb_lh_no, [Reads Flt 6; Writes 16]);
   (wasm.wasm_glm_ortho_aabb_p_lh_no, [Reads Flt 6; Float; Writes 16]);
   (wasm.wasm_glm_ortho_aabb_pz_lh_no, [Reads Flt 6; Float; Writes 16]);
   (wasm.wasm_glm_ortho_default_lh_no, [Float; Writes 16]);
   (wasm.wasm_glm_ortho_default_s_lh_no, [Float; Float; Writes 16]);
   (wasm.wasm_glm_ortho_lh_zo, [Float; Float; Float; Float; Float; Float; Writes 16]);
   (wasm.wasm_glm_ortho_aabb_lh_zo, [Reads Flt 6; Writes 16]);
   (wasm.wasm_glm_ortho_aabb_p_lh_zo, [Reads Flt 6; Float; Writes 16]);
   (wasm.wasm_glm_ortho_aabb_pz_lh_zo, [Reads Flt 6; Float; Writes 16]);
   (wasm.wasm_glm_ortho_default_lh_zo, [Float; Writes 16]);
   (wasm.wasm_glm_ortho_default_s_lh_zo, [Float; Float; Writes 16]);
   (wasm.wasm_glm_ortho_rh_zo, [Float; Float; Float; Float; Float; Float; Writes 16]);
   (wasm.wasm_glm_ortho_aabb_rh_zo, [Reads Flt 6; Writes 16]);
   (wasm.wasm_glm_ortho_aabb_p_rh_zo, [Reads Flt 6; Float; Writes 16]);
   (wasm.wasm_glm_ortho_aabb_pz_rh_zo, [Reads Flt 6; Float; Writes 16]);
   (wasm.wasm_glm_ortho_default_rh_zo, [Float; Writes 16]);
   (wasm.wasm_glm_ortho_default_s_rh_zo, [Float; Float; Writes 16]);
   (wasm.wasm_glm_frustum_lh_no, [Float; Float; Float; Float; Float; Float; Writes 16]);
   (wasm.wasm_glm_perspective_lh_no, [Float; Float; Float; Float; Writes 16]);
   (wasm.wasm_glm_perspective_default_lh_no, [Float; Writes 16]);
   (wasm.wasm_glm_frustum_lh_zo, [Float; Float; Float; Float; Float; Float; Writes 16]);
   (wasm.wasm_glm_perspective_lh_zo, [Float; Float; Float; Float; Writes 16]);
   (wasm.wasm_glm_perspective_default_lh_zo, [Float; Writes 16]);
   (wasm.wasm_glm_frustum_rh_zo, [Float; Float; Float; Float; Float; Float; Writes 16]);
   (wasm.wasm_glm_perspective_rh_zo, [Float; Float; Float; Float; Writes 16]);
   (wasm.wasm_glm_perspective_default_rh_zo, [Float; Writes 16]);
   (wasm.wasm_glm_unprojecti_zo, [Reads Flt 3; Reads Flt 16; Reads Flt 4; Writes 3]);
   (wasm.wasm_glm_project_zo, [Reads Flt 3; Reads Flt 16; Reads Flt 4; Writes 3])].
