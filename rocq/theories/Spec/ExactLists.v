(** * The functions that single precision computes without rounding *)

From Coq Require Import List ZArith.
From Verif Require Import MiniC Cglm.
From Verif.Simd Require sse2 avx fma neon neon32 wasm.
From Verif.Spec Require Import Signatures Types.
Import ListNotations.
Local Open Scope Z_scope.

(** on all numbers: functions that copy, compare, select, negate, take absolute values or round down *)
Definition exact_always : list (fundef * list param) :=
 [
  (glm_aabb2d_zero, [Updates Flt 4]);
  (glm_aabb2d_copy, [Reads Flt 4; Writes 4]);
  (glm_aabb2d_merge, [Reads Flt 4; Reads Flt 4; Writes 4]);
  (glm_aabb2d_crop, [Reads Flt 4; Reads Flt 4; Writes 4]);
  (glm_aabb2d_crop_until, [Reads Flt 4; Reads Flt 4; Reads Flt 4; Writes 4]);
  (glm_aabb2d_invalidate, [Updates Flt 4]);
  (glm_aabb2d_isvalid, [Reads Flt 4]);
  (glm_aabb2d_aabb, [Reads Flt 4; Reads Flt 4]);
  (glm_aabb2d_point, [Reads Flt 4; Reads Flt 2]);
  (glm_aabb2d_contains, [Reads Flt 4; Reads Flt 4]);
  (glm_translate_make, [Writes 16; Reads Flt 3]);
  (glm_scale_make, [Writes 16; Reads Flt 3]);
  (glm_translate2d_make, [Writes 9; Reads Flt 2]);
  (glm_scale2d_make, [Writes 9; Reads Flt 2]);
  (glm_aabb_merge, [Reads Flt 6; Reads Flt 6; Writes 6]);
  (glm_aabb_crop, [Reads Flt 6; Reads Flt 6; Writes 6]);
  (glm_aabb_crop_until, [Reads Flt 6; Reads Flt 6; Reads Flt 6; Writes 6]);
  (glm_aabb_invalidate, [Updates Flt 6]);
  (glm_aabb_isvalid, [Reads Flt 6]);
  (glm_aabb_aabb, [Reads Flt 6; Reads Flt 6]);
  (glm_aabb_point, [Reads Flt 6; Reads Flt 3]);
  (glm_aabb_contains, [Reads Flt 6; Reads Flt 6]);
  (glm_ease_linear, [Float]);
  (glm_ivec2, [Reads Int 2; Writes 2]);
  (glm_ivec2_copy, [Reads Int 2; Writes 2]);
  (glm_ivec2_zero, [Writes 2]);
  (glm_ivec2_one, [Writes 2]);
  (glm_ivec2_fill, [Writes 2; Integer]);
  (glm_ivec2_eq, [Reads Int 2; Integer]);
  (glm_ivec2_eqv, [Reads Int 2; Reads Int 2]);
  (glm_ivec2_maxv, [Reads Int 2; Reads Int 2; Writes 2]);
  (glm_ivec2_minv, [Reads Int 2; Reads Int 2; Writes 2]);
  (glm_ivec2_clamp, [Updates Int 2; Integer; Integer]);
  (glm_ivec3, [Reads Int 4; Writes 3]);
  (glm_ivec3_copy, [Reads Int 3; Writes 3]);
  (glm_ivec3_zero, [Writes 3]);
  (glm_ivec3_one, [Writes 3]);
  (glm_ivec3_fill, [Writes 3; Integer]);
  (glm_ivec3_eq, [Reads Int 3; Integer]);
  (glm_ivec3_eqv, [Reads Int 3; Reads Int 3]);
  (glm_ivec3_maxv, [Reads Int 3; Reads Int 3; Writes 3]);
  (glm_ivec3_minv, [Reads Int 3; Reads Int 3; Writes 3]);
  (glm_ivec3_clamp, [Updates Int 3; Integer; Integer]);
  (glm_ivec4, [Reads Int 3; Integer; Writes 4]);
  (glm_ivec4_copy, [Reads Int 4; Writes 4]);
  (glm_ivec4_zero, [Writes 4]);
  (glm_ivec4_one, [Writes 4]);
  (glm_ivec4_maxv, [Reads Int 4; Reads Int 4; Writes 4]);
  (glm_ivec4_minv, [Reads Int 4; Reads Int 4; Writes 4]);
  (glm_ivec4_clamp, [Updates Int 4; Integer; Integer]);
  (glm_mat2_make, [Reads Flt 4; Writes 4]);
  (glm_mat2_copy, [Reads Flt 4; Writes 4]);
  (glm_mat2_identity, [Updates Flt 4]);
  (glm_mat2_zero, [Updates Flt 4]);
  (glm_mat2_transpose_to, [Reads Flt 4; Writes 4]);
  (glm_mat2_transpose, [Updates Flt 4]);
  (glm_mat2_swap_col, [Updates Flt 4; Index 2; Index 2]);
  (glm_mat2_swap_row, [Updates Flt 4; Index 2; Index 2]);
  (glm_mat2x3_copy, [Reads Flt 6; Writes 6]);
  (glm_mat2x3_zero, [Writes 6]);
  (glm_mat2x3_make, [Reads Flt 6; Writes 6]);
  (glm_mat2x3_transpose, [Reads Flt 6; Writes 6]);
  (glm_mat2x4_copy, [Reads Flt 8; Writes 8]);
  (glm_mat2x4_zero, [Writes 8]);
  (glm_mat2x4_make, [Reads Flt 8; Writes 8]);
  (glm_mat2x4_transpose, [Reads Flt 8; Writes 8]);
  (glm_mat3_copy, [Reads Flt 9; Writes 9]);
  (glm_mat3_identity, [Updates Flt 9]);
  (glm_mat3_zero, [Updates Flt 9]);
  (glm_mat3_transpose_to, [Reads Flt 9; Writes 9]);
  (glm_mat3_transpose, [Updates Flt 9]);
  (glm_mat3_swap_col, [Updates Flt 9; Index 3; Index 3]);
  (glm_mat3_swap_row, [Updates Flt 9; Index 3; Index 3]);
  (glm_mat3_make, [Reads Flt 9; Writes 9]);
  (glm_mat3x2_copy, [Reads Flt 6; Writes 6]);
  (glm_mat3x2_zero, [Writes 6]);
  (glm_mat3x2_make, [Reads Flt 6; Writes 6]);
  (glm_mat3x2_transpose, [Reads Flt 6; Writes 6]);
  (glm_mat3x4_copy, [Reads Flt 12; Writes 12]);
  (glm_mat3x4_zero, [Writes 12]);
  (glm_mat3x4_make, [Reads Flt 12; Writes 12]);
  (glm_mat3x4_transpose, [Reads Flt 12; Writes 12]);
  (glm_mat4_ucopy, [Reads Flt 16; Writes 16]);
  (glm_mat4_copy, [Reads Flt 16; Writes 16]);
  (glm_mat4_identity, [Updates Flt 16]);
  (glm_mat4_zero, [Updates Flt 16]);
  (glm_mat4_pick3, [Reads Flt 16; Writes 9]);
  (glm_mat4_pick3t, [Reads Flt 16; Writes 9]);
  (glm_mat4_transpose_to, [Reads Flt 16; Writes 16]);
  (glm_mat4_transpose, [Updates Flt 16]);
  (glm_mat4_swap_col, [Updates Flt 16; Index 4; Index 4]);
  (glm_mat4_swap_row, [Updates Flt 16; Index 4; Index 4]);
  (glm_mat4_make, [Reads Flt 16; Writes 16]);
  (glm_mat4x2_copy, [Reads Flt 8; Writes 8]);
  (glm_mat4x2_zero, [Writes 8]);
  (glm_mat4x2_make, [Reads Flt 8; Writes 8]);
  (glm_mat4x2_transpose, [Reads Flt 8; Writes 8]);
  (glm_mat4x3_copy, [Reads Flt 12; Writes 12]);
  (glm_mat4x3_zero, [Writes 12]);
  (glm_mat4x3_make, [Reads Flt 12; Writes 12]);
  (glm_mat4x3_transpose, [Reads Flt 12; Writes 12]);
  (glm_quat_identity, [Updates Flt 4]);
  (glm_quat_init, [Writes 4; Float; Float; Float; Float]);
  (glm_quat_copy, [Reads Flt 4; Writes 4]);
  (glm_quat_conjugate, [Reads Flt 4; Writes 4]);
  (glm_quat_real, [Reads Flt 4]);
  (glm_quat_imag, [Reads Flt 4; Writes 3]);
  (glm_quat_make, [Reads Flt 4; Writes 4]);
  (glm_sphere_radii, [Reads Flt 4]);
  (glms_translate_make, [Struct Flt 3]);
  (glms_scale_make, [Struct Flt 3]);
  (glms_translate2d_make, [Struct Flt 2]);
  (glms_scale2d_make, [Struct Flt 2]);
  (glms_aabb_merge, [Reads Flt 6; Reads Flt 6; Writes 6]);
  (glms_aabb_crop, [Reads Flt 6; Reads Flt 6; Writes 6]);
  (glms_aabb_crop_until, [Reads Flt 6; Reads Flt 6; Reads Flt 6; Writes 6]);
  (glms_aabb_invalidate, [Updates Flt 6]);
  (glms_aabb_isvalid, [Reads Flt 6]);
  (glms_aabb_aabb, [Reads Flt 6; Reads Flt 6]);
  (glms_aabb_point, [Reads Flt 6; Struct Flt 3]);
  (glms_aabb_contains, [Reads Flt 6; Reads Flt 6]);
  (glms_ivec2, [Reads Int 2]);
  (glms_ivec2_zero, []);
  (glms_ivec2_one, []);
  (glms_ivec2_fill, [Integer]);
  (glms_ivec2_eq, [Struct Int 2; Integer]);
  (glms_ivec2_eqv, [Struct Int 2; Struct Int 2]);
  (glms_ivec2_maxv, [Struct Int 2; Struct Int 2]);
  (glms_ivec2_minv, [Struct Int 2; Struct Int 2]);
  (glms_ivec2_clamp, [Struct Int 2; Integer; Integer]);
  (glms_ivec3, [Struct Int 4]);
  (glms_ivec3_zero, []);
  (glms_ivec3_one, []);
  (glms_ivec3_fill, [Integer]);
  (glms_ivec3_eq, [Struct Int 3; Integer]);
  (glms_ivec3_eqv, [Struct Int 3; Struct Int 3]);
  (glms_ivec3_maxv, [Struct Int 3; Struct Int 3]);
  (glms_ivec3_minv, [Struct Int 3; Struct Int 3]);
  (glms_ivec3_clamp, [Struct Int 3; Integer; Integer]);
  (glms_ivec4, [Struct Int 3; Integer]);
  (glms_ivec4_zero, []);
  (glms_ivec4_one, []);
  (glms_ivec4_maxv, [Struct Int 4; Struct Int 4]);
  (glms_ivec4_minv, [Struct Int 4; Struct Int 4]);
  (glms_ivec4_clamp, [Struct Int 4; Integer; Integer]);
  (glms_mat2_make, [Reads Flt 4]);
  (glms_mat2_identity, []);
  (glms_mat2_zero, []);
  (glms_mat2_transpose, [Struct Flt 4]);
  (glms_mat2_swap_col, [Struct Flt 4; Index 2; Index 2]);
  (glms_mat2_swap_row, [Struct Flt 4; Index 2; Index 2]);
  (glms_mat2x3_zero, []);
  (glms_mat2x3_make, [Reads Flt 6]);
  (glms_mat2x3_transpose, [Struct Flt 6]);
  (glms_mat2x4_zero, []);
  (glms_mat2x4_make, [Reads Flt 8]);
  (glms_mat2x4_transpose, [Struct Flt 8]);
  (glms_mat3_copy, [Struct Flt 9]);
  (glms_mat3_identity, []);
  (glms_mat3_zero, []);
  (glms_mat3_transpose, [Struct Flt 9]);
  (glms_mat3_swap_col, [Struct Flt 9; Index 3; Index 3]);
  (glms_mat3_swap_row, [Struct Flt 9; Index 3; Index 3]);
  (glms_mat3_make, [Reads Flt 9]);
  (glms_mat3x2_zero, []);
  (glms_mat3x2_make, [Reads Flt 6]);
  (glms_mat3x2_transpose, [Struct Flt 6]);
  (glms_mat3x4_zero, []);
  (glms_mat3x4_make, [Reads Flt 12]);
  (glms_mat3x4_transpose, [Struct Flt 12]);
  (glms_mat4_ucopy, [Struct Flt 16]);
  (glms_mat4_copy, [Struct Flt 16]);
  (glms_mat4_identity, []);
  (glms_mat4_zero, []);
  (glms_mat4_pick3, [Struct Flt 16]);
  (glms_mat4_pick3t, [Struct Flt 16]);
  (glms_mat4_ins3, [Struct Flt 9; Struct Flt 16]);
  (glms_mat4_transpose, [Struct Flt 16]);
  (glms_mat4_swap_col, [Struct Flt 16; Index 4; Index 4]);
  (glms_mat4_swap_row, [Struct Flt 16; Index 4; Index 4]);
  (glms_mat4_make, [Reads Flt 16]);
  (glms_mat4x2_zero, []);
  (glms_mat4x2_make, [Reads Flt 8]);
  (glms_mat4x2_transpose, [Struct Flt 8]);
  (glms_mat4x3_zero, []);
  (glms_mat4x3_make, [Reads Flt 12]);
  (glms_mat4x3_transpose, [Struct Flt 12]);
  (glms_quat_identity, []);
  (glms_quat_init, [Float; Float; Float; Float]);
  (glms_quat_conjugate, [Struct Flt 4]);
  (glms_quat_make, [Reads Flt 4]);
  (glms_sphere_radii, [Struct Flt 4]);
  (glms_vec2, [Struct Flt 3]);
  (glms_vec2_zero, []);
  (glms_vec2_one, []);
  (glms_vec2_negate, [Struct Flt 2]);
  (glms_vec2_maxv, [Struct Flt 2; Struct Flt 2]);
  (glms_vec2_minv, [Struct Flt 2; Struct Flt 2]);
  (glms_vec2_clamp, [Struct Flt 2; Float; Float]);
  (glms_vec2_step, [Struct Flt 2; Struct Flt 2]);
  (glms_vec2_make, [Reads Flt 2]);
  (glms_vec2_fill, [Float]);
  (glms_vec2_eq, [Struct Flt 2; Float]);
  (glms_vec2_eqv, [Struct Flt 2; Struct Flt 2]);
  (glms_vec2_max, [Struct Flt 2]);
  (glms_vec2_min, [Struct Flt 2]);
  (glms_vec2_isnan, [Struct Flt 2]);
  (glms_vec2_isinf, [Struct Flt 2]);
  (glms_vec2_isvalid, [Struct Flt 2]);
  (glms_vec2_sign, [Struct Flt 2]);
  (glms_vec2_abs, [Struct Flt 2]);
  (glms_vec2_floor, [Struct Flt 2]);
  (glms_vec2_steps, [Float; Struct Flt 2]);
  (glms_vec2_stepr, [Struct Flt 2; Float]);
  (glms_vec2_complex_conjugate, [Struct Flt 2; Struct Flt 2]);
  (glms_vec3, [Struct Flt 4]);
  (glms_vec3_zero, []);
  (glms_vec3_one, []);
  (glms_vec3_norm_inf, [Struct Flt 3]);
  (glms_vec3_flipsign, [Struct Flt 3]);
  (glms_vec3_negate, [Struct Flt 3]);
  (glms_vec3_maxv, [Struct Flt 3; Struct Flt 3]);
  (glms_vec3_minv, [Struct Flt 3; Struct Flt 3]);
  (glms_vec3_clamp, [Struct Flt 3; Float; Float]);
  (glms_vec3_step, [Struct Flt 3; Struct Flt 3]);
  (glms_vec3_swizzle, [Struct Flt 3; OneOf [0; 1; 2; 4; 5; 6; 8; 9; 10; 16; 17; 18; 20; 21; 22; 24; 25; 26; 32; 33; 34; 36; 37; 38; 40; 41; 42]]);
  (glms_vec3_make, [Reads Flt 3]);
  (glms_vec3_broadcast, [Float]);
  (glms_vec3_fill, [Float]);
  (glms_vec3_eq, [Struct Flt 3; Float]);
  (glms_vec3_eqv, [Struct Flt 3; Struct Flt 3]);
  (glms_vec3_max, [Struct Flt 3]);
  (glms_vec3_min, [Struct Flt 3]);
  (glms_vec3_isnan, [Struct Flt 3]);
  (glms_vec3_isinf, [Struct Flt 3]);
  (glms_vec3_isvalid, [Struct Flt 3]);
  (glms_vec3_sign, [Struct Flt 3]);
  (glms_vec3_abs, [Struct Flt 3]);
  (glms_vec3_floor, [Struct Flt 3]);
  (glms_vec3_steps, [Float; Struct Flt 3]);
  (glms_vec3_stepr, [Struct Flt 3; Float]);
  (glms_vec4, [Struct Flt 3; Float]);
  (glms_vec4_copy3, [Struct Flt 4]);
  (glms_vec4_copy, [Struct Flt 4]);
  (glms_vec4_ucopy, [Struct Flt 4]);
  (glms_vec4_zero, []);
  (glms_vec4_one, []);
  (glms_vec4_norm_inf, [Struct Flt 4]);
  (glms_vec4_negate, [Struct Flt 4]);
  (glms_vec4_maxv, [Struct Flt 4; Struct Flt 4]);
  (glms_vec4_minv, [Struct Flt 4; Struct Flt 4]);
  (glms_vec4_clamp, [Struct Flt 4; Float; Float]);
  (glms_vec4_step, [Struct Flt 4; Struct Flt 4]);
  (glms_vec4_swizzle, [Struct Flt 4; Index 256]);
  (glms_vec4_make, [Reads Flt 4]);
  (glms_vec4_broadcast, [Float]);
  (glms_vec4_fill, [Float]);
  (glms_vec4_eq, [Struct Flt 4; Float]);
  (glms_vec4_eqv, [Struct Flt 4; Struct Flt 4]);
  (glms_vec4_max, [Struct Flt 4]);
  (glms_vec4_min, [Struct Flt 4]);
  (glms_vec4_isnan, [Struct Flt 4]);
  (glms_vec4_isinf, [Struct Flt 4]);
  (glms_vec4_isvalid, [Struct Flt 4]);
  (glms_vec4_sign, [Struct Flt 4]);
  (glms_vec4_abs, [Struct Flt 4]);
  (glms_vec4_floor, [Struct Flt 4]);
  (glms_vec4_steps, [Float; Struct Flt 4]);
  (glms_vec4_stepr, [Struct Flt 4; Float]);
  (glm_signf, [Float]);
  (glm_min, [Float; Float]);
  (glm_max, [Float; Float]);
  (glm_imin, [Integer; Integer]);
  (glm_imax, [Integer; Integer]);
  (glm_clamp, [Float; Float; Float]);
  (glm_clamp_zo, [Float]);
  (glm_step, [Float; Float]);
  (glm_swapf, [Updates Flt 1; Updates Flt 1]);
  (glm_vec2, [Reads Flt 2; Writes 2]);
  (glm_vec2_copy, [Reads Flt 2; Writes 2]);
  (glm_vec2_zero, [Updates Flt 2]);
  (glm_vec2_one, [Updates Flt 2]);
  (glm_vec2_negate_to, [Reads Flt 2; Writes 2]);
  (glm_vec2_negate, [Updates Flt 2]);
  (glm_vec2_maxv, [Reads Flt 2; Reads Flt 2; Writes 2]);
  (glm_vec2_minv, [Reads Flt 2; Reads Flt 2; Writes 2]);
  (glm_vec2_clamp, [Updates Flt 2; Float; Float]);
  (glm_vec2_swizzle, [Reads Flt 2; OneOf [0; 1; 4; 5]; Writes 2]);
  (glm_vec2_step, [Reads Flt 2; Reads Flt 2; Writes 2]);
  (glm_vec2_make, [Reads Flt 2; Writes 2]);
  (glm_vec2_fill, [Writes 2; Float]);
  (glm_vec2_eq, [Reads Flt 2; Float]);
  (glm_vec2_eqv, [Reads Flt 2; Reads Flt 2]);
  (glm_vec2_max, [Reads Flt 2]);
  (glm_vec2_min, [Reads Flt 2]);
  (glm_vec2_isnan, [Reads Flt 2]);
  (glm_vec2_isinf, [Reads Flt 2]);
  (glm_vec2_isvalid, [Reads Flt 2]);
  (glm_vec2_sign, [Reads Flt 2; Writes 2]);
  (glm_vec2_abs, [Reads Flt 2; Writes 2]);
  (glm_vec2_floor, [Reads Flt 2; Writes 2]);
  (glm_vec2_steps, [Float; Reads Flt 2; Writes 2]);
  (glm_vec2_stepr, [Reads Flt 2; Float; Writes 2]);
  (glm_vec2_complex_conjugate, [Reads Flt 2; Writes 2]);
  (glm_vec3, [Reads Flt 4; Writes 3]);
  (glm_vec3_copy, [Reads Flt 3; Writes 3]);
  (glm_vec3_zero, [Updates Flt 3]);
  (glm_vec3_one, [Updates Flt 3]);
  (glm_vec3_norm_inf, [Reads Flt 3]);
  (glm_vec3_negate_to, [Reads Flt 3; Writes 3]);
  (glm_vec3_negate, [Updates Flt 3]);
  (glm_vec3_maxv, [Reads Flt 3; Reads Flt 3; Writes 3]);
  (glm_vec3_minv, [Reads Flt 3; Reads Flt 3; Writes 3]);
  (glm_vec3_clamp, [Updates Flt 3; Float; Float]);
  (glm_vec3_step, [Reads Flt 3; Reads Flt 3; Writes 3]);
  (glm_vec3_swizzle, [Reads Flt 3; OneOf [0; 1; 2; 4; 5; 6; 8; 9; 10; 16; 17; 18; 20; 21; 22; 24; 25; 26; 32; 33; 34; 36; 37; 38; 40; 41; 42]; Writes 3]);
  (glm_vec3_make, [Reads Flt 3; Writes 3]);
  (glm_vec3_broadcast, [Float; Writes 3]);
  (glm_vec3_fill, [Writes 3; Float]);
  (glm_vec3_eq, [Reads Flt 3; Float]);
  (glm_vec3_eqv, [Reads Flt 3; Reads Flt 3]);
  (glm_vec3_max, [Reads Flt 3]);
  (glm_vec3_min, [Reads Flt 3]);
  (glm_vec3_isnan, [Reads Flt 3]);
  (glm_vec3_isinf, [Reads Flt 3]);
  (glm_vec3_isvalid, [Reads Flt 3]);
  (glm_vec3_sign, [Reads Flt 3; Writes 3]);
  (glm_vec3_abs, [Reads Flt 3; Writes 3]);
  (glm_vec3_floor, [Reads Flt 3; Writes 3]);
  (glm_vec3_steps, [Float; Reads Flt 3; Writes 3]);
  (glm_vec3_stepr, [Reads Flt 3; Float; Writes 3]);
  (glm_vec4, [Reads Flt 3; Float; Writes 4]);
  (glm_vec4_copy3, [Reads Flt 4; Writes 3]);
  (glm_vec4_copy, [Reads Flt 4; Writes 4]);
  (glm_vec4_ucopy, [Reads Flt 4; Writes 4]);
  (glm_vec4_zero, [Updates Flt 4]);
  (glm_vec4_one, [Updates Flt 4]);
  (glm_vec4_norm_inf, [Reads Flt 4]);
  (glm_vec4_negate_to, [Reads Flt 4; Writes 4]);
  (glm_vec4_negate, [Updates Flt 4]);
  (glm_vec4_maxv, [Reads Flt 4; Reads Flt 4; Writes 4]);
  (glm_vec4_minv, [Reads Flt 4; Reads Flt 4; Writes 4]);
  (glm_vec4_clamp, [Updates Flt 4; Float; Float]);
  (glm_vec4_step, [Reads Flt 4; Reads Flt 4; Writes 4]);
  (glm_vec4_swizzle, [Reads Flt 4; Index 256; Writes 4]);
  (glm_vec4_make, [Reads Flt 4; Writes 4]);
  (glm_vec4_broadcast, [Float; Writes 4]);
  (glm_vec4_fill, [Writes 4; Float]);
  (glm_vec4_eq, [Reads Flt 4; Float]);
  (glm_vec4_eqv, [Reads Flt 4; Reads Flt 4]);
  (glm_vec4_max, [Reads Flt 4]);
  (glm_vec4_min, [Reads Flt 4]);
  (glm_vec4_isnan, [Reads Flt 4]);
  (glm_vec4_isinf, [Reads Flt 4]);
  (glm_vec4_isvalid, [Reads Flt 4]);
  (glm_vec4_sign, [Reads Flt 4; Writes 4]);
  (glm_vec4_abs, [Reads Flt 4; Writes 4]);
  (glm_vec4_floor, [Reads Flt 4; Writes 4]);
  (glm_vec4_steps, [Float; Reads Flt 4; Writes 4]);
  (glm_vec4_stepr, [Reads Flt 4; Float; Writes 4]);
  (sse2.sse2_glm_vec4_broadcast, [Float; Writes 4]);
  (sse2.sse2_glm_vec4_fill, [Writes 4; Float]);
  (sse2.sse2_glm_vec4_abs, [Reads Flt 4; Writes 4]);
  (sse2.sse2_glm_vec4_copy, [Reads Flt 4; Writes 4]);
  (sse2.sse2_glm_vec4_zero, [Updates Flt 4]);
  (sse2.sse2_glm_vec4_one, [Updates Flt 4]);
  (sse2.sse2_glm_vec4_norm_inf, [Reads Flt 4]);
  (sse2.sse2_glm_vec4_negate_to, [Reads Flt 4; Writes 4]);
  (sse2.sse2_glm_vec4_negate, [Updates Flt 4]);
  (sse2.sse2_glm_vec4_maxv, [Reads Flt 4; Reads Flt 4; Writes 4]);
  (sse2.sse2_glm_vec4_minv, [Reads Flt 4; Reads Flt 4; Writes 4]);
  (sse2.sse2_glm_vec4_clamp, [Updates Flt 4; Float; Float]);
  (sse2.sse2_glm_vec4_swizzle, [Reads Flt 4; Index 256; Writes 4]);
  (sse2.sse2_glm_mat4_copy, [Reads Flt 16; Writes 16]);
  (sse2.sse2_glm_mat4_identity, [Updates Flt 16]);
  (sse2.sse2_glm_mat4_zero, [Updates Flt 16]);
  (sse2.sse2_glm_mat4_transpose_to, [Reads Flt 16; Writes 16]);
  (sse2.sse2_glm_mat4_transpose, [Updates Flt 16]);
  (sse2.sse2_glm_mat4_swap_col, [Updates Flt 16; Index 4; Index 4]);
  (sse2.sse2_glm_mat2_transpose_to, [Reads Flt 4; Writes 4]);
  (sse2.sse2_glm_translate_make, [Writes 16; Reads Flt 3]);
  (sse2.sse2_glm_scale_make, [Writes 16; Reads Flt 3]);
  (sse2.sse2_glm_quat_identity, [Updates Flt 4]);
  (sse2.sse2_glm_quat_copy, [Reads Flt 4; Writes 4]);
  (sse2.sse2_glm_quat_conjugate, [Reads Flt 4; Writes 4]);
  (avx.avx_glm_vec4_broadcast, [Float; Writes 4]);
  (avx.avx_glm_vec4_fill, [Writes 4; Float]);
  (avx.avx_glm_vec4_abs, [Reads Flt 4; Writes 4]);
  (avx.avx_glm_vec4_copy, [Reads Flt 4; Writes 4]);
  (avx.avx_glm_vec4_zero, [Updates Flt 4]);
  (avx.avx_glm_vec4_one, [Updates Flt 4]);
  (avx.avx_glm_vec4_norm_inf, [Reads Flt 4]);
  (avx.avx_glm_vec4_negate_to, [Reads Flt 4; Writes 4]);
  (avx.avx_glm_vec4_negate, [Updates Flt 4]);
  (avx.avx_glm_vec4_maxv, [Reads Flt 4; Reads Flt 4; Writes 4]);
  (avx.avx_glm_vec4_minv, [Reads Flt 4; Reads Flt 4; Writes 4]);
  (avx.avx_glm_vec4_clamp, [Updates Flt 4; Float; Float]);
  (avx.avx_glm_vec4_swizzle, [Reads Flt 4; Index 256; Writes 4]);
  (avx.avx_glm_mat4_copy, [Reads Flt 16; Writes 16]);
  (avx.avx_glm_mat4_identity, [Updates Flt 16]);
  (avx.avx_glm_mat4_zero, [Updates Flt 16]);
  (avx.avx_glm_mat4_transpose_to, [Reads Flt 16; Writes 16]);
  (avx.avx_glm_mat4_transpose, [Updates Flt 16]);
  (avx.avx_glm_mat4_swap_col, [Updates Flt 16; Index 4; Index 4]);
  (avx.avx_glm_mat2_transpose_to, [Reads Flt 4; Writes 4]);
  (avx.avx_glm_translate_make, [Writes 16; Reads Flt 3]);
  (avx.avx_glm_scale_make, [Writes 16; Reads Flt 3]);
  (avx.avx_glm_quat_identity, [Updates Flt 4]);
  (avx.avx_glm_quat_copy, [Reads Flt 4; Writes 4]);
  (avx.avx_glm_quat_conjugate, [Reads Flt 4; Writes 4]);
  (fma.fma_glm_vec4_broadcast, [Float; Writes 4]);
  (fma.fma_glm_vec4_fill, [Writes 4; Float]);
  (fma.fma_glm_vec4_abs, [Reads Flt 4; Writes 4]);
  (fma.fma_glm_vec4_copy, [Reads Flt 4; Writes 4]);
  (fma.fma_glm_vec4_zero, [Updates Flt 4]);
  (fma.fma_glm_vec4_one, [Updates Flt 4]);
  (fma.fma_glm_vec4_norm_inf, [Reads Flt 4]);
  (fma.fma_glm_vec4_negate_to, [Reads Flt 4; Writes 4]);
  (fma.fma_glm_vec4_negate, [Updates Flt 4]);
  (fma.fma_glm_vec4_maxv, [Reads Flt 4; Reads Flt 4; Writes 4]);
  (fma.fma_glm_vec4_minv, [Reads Flt 4; Reads Flt 4; Writes 4]);
  (fma.fma_glm_vec4_clamp, [Updates Flt 4; Float; Float]);
  (fma.fma_glm_vec4_swizzle, [Reads Flt 4; Index 256; Writes 4]);
  (fma.fma_glm_mat4_copy, [Reads Flt 16; Writes 16]);
  (fma.fma_glm_mat4_identity, [Updates Flt 16]);
  (fma.fma_glm_mat4_zero, [Updates Flt 16]);
  (fma.fma_glm_mat4_transpose_to, [Reads Flt 16; Writes 16]);
  (fma.fma_glm_mat4_transpose, [Updates Flt 16]);
  (fma.fma_glm_mat4_swap_col, [Updates Flt 16; Index 4; Index 4]);
  (fma.fma_glm_mat2_transpose_to, [Reads Flt 4; Writes 4]);
  (fma.fma_glm_translate_make, [Writes 16; Reads Flt 3]);
  (fma.fma_glm_scale_make, [Writes 16; Reads Flt 3]);
  (fma.fma_glm_quat_identity, [Updates Flt 4]);
  (fma.fma_glm_quat_copy, [Reads Flt 4; Writes 4]);
  (fma.fma_glm_quat_conjugate, [Reads Flt 4; Writes 4]);
  (neon.neon_glm_vec4_abs, [Reads Flt 4; Writes 4]);
  (neon.neon_glm_vec4_copy, [Reads Flt 4; Writes 4]);
  (neon.neon_glm_vec4_zero, [Updates Flt 4]);
  (neon.neon_glm_vec4_one, [Updates Flt 4]);
  (neon.neon_glm_vec4_negate_to, [Reads Flt 4; Writes 4]);
  (neon.neon_glm_vec4_negate, [Updates Flt 4]);
  (neon.neon_glm_vec4_swizzle, [Reads Flt 4; Index 256; Writes 4]);
  (neon.neon_glm_mat4_copy, [Reads Flt 16; Writes 16]);
  (neon.neon_glm_mat4_identity, [Updates Flt 16]);
  (neon.neon_glm_mat4_zero, [Updates Flt 16]);
  (neon.neon_glm_mat4_transpose_to, [Reads Flt 16; Writes 16]);
  (neon.neon_glm_mat4_transpose, [Updates Flt 16]);
  (neon.neon_glm_mat4_swap_col, [Updates Flt 16; Index 4; Index 4]);
  (neon.neon_glm_translate_make, [Writes 16; Reads Flt 3]);
  (neon.neon_glm_scale_make, [Writes 16; Reads Flt 3]);
  (neon.neon_glm_quat_identity, [Updates Flt 4]);
  (neon.neon_glm_quat_copy, [Reads Flt 4; Writes 4]);
  (neon.neon_glm_quat_conjugate, [Reads Flt 4; Writes 4]);
  (neon32.neon32_glm_vec4_abs, [Reads Flt 4; Writes 4]);
  (neon32.neon32_glm_vec4_copy, [Reads Flt 4; Writes 4]);
  (neon32.neon32_glm_vec4_zero, [Updates Flt 4]);
  (neon32.neon32_glm_vec4_one, [Updates Flt 4]);
  (neon32.neon32_glm_vec4_negate_to, [Reads Flt 4; Writes 4]);
  (neon32.neon32_glm_vec4_negate, [Updates Flt 4]);
  (neon32.neon32_glm_vec4_swizzle, [Reads Flt 4; Index 256; Writes 4]);
  (neon32.neon32_glm_mat4_copy, [Reads Flt 16; Writes 16]);
  (neon32.neon32_glm_mat4_identity, [Updates Flt 16]);
  (neon32.neon32_glm_mat4_zero, [Updates Flt 16]);
  (neon32.neon32_glm_mat4_transpose_to, [Reads Flt 16; Writes 16]);
  (neon32.neon32_glm_mat4_transpose, [Updates Flt 16]);
  (neon32.neon32_glm_mat4_swap_col, [Updates Flt 16; Index 4; Index 4]);
  (neon32.neon32_glm_translate_make, [Writes 16; Reads Flt 3]);
  (neon32.neon32_glm_scale_make, [Writes 16; Reads Flt 3]);
  (neon32.neon32_glm_quat_identity, [Updates Flt 4]);
  (neon32.neon32_glm_quat_copy, [Reads Flt 4; Writes 4]);
  (neon32.neon32_glm_quat_conjugate, [Reads Flt 4; Writes 4]);
  (wasm.wasm_glm_vec4_broadcast, [Float; Writes 4]);
  (wasm.wasm_glm_vec4_fill, [Writes 4; Float]);
  (wasm.wasm_glm_vec4_abs, [Reads Flt 4; Writes 4]);
  (wasm.wasm_glm_vec4_copy, [Reads Flt 4; Writes 4]);
  (wasm.wasm_glm_vec4_ucopy, [Reads Flt 4; Writes 4]);
  (wasm.wasm_glm_vec4_zero, [Updates Flt 4]);
  (wasm.wasm_glm_vec4_one, [Updates Flt 4]);
  (wasm.wasm_glm_vec4_norm_inf, [Reads Flt 4]);
  (wasm.wasm_glm_vec4_negate_to, [Reads Flt 4; Writes 4]);
  (wasm.wasm_glm_vec4_negate, [Updates Flt 4]);
  (wasm.wasm_glm_vec4_maxv, [Reads Flt 4; Reads Flt 4; Writes 4]);
  (wasm.wasm_glm_vec4_minv, [Reads Flt 4; Reads Flt 4; Writes 4]);
  (wasm.wasm_glm_vec4_clamp, [Updates Flt 4; Float; Float]);
  (wasm.wasm_glm_vec4_swizzle, [Reads Flt 4; Index 256; Writes 4]);
  (wasm.wasm_glm_mat4_copy, [Reads Flt 16; Writes 16]);
  (wasm.wasm_glm_mat4_identity, [Updates Flt 16]);
  (wasm.wasm_glm_mat4_zero, [Updates Flt 16]);
  (wasm.wasm_glm_mat4_transpose_to, [Reads Flt 16; Writes 16]);
  (wasm.wasm_glm_mat4_transpose, [Updates Flt 16]);
  (wasm.wasm_glm_mat4_swap_col, [Updates Flt 16; Index 4; Index 4]);
  (wasm.wasm_glm_mat3x4_copy, [Reads Flt 12; Writes 12]);
  (wasm.wasm_glm_mat3x4_zero, [Writes 12]);
  (wasm.wasm_glm_mat2_copy, [Reads Flt 4; Writes 4]);
  (wasm.wasm_glm_mat2_identity, [Updates Flt 4]);
  (wasm.wasm_glm_mat2_zero, [Updates Flt 4]);
  (wasm.wasm_glm_mat2_transpose_to, [Reads Flt 4; Writes 4]);
  (wasm.wasm_glm_mat2x4_copy, [Reads Flt 8; Writes 8]);
  (wasm.wasm_glm_mat2x4_zero, [Writes 8]);
  (wasm.wasm_glm_translate_make, [Writes 16; Reads Flt 3]);
  (wasm.wasm_glm_scale_make, [Writes 16; Reads Flt 3]);
  (wasm.wasm_glm_quat_identity, [Updates Flt 4]);
  (wasm.wasm_glm_quat_copy, [Reads Flt 4; Writes 4]);
  (wasm.wasm_glm_quat_conjugate, [Reads Flt 4; Writes 4])].
(** on integers of magnitude at most the number given: functions that also add, subtract and multiply.
    Where a pointer is [Apart], the bound is that for arguments that are not written. *)
Definition exact_integers : list (Z * list (fundef * list param)) :=
 [
  (2, [
    (glm_quat_mul, [Reads Flt 4; Reads Flt 4; Writes 4])]);
  (12, [
    (glm_ease_quint_inout, [Float])]);
  (20, [
    (glm_smc, [Float; Reads Flt 16; Reads Flt 4]);
    (glms_smc, [Float; Struct Flt 16; Struct Flt 4]);
    (sse2.sse2_glm_smc, [Float; Reads Flt 16; Reads Flt 4]);
    (avx.avx_glm_smc, [Float; Reads Flt 16; Reads Flt 4]);
    (fma.fma_glm_smc, [Float; Reads Flt 16; Reads Flt 4]);
    (neon.neon_glm_smc, [Float; Reads Flt 16; Reads Flt 4]);
    (neon32.neon32_glm_smc, [Float; Reads Flt 16; Reads Flt 4]);
    (wasm.wasm_glm_smc, [Float; Reads Flt 16; Reads Flt 4])]);
  (26, [
    (glm_ease_quint_out, [Float])]);
  (27, [
    (glm_ease_quint_in, [Float])]);
  (28, [
    (glm_mat4_det, [Reads Flt 16]);
    (glms_mat4_det, [Struct Flt 16]);
    (sse2.sse2_glm_mat4_det, [Reads Flt 16]);
    (avx.avx_glm_mat4_det, [Reads Flt 16]);
    (fma.fma_glm_mat4_det, [Reads Flt 16]);
    (neon.neon_glm_mat4_det, [Reads Flt 16]);
    (neon32.neon32_glm_mat4_det, [Reads Flt 16]);
    (wasm.wasm_glm_mat4_det, [Reads Flt 16])]);
  (37, [
    (glm_bezier, [Float; Float; Float; Float; Float]);
    (glm_ease_quart_inout, [Float])]);
  (40, [
    (glm_hermite, [Float; Float; Float; Float; Float])]);
  (44, [
    (glms_vec3_smoothinterp, [Struct Flt 3; Struct Flt 3; Float]);
    (glms_vec3_smoothinterpc, [Struct Flt 3; Struct Flt 3; Float]);
    (glms_vec4_smoothinterp, [Struct Flt 4; Struct Flt 4; Float]);
    (glms_vec4_smoothinterpc, [Struct Flt 4; Struct Flt 4; Float]);
    (glm_smoothinterp, [Float; Float; Float]);
    (glm_smoothinterpc, [Float; Float; Float]);
    (glm_vec3_smoothinterp, [Reads Flt 3; Reads Flt 3; Float; Writes 3]);
    (glm_vec3_smoothinterpc, [Reads Flt 3; Reads Flt 3; Float; Writes 3]);
    (glm_vec4_smoothinterp, [Reads Flt 4; Reads Flt 4; Float; Writes 4]);
    (glm_vec4_smoothinterpc, [Reads Flt 4; Reads Flt 4; Float; Writes 4]);
    (sse2.sse2_glm_vec4_smoothinterp, [Reads Flt 4; Reads Flt 4; Float; Writes 4]);
    (sse2.sse2_glm_vec4_smoothinterpc, [Reads Flt 4; Reads Flt 4; Float; Writes 4]);
    (avx.avx_glm_vec4_smoothinterp, [Reads Flt 4; Reads Flt 4; Float; Writes 4]);
    (avx.avx_glm_vec4_smoothinterpc, [Reads Flt 4; Reads Flt 4; Float; Writes 4]);
    (fma.fma_glm_vec4_smoothinterp, [Reads Flt 4; Reads Flt 4; Float; Writes 4]);
    (fma.fma_glm_vec4_smoothinterpc, [Reads Flt 4; Reads Flt 4; Float; Writes 4]);
    (neon.neon_glm_vec4_smoothinterp, [Reads Flt 4; Reads Flt 4; Float; Writes 4]);
    (neon.neon_glm_vec4_smoothinterpc, [Reads Flt 4; Reads Flt 4; Float; Writes 4]);
    (neon32.neon32_glm_vec4_smoothinterp, [Reads Flt 4; Reads Flt 4; Float; Writes 4]);
    (neon32.neon32_glm_vec4_smoothinterpc, [Reads Flt 4; Reads Flt 4; Float; Writes 4]);
    (wasm.wasm_glm_vec4_smoothinterp, [Reads Flt 4; Reads Flt 4; Float; Writes 4]);
    (wasm.wasm_glm_vec4_smoothinterpc, [Reads Flt 4; Reads Flt 4; Float; Writes 4])]);
  (62, [
    (glm_ease_quart_out, [Float])]);
  (63, [
    (glm_ease_quart_in, [Float])]);
  (101, [
    (glm_mat4_rmc, [Reads Flt 4; Reads Flt 16; Reads Flt 4]);
    (glms_mat4_rmc, [Struct Flt 4; Struct Flt 16; Struct Flt 4]);
    (sse2.sse2_glm_mat4_rmc, [Reads Flt 4; Reads Flt 16; Reads Flt 4]);
    (avx.avx_glm_mat4_rmc, [Reads Flt 4; Reads Flt 16; Reads Flt 4]);
    (fma.fma_glm_mat4_rmc, [Reads Flt 4; Reads Flt 16; Reads Flt 4]);
    (neon.neon_glm_mat4_rmc, [Reads Flt 4; Reads Flt 16; Reads Flt 4]);
    (neon32.neon32_glm_mat4_rmc, [Reads Flt 4; Reads Flt 16; Reads Flt 4]);
    (wasm.wasm_glm_mat4_rmc, [Reads Flt 4; Reads Flt 16; Reads Flt 4])]);
  (123, [
    (glm_mat3_rmc, [Reads Flt 3; Reads Flt 9; Reads Flt 3]);
    (glms_mat3_rmc, [Struct Flt 3; Struct Flt 9; Struct Flt 3])]);
  (126, [
    (glm_ease_cubic_inout, [Float])]);
  (127, [
    (glms_vec4_reflect, [Struct Flt 4; Struct Flt 4]);
    (glm_vec4_reflect, [Reads Flt 4; Reads Flt 4; Writes 4]);
    (sse2.sse2_glm_vec4_reflect, [Reads Flt 4; Reads Flt 4; Writes 4]);
    (avx.avx_glm_vec4_reflect, [Reads Flt 4; Reads Flt 4; Writes 4]);
    (fma.fma_glm_vec4_reflect, [Reads Flt 4; Reads Flt 4; Writes 4]);
    (neon.neon_glm_vec4_reflect, [Reads Flt 4; Reads Flt 4; Writes 4]);
    (neon32.neon32_glm_vec4_reflect, [Reads Flt 4; Reads Flt 4; Writes 4]);
    (wasm.wasm_glm_vec4_reflect, [Reads Flt 4; Reads Flt 4; Writes 4])]);
  (140, [
    (glm_mat3_det, [Reads Flt 9]);
    (glms_mat3_det, [Struct Flt 9]);
    (glms_vec3_reflect, [Struct Flt 3; Struct Flt 3]);
    (glm_vec3_reflect, [Reads Flt 3; Reads Flt 3; Writes 3])]);
  (161, [
    (glm_mat2_rmc, [Reads Flt 2; Reads Flt 4; Reads Flt 2]);
    (glms_mat2_rmc, [Struct Flt 2; Struct Flt 4; Struct Flt 2]);
    (glms_vec2_reflect, [Struct Flt 2; Struct Flt 2]);
    (glm_vec2_reflect, [Reads Flt 2; Reads Flt 2; Writes 2])]);
  (202, [
    (glm_smooth, [Float])]);
  (203, [
    (glm_mat2_mulv, [Reads Flt 4; Reads Flt 2; Writes 2])]);
  (254, [
    (glm_ease_cubic_out, [Float])]);
  (255, [
    (glm_ease_cubic_in, [Float]);
    (glms_vec4_cubic, [Float]);
    (glm_vec4_cubic, [Float; Writes 4])]);
  (1023, [
    (glms_vec4_distance2, [Struct Flt 4; Struct Flt 4]);
    (glm_vec4_distance2, [Reads Flt 4; Reads Flt 4]);
    (sse2.sse2_glm_vec4_distance2, [Reads Flt 4; Reads Flt 4]);
    (avx.avx_glm_vec4_distance2, [Reads Flt 4; Reads Flt 4]);
    (fma.fma_glm_vec4_distance2, [Reads Flt 4; Reads Flt 4]);
    (neon.neon_glm_vec4_distance2, [Reads Flt 4; Reads Flt 4]);
    (neon32.neon32_glm_vec4_distance2, [Reads Flt 4; Reads Flt 4]);
    (wasm.wasm_glm_vec4_distance2, [Reads Flt 4; Reads Flt 4])]);
  (1182, [
    (glm_aabb_sphere, [Reads Flt 6; Reads Flt 4]);
    (glm_sphere_sphere, [Reads Flt 4; Reads Flt 4]);
    (glm_sphere_point, [Reads Flt 4; Reads Flt 3]);
    (glms_aabb_sphere, [Reads Flt 6; Struct Flt 4]);
    (glms_sphere_sphere, [Struct Flt 4; Struct Flt 4]);
    (glms_sphere_point, [Struct Flt 4; Struct Flt 3]);
    (glms_vec3_distance2, [Struct Flt 3; Struct Flt 3]);
    (glm_vec3_distance2, [Reads Flt 3; Reads Flt 3])]);
  (1448, [
    (glm_aabb2d_circle, [Reads Flt 4; Reads Flt 3]);
    (glms_vec2_distance2, [Struct Flt 2; Struct Flt 2]);
    (glm_vec2_distance2, [Reads Flt 2; Reads Flt 2])]);
  (2047, [
    (glm_mul, [Reads Flt 16; Reads Flt 16; Writes 16]);
    (glm_frustum_box, [Reads Flt 32; Reads Flt 16; Writes 6]);
    (glm_mat4_mul, [Reads Flt 16; Reads Flt 16; Writes 16]);
    (glm_mat4_mulv, [Reads Flt 16; Reads Flt 4; Writes 4]);
    (glm_mat4_mulv3, [Reads Flt 16; Reads Flt 3; Float; Writes 3]);
    (glm_mat4x2_mul, [Reads Flt 8; Reads Flt 8; Writes 4]);
    (glm_mat4x2_mulv, [Reads Flt 8; Reads Flt 4; Writes 2]);
    (glm_mat4x3_mul, [Reads Flt 12; Reads Flt 12; Writes 9]);
    (glm_mat4x3_mulv, [Reads Flt 12; Reads Flt 4; Writes 3]);
    (glm_quat_dot, [Reads Flt 4; Reads Flt 4]);
    (glm_quat_mul, [Apart Flt 4; Apart Flt 4; Writes 4]);
    (glms_mul, [Struct Flt 16; Struct Flt 16]);
    (glms_frustum_box, [Reads Flt 32; Struct Flt 16; Writes 6]);
    (glms_mat4_mul, [Struct Flt 16; Struct Flt 16]);
    (glms_mat4_mulv, [Struct Flt 16; Struct Flt 4]);
    (glms_mat4_mulv3, [Struct Flt 16; Struct Flt 3; Float]);
    (glms_mat4x2_mul, [Struct Flt 8; Struct Flt 8]);
    (glms_mat4x2_mulv, [Struct Flt 8; Struct Flt 4]);
    (glms_mat4x3_mul, [Struct Flt 12; Struct Flt 12]);
    (glms_mat4x3_mulv, [Struct Flt 12; Struct Flt 4]);
    (glms_quat_dot, [Struct Flt 4; Struct Flt 4]);
    (glms_quat_mul, [Struct Flt 4; Struct Flt 4]);
    (glms_vec4_dot, [Struct Flt 4; Struct Flt 4]);
    (glms_vec4_norm2, [Struct Flt 4]);
    (glm_vec4_dot, [Reads Flt 4; Reads Flt 4]);
    (glm_vec4_norm2, [Reads Flt 4]);
    (sse2.sse2_glm_vec4_dot, [Reads Flt 4; Reads Flt 4]);
    (sse2.sse2_glm_vec4_norm2, [Reads Flt 4]);
    (sse2.sse2_glm_mat4_mul, [Reads Flt 16; Reads Flt 16; Writes 16]);
    (sse2.sse2_glm_mat4_mulv, [Reads Flt 16; Reads Flt 4; Writes 4]);
    (sse2.sse2_glm_mat4_mulv3, [Reads Flt 16; Reads Flt 3; Float; Writes 3]);
    (sse2.sse2_glm_mul, [Reads Flt 16; Reads Flt 16; Writes 16]);
    (sse2.sse2_glm_frustum_box, [Reads Flt 32; Reads Flt 16; Writes 6]);
    (sse2.sse2_glm_quat_dot, [Reads Flt 4; Reads Flt 4]);
    (sse2.sse2_glm_quat_mul, [Reads Flt 4; Reads Flt 4; Writes 4]);
    (avx.avx_glm_vec4_dot, [Reads Flt 4; Reads Flt 4]);
    (avx.avx_glm_vec4_norm2, [Reads Flt 4]);
    (avx.avx_glm_mat4_mul, [Reads Flt 16; Reads Flt 16; Writes 16]);
    (avx.avx_glm_mat4_mulv, [Reads Flt 16; Reads Flt 4; Writes 4]);
    (avx.avx_glm_mat4_mulv3, [Reads Flt 16; Reads Flt 3; Float; Writes 3]);
    (avx.avx_glm_mul, [Reads Flt 16; Reads Flt 16; Writes 16]);
    (avx.avx_glm_frustum_box, [Reads Flt 32; Reads Flt 16; Writes 6]);
    (avx.avx_glm_quat_dot, [Reads Flt 4; Reads Flt 4]);
    (avx.avx_glm_quat_mul, [Reads Flt 4; Reads Flt 4; Writes 4]);
    (fma.fma_glm_vec4_dot, [Reads Flt 4; Reads Flt 4]);
    (fma.fma_glm_vec4_norm2, [Reads Flt 4]);
    (fma.fma_glm_mat4_mul, [Reads Flt 16; Reads Flt 16; Writes 16]);
    (fma.fma_glm_mat4_mulv, [Reads Flt 16; Reads Flt 4; Writes 4]);
    (fma.fma_glm_mat4_mulv3, [Reads Flt 16; Reads Flt 3; Float; Writes 3]);
    (fma.fma_glm_mul, [Reads Flt 16; Reads Flt 16; Writes 16]);
    (fma.fma_glm_frustum_box, [Reads Flt 32; Reads Flt 16; Writes 6]);
    (fma.fma_glm_quat_dot, [Reads Flt 4; Reads Flt 4]);
    (fma.fma_glm_quat_mul, [Reads Flt 4; Reads Flt 4; Writes 4]);
    (neon.neon_glm_vec4_dot, [Reads Flt 4; Reads Flt 4]);
    (neon.neon_glm_vec4_norm2, [Reads Flt 4]);
    (neon.neon_glm_mat4_mul, [Reads Flt 16; Reads Flt 16; Writes 16]);
    (neon.neon_glm_mat4_mulv, [Reads Flt 16; Reads Flt 4; Writes 4]);
    (neon.neon_glm_mat4_mulv3, [Reads Flt 16; Reads Flt 3; Float; Writes 3]);
    (neon.neon_glm_mul, [Reads Flt 16; Reads Flt 16; Writes 16]);
    (neon.neon_glm_frustum_box, [Reads Flt 32; Reads Flt 16; Writes 6]);
    (neon.neon_glm_quat_dot, [Reads Flt 4; Reads Flt 4]);
    (neon.neon_glm_quat_mul, [Reads Flt 4; Reads Flt 4; Writes 4]);
    (neon32.neon32_glm_vec4_dot, [Reads Flt 4; Reads Flt 4]);
    (neon32.neon32_glm_vec4_norm2, [Reads Flt 4]);
    (neon32.neon32_glm_mat4_mul, [Reads Flt 16; Reads Flt 16; Writes 16]);
    (neon32.neon32_glm_mat4_mulv, [Reads Flt 16; Reads Flt 4; Writes 4]);
    (neon32.neon32_glm_mat4_mulv3, [Reads Flt 16; Reads Flt 3; Float; Writes 3]);
    (neon32.neon32_glm_mul, [Reads Flt 16; Reads Flt 16; Writes 16]);
    (neon32.neon32_glm_frustum_box, [Reads Flt 32; Reads Flt 16; Writes 6]);
    (neon32.neon32_glm_quat_dot, [Reads Flt 4; Reads Flt 4]);
    (neon32.neon32_glm_quat_mul, [Reads Flt 4; Reads Flt 4; Writes 4]);
    (wasm.wasm_glm_vec4_dot, [Reads Flt 4; Reads Flt 4]);
    (wasm.wasm_glm_vec4_norm2, [Reads Flt 4]);
    (wasm.wasm_glm_mat4_mul, [Reads Flt 16; Reads Flt 16; Writes 16]);
    (wasm.wasm_glm_mat4_mulv, [Reads Flt 16; Reads Flt 4; Writes 4]);
    (wasm.wasm_glm_mat4_mulv3, [Reads Flt 16; Reads Flt 3; Float; Writes 3]);
    (wasm.wasm_glm_mul, [Reads Flt 16; Reads Flt 16; Writes 16]);
    (wasm.wasm_glm_frustum_box, [Reads Flt 32; Reads Flt 16; Writes 6]);
    (wasm.wasm_glm_quat_dot, [Reads Flt 4; Reads Flt 4]);
    (wasm.wasm_glm_quat_mul, [Reads Flt 4; Reads Flt 4; Writes 4])]);
  (2364, [
    (glm_mul_rot, [Reads Flt 16; Reads Flt 16; Writes 16]);
    (glm_inv_tr, [Updates Flt 16]);
    (glm_translate, [Updates Flt 16; Reads Flt 3]);
    (glm_translate_to, [Reads Flt 16; Reads Flt 3; Writes 16]);
    (glm_aabb_transform, [Reads Flt 6; Reads Flt 16; Writes 6]);
    (glm_aabb_frustum, [Reads Flt 6; Reads Flt 24]);
    (glm_mat3_mul, [Reads Flt 9; Reads Flt 9; Writes 9]);
    (glm_mat3_mulv, [Reads Flt 9; Reads Flt 3; Writes 3]);
    (glm_mat3x2_mul, [Reads Flt 6; Reads Flt 6; Writes 4]);
    (glm_mat3x2_mulv, [Reads Flt 6; Reads Flt 3; Writes 2]);
    (glm_mat3x4_mul, [Reads Flt 12; Reads Flt 12; Writes 16]);
    (glm_mat3x4_mulv, [Reads Flt 12; Reads Flt 3; Writes 4]);
    (glm_sphere_transform, [Reads Flt 4; Reads Flt 16; Writes 4]);
    (glms_mul_rot, [Struct Flt 16; Struct Flt 16]);
    (glms_inv_tr, [Struct Flt 16]);
    (glms_translate, [Struct Flt 16; Struct Flt 3]);
    (glms_aabb_transform, [Reads Flt 6; Struct Flt 16; Writes 6]);
    (glms_aabb_frustum, [Reads Flt 6; Reads Flt 24]);
    (glms_mat3_mul, [Struct Flt 9; Struct Flt 9]);
    (glms_mat3_mulv, [Struct Flt 9; Struct Flt 3]);
    (glms_mat3x2_mul, [Struct Flt 6; Struct Flt 6]);
    (glms_mat3x2_mulv, [Struct Flt 6; Struct Flt 3]);
    (glms_mat3x4_mul, [Struct Flt 12; Struct Flt 12]);
    (glms_mat3x4_mulv, [Struct Flt 12; Struct Flt 3]);
    (glms_sphere_transform, [Struct Flt 4; Struct Flt 16]);
    (glms_vec3_dot, [Struct Flt 3; Struct Flt 3]);
    (glms_vec3_norm2, [Struct Flt 3]);
    (glms_dot, [Struct Flt 3; Struct Flt 3]);
    (glms_vec3_faceforward, [Struct Flt 3; Struct Flt 3; Struct Flt 3]);
    (glm_vec3_dot, [Reads Flt 3; Reads Flt 3]);
    (glm_vec3_norm2, [Reads Flt 3]);
    (glm_dot, [Reads Flt 3; Reads Flt 3]);
    (glm_vec3_faceforward, [Reads Flt 3; Reads Flt 3; Reads Flt 3; Writes 3]);
    (sse2.sse2_glm_mat3_mul, [Reads Flt 9; Reads Flt 9; Writes 9]);
    (sse2.sse2_glm_mul_rot, [Reads Flt 16; Reads Flt 16; Writes 16]);
    (sse2.sse2_glm_inv_tr, [Updates Flt 16]);
    (sse2.sse2_glm_translate, [Updates Flt 16; Reads Flt 3]);
    (sse2.sse2_glm_translate_to, [Reads Flt 16; Reads Flt 3; Writes 16]);
    (sse2.sse2_glm_sphere_transform, [Reads Flt 4; Reads Flt 16; Writes 4]);
    (avx.avx_glm_mat3_mul, [Reads Flt 9; Reads Flt 9; Writes 9]);
    (avx.avx_glm_mul_rot, [Reads Flt 16; Reads Flt 16; Writes 16]);
    (avx.avx_glm_inv_tr, [Updates Flt 16]);
    (avx.avx_glm_translate, [Updates Flt 16; Reads Flt 3]);
    (avx.avx_glm_translate_to, [Reads Flt 16; Reads Flt 3; Writes 16]);
    (avx.avx_glm_sphere_transform, [Reads Flt 4; Reads Flt 16; Writes 4]);
    (fma.fma_glm_mat3_mul, [Reads Flt 9; Reads Flt 9; Writes 9]);
    (fma.fma_glm_mul_rot, [Reads Flt 16; Reads Flt 16; Writes 16]);
    (fma.fma_glm_inv_tr, [Updates Flt 16]);
    (fma.fma_glm_translate, [Updates Flt 16; Reads Flt 3]);
    (fma.fma_glm_translate_to, [Reads Flt 16; Reads Flt 3; Writes 16]);
    (fma.fma_glm_sphere_transform, [Reads Flt 4; Reads Flt 16; Writes 4]);
    (neon.neon_glm_mul_rot, [Reads Flt 16; Reads Flt 16; Writes 16]);
    (neon.neon_glm_inv_tr, [Updates Flt 16]);
    (neon.neon_glm_translate, [Updates Flt 16; Reads Flt 3]);
    (neon.neon_glm_translate_to, [Reads Flt 16; Reads Flt 3; Writes 16]);
    (neon.neon_glm_sphere_transform, [Reads Flt 4; Reads Flt 16; Writes 4]);
    (neon32.neon32_glm_mul_rot, [Reads Flt 16; Reads Flt 16; Writes 16]);
    (neon32.neon32_glm_inv_tr, [Updates Flt 16]);
    (neon32.neon32_glm_translate, [Updates Flt 16; Reads Flt 3]);
    (neon32.neon32_glm_translate_to, [Reads Flt 16; Reads Flt 3; Writes 16]);
    (neon32.neon32_glm_sphere_transform, [Reads Flt 4; Reads Flt 16; Writes 4]);
    (wasm.wasm_glm_mat3_mul, [Reads Flt 9; Reads Flt 9; Writes 9]);
    (wasm.wasm_glm_mul_rot, [Reads Flt 16; Reads Flt 16; Writes 16]);
    (wasm.wasm_glm_inv_tr, [Updates Flt 16]);
    (wasm.wasm_glm_translate, [Updates Flt 16; Reads Flt 3]);
    (wasm.wasm_glm_translate_to, [Reads Flt 16; Reads Flt 3; Writes 16]);
    (wasm.wasm_glm_sphere_transform, [Reads Flt 4; Reads Flt 16; Writes 4])]);
  (2895, [
    (glm_ease_quad_inout, [Float])]);
  (2896, [
    (glm_aabb2d_transform, [Reads Flt 4; Reads Flt 9; Writes 4]);
    (glm_translate2d, [Updates Flt 9; Reads Flt 2]);
    (glm_translate2d_to, [Reads Flt 9; Reads Flt 2; Writes 9]);
    (glm_mat2_mul, [Reads Flt 4; Reads Flt 4; Writes 4]);
    (glm_mat2_mulv, [Apart Flt 4; Apart Flt 2; Writes 2]);
    (glm_mat2_det, [Reads Flt 4]);
    (glm_mat2x3_mul, [Reads Flt 6; Reads Flt 6; Writes 9]);
    (glm_mat2x3_mulv, [Reads Flt 6; Reads Flt 2; Writes 3]);
    (glm_mat2x4_mul, [Reads Flt 8; Reads Flt 8; Writes 16]);
    (glm_mat2x4_mulv, [Reads Flt 8; Reads Flt 2; Writes 4]);
    (glm_quat_lerp, [Reads Flt 4; Reads Flt 4; Float; Writes 4]);
    (glm_quat_lerpc, [Reads Flt 4; Reads Flt 4; Float; Writes 4]);
    (glms_translate2d, [Struct Flt 9; Struct Flt 2]);
    (glms_mat2_mul, [Struct Flt 4; Struct Flt 4]);
    (glms_mat2_mulv, [Struct Flt 4; Struct Flt 2]);
    (glms_mat2_det, [Struct Flt 4]);
    (glms_mat2x3_mul, [Struct Flt 6; Struct Flt 6]);
    (glms_mat2x3_mulv, [Struct Flt 6; Struct Flt 2]);
    (glms_mat2x4_mul, [Struct Flt 8; Struct Flt 8]);
    (glms_mat2x4_mulv, [Struct Flt 8; Struct Flt 2]);
    (glms_quat_lerp, [Struct Flt 4; Struct Flt 4; Float]);
    (glms_quat_lerpc, [Struct Flt 4; Struct Flt 4; Float]);
    (glms_vec2_dot, [Struct Flt 2; Struct Flt 2]);
    (glms_vec2_cross, [Struct Flt 2; Struct Flt 2]);
    (glms_vec2_norm2, [Struct Flt 2]);
    (glms_vec2_lerp, [Struct Flt 2; Struct Flt 2; Float]);
    (glms_vec2_complex_mul, [Struct Flt 2; Struct Flt 2; Struct Flt 2]);
    (glms_vec3_cross, [Struct Flt 3; Struct Flt 3]);
    (glms_vec3_lerp, [Struct Flt 3; Struct Flt 3; Float]);
    (glms_vec3_lerpc, [Struct Flt 3; Struct Flt 3; Float]);
    (glms_vec3_mix, [Struct Flt 3; Struct Flt 3; Float]);
    (glms_vec3_mixc, [Struct Flt 3; Struct Flt 3; Float]);
    (glms_cross, [Struct Flt 3; Struct Flt 3]);
    (glms_vec4_lerp, [Struct Flt 4; Struct Flt 4; Float]);
    (glms_vec4_lerpc, [Struct Flt 4; Struct Flt 4; Float]);
    (glms_vec4_mix, [Struct Flt 4; Struct Flt 4; Float]);
    (glms_vec4_mixc, [Struct Flt 4; Struct Flt 4; Float]);
    (glm_lerp, [Float; Float; Float]);
    (glm_lerpc, [Float; Float; Float]);
    (glm_vec2_dot, [Reads Flt 2; Reads Flt 2]);
    (glm_vec2_cross, [Reads Flt 2; Reads Flt 2]);
    (glm_vec2_norm2, [Reads Flt 2]);
    (glm_vec2_lerp, [Reads Flt 2; Reads Flt 2; Float; Writes 2]);
    (glm_vec2_complex_mul, [Reads Flt 2; Reads Flt 2; Writes 2]);
    (glm_vec3_cross, [Reads Flt 3; Reads Flt 3; Writes 3]);
    (glm_vec3_lerp, [Reads Flt 3; Reads Flt 3; Float; Writes 3]);
    (glm_vec3_lerpc, [Reads Flt 3; Reads Flt 3; Float; Writes 3]);
    (glm_vec3_mix, [Reads Flt 3; Reads Flt 3; Float; Writes 3]);
    (glm_vec3_mixc, [Reads Flt 3; Reads Flt 3; Float; Writes 3]);
    (glm_cross, [Reads Flt 3; Reads Flt 3; Writes 3]);
    (glm_vec4_lerp, [Reads Flt 4; Reads Flt 4; Float; Writes 4]);
    (glm_vec4_lerpc, [Reads Flt 4; Reads Flt 4; Float; Writes 4]);
    (glm_vec4_mix, [Reads Flt 4; Reads Flt 4; Float; Writes 4]);
    (glm_vec4_mixc, [Reads Flt 4; Reads Flt 4; Float; Writes 4]);
    (sse2.sse2_glm_vec4_lerp, [Reads Flt 4; Reads Flt 4; Float; Writes 4]);
    (sse2.sse2_glm_vec4_lerpc, [Reads Flt 4; Reads Flt 4; Float; Writes 4]);
    (sse2.sse2_glm_vec4_mix, [Reads Flt 4; Reads Flt 4; Float; Writes 4]);
    (sse2.sse2_glm_vec4_mixc, [Reads Flt 4; Reads Flt 4; Float; Writes 4]);
    (sse2.sse2_glm_mat2_mul, [Reads Flt 4; Reads Flt 4; Writes 4]);
    (sse2.sse2_glm_quat_lerp, [Reads Flt 4; Reads Flt 4; Float; Writes 4]);
    (sse2.sse2_glm_quat_lerpc, [Reads Flt 4; Reads Flt 4; Float; Writes 4]);
    (avx.avx_glm_vec4_lerp, [Reads Flt 4; Reads Flt 4; Float; Writes 4]);
    (avx.avx_glm_vec4_lerpc, [Reads Flt 4; Reads Flt 4; Float; Writes 4]);
    (avx.avx_glm_vec4_mix, [Reads Flt 4; Reads Flt 4; Float; Writes 4]);
    (avx.avx_glm_vec4_mixc, [Reads Flt 4; Reads Flt 4; Float; Writes 4]);
    (avx.avx_glm_mat2_mul, [Reads Flt 4; Reads Flt 4; Writes 4]);
    (avx.avx_glm_quat_lerp, [Reads Flt 4; Reads Flt 4; Float; Writes 4]);
    (avx.avx_glm_quat_lerpc, [Reads Flt 4; Reads Flt 4; Float; Writes 4]);
    (fma.fma_glm_vec4_lerp, [Reads Flt 4; Reads Flt 4; Float; Writes 4]);
    (fma.fma_glm_vec4_lerpc, [Reads Flt 4; Reads Flt 4; Float; Writes 4]);
    (fma.fma_glm_vec4_mix, [Reads Flt 4; Reads Flt 4; Float; Writes 4]);
    (fma.fma_glm_vec4_mixc, [Reads Flt 4; Reads Flt 4; Float; Writes 4]);
    (fma.fma_glm_mat2_mul, [Reads Flt 4; Reads Flt 4; Writes 4]);
    (fma.fma_glm_quat_lerp, [Reads Flt 4; Reads Flt 4; Float; Writes 4]);
    (fma.fma_glm_quat_lerpc, [Reads Flt 4; Reads Flt 4; Float; Writes 4]);
    (neon.neon_glm_vec4_lerp, [Reads Flt 4; Reads Flt 4; Float; Writes 4]);
    (neon.neon_glm_vec4_lerpc, [Reads Flt 4; Reads Flt 4; Float; Writes 4]);
    (neon.neon_glm_vec4_mix, [Reads Flt 4; Reads Flt 4; Float; Writes 4]);
    (neon.neon_glm_vec4_mixc, [Reads Flt 4; Reads Flt 4; Float; Writes 4]);
    (neon.neon_glm_mat2_mul, [Reads Flt 4; Reads Flt 4; Writes 4]);
    (neon.neon_glm_quat_lerp, [Reads Flt 4; Reads Flt 4; Float; Writes 4]);
    (neon.neon_glm_quat_lerpc, [Reads Flt 4; Reads Flt 4; Float; Writes 4]);
    (neon32.neon32_glm_vec4_lerp, [Reads Flt 4; Reads Flt 4; Float; Writes 4]);
    (neon32.neon32_glm_vec4_lerpc, [Reads Flt 4; Reads Flt 4; Float; Writes 4]);
    (neon32.neon32_glm_vec4_mix, [Reads Flt 4; Reads Flt 4; Float; Writes 4]);
    (neon32.neon32_glm_vec4_mixc, [Reads Flt 4; Reads Flt 4; Float; Writes 4]);
    (neon32.neon32_glm_mat2_mul, [Reads Flt 4; Reads Flt 4; Writes 4]);
    (neon32.neon32_glm_quat_lerp, [Reads Flt 4; Reads Flt 4; Float; Writes 4]);
    (neon32.neon32_glm_quat_lerpc, [Reads Flt 4; Reads Flt 4; Float; Writes 4]);
    (wasm.wasm_glm_vec4_lerp, [Reads Flt 4; Reads Flt 4; Float; Writes 4]);
    (wasm.wasm_glm_vec4_lerpc, [Reads Flt 4; Reads Flt 4; Float; Writes 4]);
    (wasm.wasm_glm_vec4_mix, [Reads Flt 4; Reads Flt 4; Float; Writes 4]);
    (wasm.wasm_glm_vec4_mixc, [Reads Flt 4; Reads Flt 4; Float; Writes 4]);
    (wasm.wasm_glm_mat2_mul, [Reads Flt 4; Reads Flt 4; Writes 4]);
    (wasm.wasm_glm_quat_lerp, [Reads Flt 4; Reads Flt 4; Float; Writes 4]);
    (wasm.wasm_glm_quat_lerpc, [Reads Flt 4; Reads Flt 4; Float; Writes 4])]);
  (4095, [
    (glm_scale_to, [Reads Flt 16; Reads Flt 3; Writes 16]);
    (glm_scale, [Updates Flt 16; Reads Flt 3]);
    (glm_scale_uni, [Updates Flt 16; Float]);
    (glm_translate2d_x, [Updates Flt 9; Float]);
    (glm_translate2d_y, [Updates Flt 9; Float]);
    (glm_scale2d_to, [Reads Flt 9; Reads Flt 2; Writes 9]);
    (glm_scale2d, [Updates Flt 9; Reads Flt 2]);
    (glm_scale2d_uni, [Updates Flt 9; Float]);
    (glm_scaled2d, [Updates Flt 9; Reads Flt 2]);
    (glm_scaled2d_uni, [Updates Flt 9; Float]);
    (glm_translate_x, [Updates Flt 16; Float]);
    (glm_translate_y, [Updates Flt 16; Float]);
    (glm_translate_z, [Updates Flt 16; Float]);
    (glm_ease_quad_in, [Float]);
    (glm_ease_quad_out, [Float]);
    (glm_mat2_scale, [Updates Flt 4; Float]);
    (glm_mat2x3_scale, [Updates Flt 6; Float]);
    (glm_mat2x4_scale, [Updates Flt 8; Float]);
    (glm_mat3_scale, [Updates Flt 9; Float]);
    (glm_mat3x2_scale, [Updates Flt 6; Float]);
    (glm_mat3x4_scale, [Updates Flt 12; Float]);
    (glm_mat4_scale_p, [Updates Flt 16; Float]);
    (glm_mat4_scale, [Updates Flt 16; Float]);
    (glm_mat4x2_scale, [Updates Flt 8; Float]);
    (glm_mat4x3_scale, [Updates Flt 12; Float]);
    (glm_ray_at, [Reads Flt 3; Reads Flt 3; Float; Writes 3]);
    (glms_scale, [Struct Flt 16; Struct Flt 3]);
    (glms_scale_uni, [Struct Flt 16; Float]);
    (glms_translate2d_x, [Struct Flt 9; Float]);
    (glms_translate2d_y, [Struct Flt 9; Float]);
    (glms_scale2d, [Struct Flt 9; Struct Flt 2]);
    (glms_scale2d_uni, [Struct Flt 9; Float]);
    (glms_translate_x, [Struct Flt 16; Float]);
    (glms_translate_y, [Struct Flt 16; Float]);
    (glms_translate_z, [Struct Flt 16; Float]);
    (glms_mat2_scale, [Struct Flt 4; Float]);
    (glms_mat2x3_scale, [Struct Flt 6; Float]);
    (glms_mat2x4_scale, [Struct Flt 8; Float]);
    (glms_mat3_scale, [Struct Flt 9; Float]);
    (glms_mat3x2_scale, [Struct Flt 6; Float]);
    (glms_mat3x4_scale, [Struct Flt 12; Float]);
    (glms_mat4_scale_p, [Struct Flt 16; Float]);
    (glms_mat4_scale, [Struct Flt 16; Float]);
    (glms_mat4x2_scale, [Struct Flt 8; Float]);
    (glms_mat4x3_scale, [Struct Flt 12; Float]);
    (glms_ray_at, [Struct Flt 3; Struct Flt 3; Float]);
    (glms_vec2_mul, [Struct Flt 2; Struct Flt 2]);
    (glms_vec2_scale, [Struct Flt 2; Float]);
    (glms_vec2_muladd, [Struct Flt 2; Struct Flt 2; Struct Flt 2]);
    (glms_vec2_muladds, [Struct Flt 2; Float; Struct Flt 2]);
    (glms_vec2_mulsub, [Struct Flt 2; Struct Flt 2; Struct Flt 2]);
    (glms_vec2_mulsubs, [Struct Flt 2; Float; Struct Flt 2]);
    (glms_vec3_mul, [Struct Flt 3; Struct Flt 3]);
    (glms_vec3_scale, [Struct Flt 3; Float]);
    (glms_vec3_muladd, [Struct Flt 3; Struct Flt 3; Struct Flt 3]);
    (glms_vec3_muladds, [Struct Flt 3; Float; Struct Flt 3]);
    (glms_vec3_mulsub, [Struct Flt 3; Struct Flt 3; Struct Flt 3]);
    (glms_vec3_mulsubs, [Struct Flt 3; Float; Struct Flt 3]);
    (glms_vec4_mul, [Struct Flt 4; Struct Flt 4]);
    (glms_vec4_scale, [Struct Flt 4; Float]);
    (glms_vec4_muladd, [Struct Flt 4; Struct Flt 4; Struct Flt 4]);
    (glms_vec4_muladds, [Struct Flt 4; Float; Struct Flt 4]);
    (glms_vec4_mulsub, [Struct Flt 4; Struct Flt 4; Struct Flt 4]);
    (glms_vec4_mulsubs, [Struct Flt 4; Float; Struct Flt 4]);
    (glm_pow2, [Float]);
    (glm_vec2_mul, [Reads Flt 2; Reads Flt 2; Writes 2]);
    (glm_vec2_scale, [Reads Flt 2; Float; Writes 2]);
    (glm_vec2_muladd, [Reads Flt 2; Reads Flt 2; Updates Flt 2]);
    (glm_vec2_muladds, [Reads Flt 2; Float; Updates Flt 2]);
    (glm_vec2_mulsub, [Reads Flt 2; Reads Flt 2; Updates Flt 2]);
    (glm_vec2_mulsubs, [Reads Flt 2; Float; Updates Flt 2]);
    (glm_vec3_mul, [Reads Flt 3; Reads Flt 3; Writes 3]);
    (glm_vec3_scale, [Reads Flt 3; Float; Writes 3]);
    (glm_vec3_muladd, [Reads Flt 3; Reads Flt 3; Updates Flt 3]);
    (glm_vec3_muladds, [Reads Flt 3; Float; Updates Flt 3]);
    (glm_vec3_mulsub, [Reads Flt 3; Reads Flt 3; Updates Flt 3]);
    (glm_vec3_mulsubs, [Reads Flt 3; Float; Updates Flt 3]);
    (glm_vec4_mul, [Reads Flt 4; Reads Flt 4; Writes 4]);
    (glm_vec4_scale, [Reads Flt 4; Float; Writes 4]);
    (glm_vec4_muladd, [Reads Flt 4; Reads Flt 4; Updates Flt 4]);
    (glm_vec4_muladds, [Reads Flt 4; Float; Updates Flt 4]);
    (glm_vec4_mulsub, [Reads Flt 4; Reads Flt 4; Updates Flt 4]);
    (glm_vec4_mulsubs, [Reads Flt 4; Float; Updates Flt 4]);
    (sse2.sse2_glm_vec4_mul, [Reads Flt 4; Reads Flt 4; Writes 4]);
    (sse2.sse2_glm_vec4_scale, [Reads Flt 4; Float; Writes 4]);
    (sse2.sse2_glm_vec4_muladd, [Reads Flt 4; Reads Flt 4; Updates Flt 4]);
    (sse2.sse2_glm_vec4_muladds, [Reads Flt 4; Float; Updates Flt 4]);
    (sse2.sse2_glm_vec4_mulsub, [Reads Flt 4; Reads Flt 4; Updates Flt 4]);
    (sse2.sse2_glm_vec4_mulsubs, [Reads Flt 4; Float; Updates Flt 4]);
    (sse2.sse2_glm_mat4_scale, [Updates Flt 16; Float]);
    (sse2.sse2_glm_mat2_scale, [Updates Flt 4; Float]);
    (sse2.sse2_glm_scale_to, [Reads Flt 16; Reads Flt 3; Writes 16]);
    (sse2.sse2_glm_scale, [Updates Flt 16; Reads Flt 3]);
    (sse2.sse2_glm_scale_uni, [Updates Flt 16; Float]);
    (sse2.sse2_glm_translate_x, [Updates Flt 16; Float]);
    (sse2.sse2_glm_translate_y, [Updates Flt 16; Float]);
    (sse2.sse2_glm_translate_z, [Updates Flt 16; Float]);
    (avx.avx_glm_vec4_mul, [Reads Flt 4; Reads Flt 4; Writes 4]);
    (avx.avx_glm_vec4_scale, [Reads Flt 4; Float; Writes 4]);
    (avx.avx_glm_vec4_muladd, [Reads Flt 4; Reads Flt 4; Updates Flt 4]);
    (avx.avx_glm_vec4_muladds, [Reads Flt 4; Float; Updates Flt 4]);
    (avx.avx_glm_vec4_mulsub, [Reads Flt 4; Reads Flt 4; Updates Flt 4]);
    (avx.avx_glm_vec4_mulsubs, [Reads Flt 4; Float; Updates Flt 4]);
    (avx.avx_glm_mat4_scale, [Updates Flt 16; Float]);
    (avx.avx_glm_mat2_scale, [Updates Flt 4; Float]);
    (avx.avx_glm_scale_to, [Reads Flt 16; Reads Flt 3; Writes 16]);
    (avx.avx_glm_scale, [Updates Flt 16; Reads Flt 3]);
    (avx.avx_glm_scale_uni, [Updates Flt 16; Float]);
    (avx.avx_glm_translate_x, [Updates Flt 16; Float]);
    (avx.avx_glm_translate_y, [Updates Flt 16; Float]);
    (avx.avx_glm_translate_z, [Updates Flt 16; Float]);
    (fma.fma_glm_vec4_mul, [Reads Flt 4; Reads Flt 4; Writes 4]);
    (fma.fma_glm_vec4_scale, [Reads Flt 4; Float; Writes 4]);
    (fma.fma_glm_vec4_muladd, [Reads Flt 4; Reads Flt 4; Updates Flt 4]);
    (fma.fma_glm_vec4_muladds, [Reads Flt 4; Float; Updates Flt 4]);
    (fma.fma_glm_vec4_mulsub, [Reads Flt 4; Reads Flt 4; Updates Flt 4]);
    (fma.fma_glm_vec4_mulsubs, [Reads Flt 4; Float; Updates Flt 4]);
    (fma.fma_glm_mat4_scale, [Updates Flt 16; Float]);
    (fma.fma_glm_mat2_scale, [Updates Flt 4; Float]);
    (fma.fma_glm_scale_to, [Reads Flt 16; Reads Flt 3; Writes 16]);
    (fma.fma_glm_scale, [Updates Flt 16; Reads Flt 3]);
    (fma.fma_glm_scale_uni, [Updates Flt 16; Float]);
    (fma.fma_glm_translate_x, [Updates Flt 16; Float]);
    (fma.fma_glm_translate_y, [Updates Flt 16; Float]);
    (fma.fma_glm_translate_z, [Updates Flt 16; Float]);
    (neon.neon_glm_vec4_mul, [Reads Flt 4; Reads Flt 4; Writes 4]);
    (neon.neon_glm_vec4_scale, [Reads Flt 4; Float; Writes 4]);
    (neon.neon_glm_vec4_muladd, [Reads Flt 4; Reads Flt 4; Updates Flt 4]);
    (neon.neon_glm_vec4_muladds, [Reads Flt 4; Float; Updates Flt 4]);
    (neon.neon_glm_vec4_mulsub, [Reads Flt 4; Reads Flt 4; Updates Flt 4]);
    (neon.neon_glm_vec4_mulsubs, [Reads Flt 4; Float; Updates Flt 4]);
    (neon.neon_glm_mat4_scale, [Updates Flt 16; Float]);
    (neon.neon_glm_mat2_scale, [Updates Flt 4; Float]);
    (neon.neon_glm_scale_to, [Reads Flt 16; Reads Flt 3; Writes 16]);
    (neon.neon_glm_scale, [Updates Flt 16; Reads Flt 3]);
    (neon.neon_glm_scale_uni, [Updates Flt 16; Float]);
    (neon.neon_glm_translate_x, [Updates Flt 16; Float]);
    (neon.neon_glm_translate_y, [Updates Flt 16; Float]);
    (neon.neon_glm_translate_z, [Updates Flt 16; Float]);
    (neon32.neon32_glm_vec4_mul, [Reads Flt 4; Reads Flt 4; Writes 4]);
    (neon32.neon32_glm_vec4_scale, [Reads Flt 4; Float; Writes 4]);
    (neon32.neon32_glm_vec4_muladd, [Reads Flt 4; Reads Flt 4; Updates Flt 4]);
    (neon32.neon32_glm_vec4_muladds, [Reads Flt 4; Float; Updates Flt 4]);
    (neon32.neon32_glm_vec4_mulsub, [Reads Flt 4; Reads Flt 4; Updates Flt 4]);
    (neon32.neon32_glm_vec4_mulsubs, [Reads Flt 4; Float; Updates Flt 4]);
    (neon32.neon32_glm_mat4_scale, [Updates Flt 16; Float]);
    (neon32.neon32_glm_mat2_scale, [Updates Flt 4; Float]);
    (neon32.neon32_glm_scale_to, [Reads Flt 16; Reads Flt 3; Writes 16]);
    (neon32.neon32_glm_scale, [Updates Flt 16; Reads Flt 3]);
    (neon32.neon32_glm_scale_uni, [Updates Flt 16; Float]);
    (neon32.neon32_glm_translate_x, [Updates Flt 16; Float]);
    (neon32.neon32_glm_translate_y, [Updates Flt 16; Float]);
    (neon32.neon32_glm_translate_z, [Updates Flt 16; Float]);
    (wasm.wasm_glm_vec4_mul, [Reads Flt 4; Reads Flt 4; Writes 4]);
    (wasm.wasm_glm_vec4_scale, [Reads Flt 4; Float; Writes 4]);
    (wasm.wasm_glm_vec4_muladd, [Reads Flt 4; Reads Flt 4; Updates Flt 4]);
    (wasm.wasm_glm_vec4_muladds, [Reads Flt 4; Float; Updates Flt 4]);
    (wasm.wasm_glm_vec4_mulsub, [Reads Flt 4; Reads Flt 4; Updates Flt 4]);
    (wasm.wasm_glm_vec4_mulsubs, [Reads Flt 4; Float; Updates Flt 4]);
    (wasm.wasm_glm_mat4_scale, [Updates Flt 16; Float]);
    (wasm.wasm_glm_mat2_scale, [Updates Flt 4; Float]);
    (wasm.wasm_glm_scale_to, [Reads Flt 16; Reads Flt 3; Writes 16]);
    (wasm.wasm_glm_scale, [Updates Flt 16; Reads Flt 3]);
    (wasm.wasm_glm_scale_uni, [Updates Flt 16; Float]);
    (wasm.wasm_glm_translate_x, [Updates Flt 16; Float]);
    (wasm.wasm_glm_translate_y, [Updates Flt 16; Float]);
    (wasm.wasm_glm_translate_z, [Updates Flt 16; Float])]);
  (2097151, [
    (glm_frustum_center, [Reads Flt 32; Writes 4]);
    (glms_frustum_center, [Reads Flt 32]);
    (sse2.sse2_glm_frustum_center, [Reads Flt 32; Writes 4]);
    (avx.avx_glm_frustum_center, [Reads Flt 32; Writes 4]);
    (fma.fma_glm_frustum_center, [Reads Flt 32; Writes 4]);
    (neon.neon_glm_frustum_center, [Reads Flt 32; Writes 4]);
    (neon32.neon32_glm_frustum_center, [Reads Flt 32; Writes 4]);
    (wasm.wasm_glm_frustum_center, [Reads Flt 32; Writes 4])]);
  (4194303, [
    (glm_mat4_trace, [Reads Flt 16]);
    (glms_mat4_trace, [Struct Flt 16]);
    (glms_vec4_norm_one, [Struct Flt 4]);
    (glms_vec4_hadd, [Struct Flt 4]);
    (glm_vec4_norm_one, [Reads Flt 4]);
    (glm_vec4_hadd, [Reads Flt 4]);
    (sse2.sse2_glm_vec4_hadd, [Reads Flt 4]);
    (sse2.sse2_glm_vec4_norm_one, [Reads Flt 4]);
    (avx.avx_glm_vec4_hadd, [Reads Flt 4]);
    (avx.avx_glm_vec4_norm_one, [Reads Flt 4]);
    (fma.fma_glm_vec4_hadd, [Reads Flt 4]);
    (fma.fma_glm_vec4_norm_one, [Reads Flt 4]);
    (neon.neon_glm_vec4_norm_one, [Reads Flt 4]);
    (neon32.neon32_glm_vec4_norm_one, [Reads Flt 4]);
    (wasm.wasm_glm_vec4_hadd, [Reads Flt 4]);
    (wasm.wasm_glm_vec4_norm_one, [Reads Flt 4])]);
  (5592405, [
    (glm_mat3_trace, [Reads Flt 9]);
    (glm_mat4_trace3, [Reads Flt 16]);
    (glms_mat3_trace, [Struct Flt 9]);
    (glms_mat4_trace3, [Struct Flt 16]);
    (glms_vec2_addadd, [Struct Flt 2; Struct Flt 2; Struct Flt 2]);
    (glms_vec2_subadd, [Struct Flt 2; Struct Flt 2; Struct Flt 2]);
    (glms_vec2_subsub, [Struct Flt 2; Struct Flt 2; Struct Flt 2]);
    (glms_vec2_addsub, [Struct Flt 2; Struct Flt 2; Struct Flt 2]);
    (glms_vec3_norm_one, [Struct Flt 3]);
    (glms_vec3_addadd, [Struct Flt 3; Struct Flt 3; Struct Flt 3]);
    (glms_vec3_subadd, [Struct Flt 3; Struct Flt 3; Struct Flt 3]);
    (glms_vec3_subsub, [Struct Flt 3; Struct Flt 3; Struct Flt 3]);
    (glms_vec3_addsub, [Struct Flt 3; Struct Flt 3; Struct Flt 3]);
    (glms_vec3_hadd, [Struct Flt 3]);
    (glms_vec4_addadd, [Struct Flt 4; Struct Flt 4; Struct Flt 4]);
    (glms_vec4_subadd, [Struct Flt 4; Struct Flt 4; Struct Flt 4]);
    (glms_vec4_subsub, [Struct Flt 4; Struct Flt 4; Struct Flt 4]);
    (glms_vec4_addsub, [Struct Flt 4; Struct Flt 4; Struct Flt 4]);
    (glm_vec2_addadd, [Reads Flt 2; Reads Flt 2; Updates Flt 2]);
    (glm_vec2_subadd, [Reads Flt 2; Reads Flt 2; Updates Flt 2]);
    (glm_vec2_subsub, [Reads Flt 2; Reads Flt 2; Updates Flt 2]);
    (glm_vec2_addsub, [Reads Flt 2; Reads Flt 2; Updates Flt 2]);
    (glm_vec3_norm_one, [Reads Flt 3]);
    (glm_vec3_addadd, [Reads Flt 3; Reads Flt 3; Updates Flt 3]);
    (glm_vec3_subadd, [Reads Flt 3; Reads Flt 3; Updates Flt 3]);
    (glm_vec3_subsub, [Reads Flt 3; Reads Flt 3; Updates Flt 3]);
    (glm_vec3_addsub, [Reads Flt 3; Reads Flt 3; Updates Flt 3]);
    (glm_vec3_hadd, [Reads Flt 3]);
    (glm_vec4_addadd, [Reads Flt 4; Reads Flt 4; Updates Flt 4]);
    (glm_vec4_subadd, [Reads Flt 4; Reads Flt 4; Updates Flt 4]);
    (glm_vec4_subsub, [Reads Flt 4; Reads Flt 4; Updates Flt 4]);
    (glm_vec4_addsub, [Reads Flt 4; Reads Flt 4; Updates Flt 4]);
    (sse2.sse2_glm_vec4_addadd, [Reads Flt 4; Reads Flt 4; Updates Flt 4]);
    (sse2.sse2_glm_vec4_subadd, [Reads Flt 4; Reads Flt 4; Updates Flt 4]);
    (sse2.sse2_glm_vec4_subsub, [Reads Flt 4; Reads Flt 4; Updates Flt 4]);
    (sse2.sse2_glm_vec4_addsub, [Reads Flt 4; Reads Flt 4; Updates Flt 4]);
    (avx.avx_glm_vec4_addadd, [Reads Flt 4; Reads Flt 4; Updates Flt 4]);
    (avx.avx_glm_vec4_subadd, [Reads Flt 4; Reads Flt 4; Updates Flt 4]);
    (avx.avx_glm_vec4_subsub, [Reads Flt 4; Reads Flt 4; Updates Flt 4]);
    (avx.avx_glm_vec4_addsub, [Reads Flt 4; Reads Flt 4; Updates Flt 4]);
    (fma.fma_glm_vec4_addadd, [Reads Flt 4; Reads Flt 4; Updates Flt 4]);
    (fma.fma_glm_vec4_subadd, [Reads Flt 4; Reads Flt 4; Updates Flt 4]);
    (fma.fma_glm_vec4_subsub, [Reads Flt 4; Reads Flt 4; Updates Flt 4]);
    (fma.fma_glm_vec4_addsub, [Reads Flt 4; Reads Flt 4; Updates Flt 4]);
    (neon.neon_glm_vec4_addadd, [Reads Flt 4; Reads Flt 4; Updates Flt 4]);
    (neon.neon_glm_vec4_subadd, [Reads Flt 4; Reads Flt 4; Updates Flt 4]);
    (neon.neon_glm_vec4_subsub, [Reads Flt 4; Reads Flt 4; Updates Flt 4]);
    (neon.neon_glm_vec4_addsub, [Reads Flt 4; Reads Flt 4; Updates Flt 4]);
    (neon32.neon32_glm_vec4_addadd, [Reads Flt 4; Reads Flt 4; Updates Flt 4]);
    (neon32.neon32_glm_vec4_subadd, [Reads Flt 4; Reads Flt 4; Updates Flt 4]);
    (neon32.neon32_glm_vec4_subsub, [Reads Flt 4; Reads Flt 4; Updates Flt 4]);
    (neon32.neon32_glm_vec4_addsub, [Reads Flt 4; Reads Flt 4; Updates Flt 4]);
    (wasm.wasm_glm_vec4_addadd, [Reads Flt 4; Reads Flt 4; Updates Flt 4]);
    (wasm.wasm_glm_vec4_subadd, [Reads Flt 4; Reads Flt 4; Updates Flt 4]);
    (wasm.wasm_glm_vec4_subsub, [Reads Flt 4; Reads Flt 4; Updates Flt 4]);
    (wasm.wasm_glm_vec4_addsub, [Reads Flt 4; Reads Flt 4; Updates Flt 4])]);
  (8388607, [
    (glm_aabb2d_sizev, [Reads Flt 4; Writes 2]);
    (glm_aabb2d_center, [Reads Flt 4; Writes 2]);
    (glm_translated2d, [Updates Flt 9; Reads Flt 2]);
    (glm_translated2d_x, [Updates Flt 9; Float]);
    (glm_translated2d_y, [Updates Flt 9; Float]);
    (glm_translated, [Updates Flt 16; Reads Flt 3]);
    (glm_translated_to, [Reads Flt 16; Reads Flt 3; Writes 16]);
    (glm_translated_x, [Updates Flt 16; Float]);
    (glm_translated_y, [Updates Flt 16; Float]);
    (glm_translated_z, [Updates Flt 16; Float]);
    (glm_aabb_center, [Reads Flt 6; Writes 3]);
    (glm_mat2_trace, [Reads Flt 4]);
    (glm_quat_add, [Reads Flt 4; Reads Flt 4; Writes 4]);
    (glm_quat_sub, [Reads Flt 4; Reads Flt 4; Writes 4]);
    (glms_translated, [Struct Flt 16; Struct Flt 3]);
    (glms_translated_x, [Struct Flt 16; Float]);
    (glms_translated_y, [Struct Flt 16; Float]);
    (glms_translated_z, [Struct Flt 16; Float]);
    (glms_aabb_center, [Reads Flt 6]);
    (glms_mat2_trace, [Struct Flt 4]);
    (glms_quat_add, [Struct Flt 4; Struct Flt 4]);
    (glms_quat_sub, [Struct Flt 4; Struct Flt 4]);
    (glms_vec2_add, [Struct Flt 2; Struct Flt 2]);
    (glms_vec2_adds, [Struct Flt 2; Float]);
    (glms_vec2_sub, [Struct Flt 2; Struct Flt 2]);
    (glms_vec2_subs, [Struct Flt 2; Float]);
    (glms_vec2_maxadd, [Struct Flt 2; Struct Flt 2; Struct Flt 2]);
    (glms_vec2_minadd, [Struct Flt 2; Struct Flt 2; Struct Flt 2]);
    (glms_vec2_maxsub, [Struct Flt 2; Struct Flt 2; Struct Flt 2]);
    (glms_vec2_minsub, [Struct Flt 2; Struct Flt 2; Struct Flt 2]);
    (glms_vec2_center, [Struct Flt 2; Struct Flt 2]);
    (glms_vec2_fract, [Struct Flt 2]);
    (glms_vec3_add, [Struct Flt 3; Struct Flt 3]);
    (glms_vec3_adds, [Struct Flt 3; Float]);
    (glms_vec3_sub, [Struct Flt 3; Struct Flt 3]);
    (glms_vec3_subs, [Struct Flt 3; Float]);
    (glms_vec3_maxadd, [Struct Flt 3; Struct Flt 3; Struct Flt 3]);
    (glms_vec3_minadd, [Struct Flt 3; Struct Flt 3; Struct Flt 3]);
    (glms_vec3_maxsub, [Struct Flt 3; Struct Flt 3; Struct Flt 3]);
    (glms_vec3_minsub, [Struct Flt 3; Struct Flt 3; Struct Flt 3]);
    (glms_vec3_center, [Struct Flt 3; Struct Flt 3]);
    (glms_vec3_fract, [Struct Flt 3]);
    (glms_vec4_add, [Struct Flt 4; Struct Flt 4]);
    (glms_vec4_adds, [Struct Flt 4; Float]);
    (glms_vec4_sub, [Struct Flt 4; Struct Flt 4]);
    (glms_vec4_subs, [Struct Flt 4; Float]);
    (glms_vec4_maxadd, [Struct Flt 4; Struct Flt 4; Struct Flt 4]);
    (glms_vec4_minadd, [Struct Flt 4; Struct Flt 4; Struct Flt 4]);
    (glms_vec4_maxsub, [Struct Flt 4; Struct Flt 4; Struct Flt 4]);
    (glms_vec4_minsub, [Struct Flt 4; Struct Flt 4; Struct Flt 4]);
    (glms_vec4_fract, [Struct Flt 4]);
    (glm_vec2_add, [Reads Flt 2; Reads Flt 2; Writes 2]);
    (glm_vec2_adds, [Reads Flt 2; Float; Writes 2]);
    (glm_vec2_sub, [Reads Flt 2; Reads Flt 2; Writes 2]);
    (glm_vec2_subs, [Reads Flt 2; Float; Writes 2]);
    (glm_vec2_maxadd, [Reads Flt 2; Reads Flt 2; Updates Flt 2]);
    (glm_vec2_minadd, [Reads Flt 2; Reads Flt 2; Updates Flt 2]);
    (glm_vec2_maxsub, [Reads Flt 2; Reads Flt 2; Updates Flt 2]);
    (glm_vec2_minsub, [Reads Flt 2; Reads Flt 2; Updates Flt 2]);
    (glm_vec2_center, [Reads Flt 2; Reads Flt 2; Writes 2]);
    (glm_vec2_fract, [Reads Flt 2; Writes 2]);
    (glm_vec3_add, [Reads Flt 3; Reads Flt 3; Writes 3]);
    (glm_vec3_adds, [Reads Flt 3; Float; Writes 3]);
    (glm_vec3_sub, [Reads Flt 3; Reads Flt 3; Writes 3]);
    (glm_vec3_subs, [Reads Flt 3; Float; Writes 3]);
    (glm_vec3_maxadd, [Reads Flt 3; Reads Flt 3; Updates Flt 3]);
    (glm_vec3_minadd, [Reads Flt 3; Reads Flt 3; Updates Flt 3]);
    (glm_vec3_maxsub, [Reads Flt 3; Reads Flt 3; Updates Flt 3]);
    (glm_vec3_minsub, [Reads Flt 3; Reads Flt 3; Updates Flt 3]);
    (glm_vec3_center, [Reads Flt 3; Reads Flt 3; Writes 3]);
    (glm_vec3_fract, [Reads Flt 3; Writes 3]);
    (glm_vec4_add, [Reads Flt 4; Reads Flt 4; Writes 4]);
    (glm_vec4_adds, [Reads Flt 4; Float; Writes 4]);
    (glm_vec4_sub, [Reads Flt 4; Reads Flt 4; Writes 4]);
    (glm_vec4_subs, [Reads Flt 4; Float; Writes 4]);
    (glm_vec4_maxadd, [Reads Flt 4; Reads Flt 4; Updates Flt 4]);
    (glm_vec4_minadd, [Reads Flt 4; Reads Flt 4; Updates Flt 4]);
    (glm_vec4_maxsub, [Reads Flt 4; Reads Flt 4; Updates Flt 4]);
    (glm_vec4_minsub, [Reads Flt 4; Reads Flt 4; Updates Flt 4]);
    (glm_vec4_fract, [Reads Flt 4; Writes 4]);
    (sse2.sse2_glm_vec4_add, [Reads Flt 4; Reads Flt 4; Writes 4]);
    (sse2.sse2_glm_vec4_adds, [Reads Flt 4; Float; Writes 4]);
    (sse2.sse2_glm_vec4_sub, [Reads Flt 4; Reads Flt 4; Writes 4]);
    (sse2.sse2_glm_vec4_subs, [Reads Flt 4; Float; Writes 4]);
    (sse2.sse2_glm_vec4_maxadd, [Reads Flt 4; Reads Flt 4; Updates Flt 4]);
    (sse2.sse2_glm_vec4_minadd, [Reads Flt 4; Reads Flt 4; Updates Flt 4]);
    (sse2.sse2_glm_vec4_maxsub, [Reads Flt 4; Reads Flt 4; Updates Flt 4]);
    (sse2.sse2_glm_vec4_minsub, [Reads Flt 4; Reads Flt 4; Updates Flt 4]);
    (sse2.sse2_glm_translated_to, [Reads Flt 16; Reads Flt 3; Writes 16]);
    (sse2.sse2_glm_quat_add, [Reads Flt 4; Reads Flt 4; Writes 4]);
    (sse2.sse2_glm_quat_sub, [Reads Flt 4; Reads Flt 4; Writes 4]);
    (avx.avx_glm_vec4_add, [Reads Flt 4; Reads Flt 4; Writes 4]);
    (avx.avx_glm_vec4_adds, [Reads Flt 4; Float; Writes 4]);
    (avx.avx_glm_vec4_sub, [Reads Flt 4; Reads Flt 4; Writes 4]);
    (avx.avx_glm_vec4_subs, [Reads Flt 4; Float; Writes 4]);
    (avx.avx_glm_vec4_maxadd, [Reads Flt 4; Reads Flt 4; Updates Flt 4]);
    (avx.avx_glm_vec4_minadd, [Reads Flt 4; Reads Flt 4; Updates Flt 4]);
    (avx.avx_glm_vec4_maxsub, [Reads Flt 4; Reads Flt 4; Updates Flt 4]);
    (avx.avx_glm_vec4_minsub, [Reads Flt 4; Reads Flt 4; Updates Flt 4]);
    (avx.avx_glm_translated_to, [Reads Flt 16; Reads Flt 3; Writes 16]);
    (avx.avx_glm_quat_add, [Reads Flt 4; Reads Flt 4; Writes 4]);
    (avx.avx_glm_quat_sub, [Reads Flt 4; Reads Flt 4; Writes 4]);
    (fma.fma_glm_vec4_add, [Reads Flt 4; Reads Flt 4; Writes 4]);
    (fma.fma_glm_vec4_adds, [Reads Flt 4; Float; Writes 4]);
    (fma.fma_glm_vec4_sub, [Reads Flt 4; Reads Flt 4; Writes 4]);
    (fma.fma_glm_vec4_subs, [Reads Flt 4; Float; Writes 4]);
    (fma.fma_glm_vec4_maxadd, [Reads Flt 4; Reads Flt 4; Updates Flt 4]);
    (fma.fma_glm_vec4_minadd, [Reads Flt 4; Reads Flt 4; Updates Flt 4]);
    (fma.fma_glm_vec4_maxsub, [Reads Flt 4; Reads Flt 4; Updates Flt 4]);
    (fma.fma_glm_vec4_minsub, [Reads Flt 4; Reads Flt 4; Updates Flt 4]);
    (fma.fma_glm_translated_to, [Reads Flt 16; Reads Flt 3; Writes 16]);
    (fma.fma_glm_quat_add, [Reads Flt 4; Reads Flt 4; Writes 4]);
    (fma.fma_glm_quat_sub, [Reads Flt 4; Reads Flt 4; Writes 4]);
    (neon.neon_glm_vec4_add, [Reads Flt 4; Reads Flt 4; Writes 4]);
    (neon.neon_glm_vec4_adds, [Reads Flt 4; Float; Writes 4]);
    (neon.neon_glm_vec4_sub, [Reads Flt 4; Reads Flt 4; Writes 4]);
    (neon.neon_glm_vec4_subs, [Reads Flt 4; Float; Writes 4]);
    (neon.neon_glm_translated_to, [Reads Flt 16; Reads Flt 3; Writes 16]);
    (neon.neon_glm_quat_add, [Reads Flt 4; Reads Flt 4; Writes 4]);
    (neon.neon_glm_quat_sub, [Reads Flt 4; Reads Flt 4; Writes 4]);
    (neon32.neon32_glm_vec4_add, [Reads Flt 4; Reads Flt 4; Writes 4]);
    (neon32.neon32_glm_vec4_adds, [Reads Flt 4; Float; Writes 4]);
    (neon32.neon32_glm_vec4_sub, [Reads Flt 4; Reads Flt 4; Writes 4]);
    (neon32.neon32_glm_vec4_subs, [Reads Flt 4; Float; Writes 4]);
    (neon32.neon32_glm_translated_to, [Reads Flt 16; Reads Flt 3; Writes 16]);
    (neon32.neon32_glm_quat_add, [Reads Flt 4; Reads Flt 4; Writes 4]);
    (neon32.neon32_glm_quat_sub, [Reads Flt 4; Reads Flt 4; Writes 4]);
    (wasm.wasm_glm_vec4_add, [Reads Flt 4; Reads Flt 4; Writes 4]);
    (wasm.wasm_glm_vec4_adds, [Reads Flt 4; Float; Writes 4]);
    (wasm.wasm_glm_vec4_sub, [Reads Flt 4; Reads Flt 4; Writes 4]);
    (wasm.wasm_glm_vec4_subs, [Reads Flt 4; Float; Writes 4]);
    (wasm.wasm_glm_vec4_maxadd, [Reads Flt 4; Reads Flt 4; Updates Flt 4]);
    (wasm.wasm_glm_vec4_minadd, [Reads Flt 4; Reads Flt 4; Updates Flt 4]);
    (wasm.wasm_glm_vec4_maxsub, [Reads Flt 4; Reads Flt 4; Updates Flt 4]);
    (wasm.wasm_glm_vec4_minsub, [Reads Flt 4; Reads Flt 4; Updates Flt 4]);
    (wasm.wasm_glm_translated_to, [Reads Flt 16; Reads Flt 3; Writes 16]);
    (wasm.wasm_glm_quat_add, [Reads Flt 4; Reads Flt 4; Writes 4]);
    (wasm.wasm_glm_quat_sub, [Reads Flt 4; Reads Flt 4; Writes 4])])].
