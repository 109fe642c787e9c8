(** * Error bounds of functions (written by tools/approx.py) *)

From Coq Require Import List ZArith.
From Verif Require Import MiniC Cglm.
From Verif.Simd Require sse2 avx fma neon neon32 wasm.
From Verif.Spec Require Import Types Signatures.
Import ListNotations.
Local Open Scope Z_scope.

(** a function, its parameters, and bounds of its errors in units of 2^-25: on floats up to 1; on floats up
    to 1000; on floats within 2^-20 of numbers up to 1 *)
Definition error_bounds : list (fundef * list param * (Z * Z * option Z)) :=
 [
  ((glm_aabb2d_transform, [Reads Flt 4; Reads Flt 9; Writes 4]), (10, 5242880, Some 173));
  ((glm_aabb2d_sizev, [Reads Flt 4; Writes 2]), (2, 2048, Some 68));
  ((glm_aabb2d_center, [Reads Flt 4; Writes 2]), (3, 2048, Some 36));
  ((glm_scale_to, [Reads Flt 16; Reads Flt 3; Writes 16]), (1, 1048576, Some 67));
  ((glm_scale, [Updates Flt 16; Reads Flt 3]), (1, 1048576, Some 67));
  ((glm_scale_uni, [Updates Flt 16; Float]), (1, 1048576, Some 67));
  ((glm_translate2d, [Updates Flt 9; Reads Flt 2]), (10, 6291456, Some 173));
  ((glm_translate2d_to, [Reads Flt 9; Reads Flt 2; Writes 9]), (10, 6291456, Some 173));
  ((glm_translate2d_x, [Updates Flt 9; Float]), (5, 2097152, Some 103));
  ((glm_translate2d_y, [Updates Flt 9; Float]), (5, 2097152, Some 103));
  ((glm_scale2d_to, [Reads Flt 9; Reads Flt 2; Writes 9]), (1, 1048576, Some 67));
  ((glm_scale2d, [Updates Flt 9; Reads Flt 2]), (1, 1048576, Some 67));
  ((glm_scale2d_uni, [Updates Flt 9; Float]), (1, 1048576, Some 67));
  ((glm_translated2d, [Updates Flt 9; Reads Flt 2]), (2, 2048, Some 68));
  ((glm_translated2d_x, [Updates Flt 9; Float]), (2, 2048, Some 68));
  ((glm_translated2d_y, [Updates Flt 9; Float]), (2, 2048, Some 68));
  ((glm_scaled2d, [Updates Flt 9; Reads Flt 2]), (1, 1048576, Some 67));
  ((glm_scaled2d_uni, [Updates Flt 9; Float]), (1, 1048576, Some 67));
  ((glm_mul, [Reads Flt 16; Reads Flt 16; Writes 16]), (20, 14680064, Some 281));
  ((glm_mul_rot, [Reads Flt 16; Reads Flt 16; Writes 16]), (11, 9437184, Some 207));
  ((glm_inv_tr, [Updates Flt 16]), (11, 9437184, Some 207));
  ((glm_translated, [Updates Flt 16; Reads Flt 3]), (2, 2048, Some 68));
  ((glm_translated_to, [Reads Flt 16; Reads Flt 3; Writes 16]), (2, 2048, Some 68));
  ((glm_translated_x, [Updates Flt 16; Float]), (2, 2048, Some 68));
  ((glm_translated_y, [Updates Flt 16; Float]), (2, 2048, Some 68));
  ((glm_translated_z, [Updates Flt 16; Float]), (2, 2048, Some 68));
  ((glm_translate, [Updates Flt 16; Reads Flt 3]), (19, 10485760, Some 247));
  ((glm_translate_to, [Reads Flt 16; Reads Flt 3; Writes 16]), (19, 10485760, Some 247));
  ((glm_translate_x, [Updates Flt 16; Float]), (5, 2097152, Some 103));
  ((glm_translate_y, [Updates Flt 16; Float]), (5, 2097152, Some 103));
  ((glm_translate_z, [Updates Flt 16; Float]), (5, 2097152, Some 103));
  ((glm_bezier, [Float; Float; Float; Float; Float]), (281, 70651441560114, Some 2899));
  ((glm_hermite, [Float; Float; Float; Float; Float]), (187, 51876905091072, Some 1931));
  ((glm_aabb_transform, [Reads Flt 6; Reads Flt 16; Writes 6]), (19, 10485760, Some 247));
  ((glm_aabb_center, [Reads Flt 6; Writes 3]), (3, 2048, Some 36));
  ((glm_luminance, [Reads Flt 3]), (5, 4081, Some 38));
  ((glm_smc, [Float; Reads Flt 16; Reads Flt 4]), (193, 41207026142871552, Some 2009));
  ((glm_ease_quad_in, [Float]), (1, 1048576, Some 67));
  ((glm_ease_quad_out, [Float]), (8, 2072576, Some 137));
  ((glm_ease_quad_inout, [Float]), (26, 8392704, None));
  ((glm_ease_cubic_in, [Float]), (3, 2122317824, Some 101));
  ((glm_ease_cubic_out, [Float]), (73, 6275255422, Some 481));
  ((glm_ease_cubic_inout, [Float]), (497, 41517807827, None));
  ((glm_ease_quart_in, [Float]), (5, 3196663660544, Some 135));
  ((glm_ease_quart_out, [Float]), (193, 8432813598787, Some 1281));
  ((glm_ease_quart_inout, [Float]), (1795, 75674772759834, None));
  ((glm_ease_quint_in, [Float]), (7, 4322563567386624, Some 169));
  ((glm_ease_quint_out, [Float]), (481, 10596372015305168, Some 3201));
  ((glm_ease_quint_inout, [Float]), (12548, 268617744352093370, None));
  ((glm_ease_back_in, [Float]), (32, 20948188914, Some 405));
  ((glm_ease_back_out, [Float]), (316, 33598646038, Some 1649));
  ((glm_frustum_center, [Reads Flt 32; Writes 4]), (9, 6400, Some 41));
  ((glm_frustum_box, [Reads Flt 32; Reads Flt 16; Writes 6]), (20, 14680064, Some 281));
  ((glm_mat2_mul, [Reads Flt 4; Reads Flt 4; Writes 4]), (6, 4194304, Some 137));
  ((glm_mat2_mulv, [Reads Flt 4; Reads Flt 2; Writes 2]), (15, 8490319872, Some 275));
  ((glm_mat2_scale, [Updates Flt 4; Float]), (1, 1048576, Some 67));
  ((glm_mat2_det, [Reads Flt 4]), (6, 4194304, Some 137));
  ((glm_mat2_trace, [Reads Flt 4]), (2, 2048, Some 68));
  ((glm_mat2_rmc, [Reads Flt 2; Reads Flt 4; Reads Flt 2]), (28, 16978542592, Some 417));
  ((glm_mat2x3_mul, [Reads Flt 6; Reads Flt 6; Writes 9]), (6, 4194304, Some 137));
  ((glm_mat2x3_mulv, [Reads Flt 6; Reads Flt 2; Writes 3]), (6, 4194304, Some 137));
  ((glm_mat2x3_scale, [Updates Flt 6; Float]), (1, 1048576, Some 67));
  ((glm_mat2x4_mul, [Reads Flt 8; Reads Flt 8; Writes 16]), (6, 4194304, Some 137));
  ((glm_mat2x4_mulv, [Reads Flt 8; Reads Flt 2; Writes 4]), (6, 4194304, Some 137));
  ((glm_mat2x4_scale, [Updates Flt 8; Float]), (1, 1048576, Some 67));
  ((glm_mat3_mul, [Reads Flt 9; Reads Flt 9; Writes 9]), (11, 9437184, Some 207));
  ((glm_mat3_mulv, [Reads Flt 9; Reads Flt 3; Writes 3]), (11, 9437184, Some 207));
  ((glm_mat3_trace, [Reads Flt 9]), (6, 6144, Some 104));
  ((glm_mat3_scale, [Updates Flt 9; Float]), (1, 1048576, Some 67));
  ((glm_mat3_det, [Reads Flt 9]), (46, 31910264832, Some 629));
  ((glm_mat3_rmc, [Reads Flt 3; Reads Flt 9; Reads Flt 3]), (69, 66966257664, Some 943));
  ((glm_mat3x2_mul, [Reads Flt 6; Reads Flt 6; Writes 4]), (11, 9437184, Some 207));
  ((glm_mat3x2_mulv, [Reads Flt 6; Reads Flt 3; Writes 2]), (11, 9437184, Some 207));
  ((glm_mat3x2_scale, [Updates Flt 6; Float]), (1, 1048576, Some 67));
  ((glm_mat3x4_mul, [Reads Flt 12; Reads Flt 12; Writes 16]), (11, 9437184, Some 207));
  ((glm_mat3x4_mulv, [Reads Flt 12; Reads Flt 3; Writes 4]), (11, 9437184, Some 207));
  ((glm_mat3x4_scale, [Updates Flt 12; Float]), (1, 1048576, Some 67));
  ((glm_mat4_mul, [Reads Flt 16; Reads Flt 16; Writes 16]), (20, 14680064, Some 281));
  ((glm_mat4_mulv, [Reads Flt 16; Reads Flt 4; Writes 4]), (20, 14680064, Some 281));
  ((glm_mat4_trace, [Reads Flt 16]), (14, 10240, Some 144));
  ((glm_mat4_trace3, [Reads Flt 16]), (6, 6144, Some 104));
  ((glm_mat4_mulv3, [Reads Flt 16; Reads Flt 3; Float; Writes 3]), (20, 14680064, Some 281));
  ((glm_mat4_scale_p, [Updates Flt 16; Float]), (1, 1048576, Some 67));
  ((glm_mat4_scale, [Updates Flt 16; Float]), (1, 1048576, Some 67));
  ((glm_mat4_det, [Reads Flt 16]), (296, 250786361638912, Some 3394));
  ((glm_mat4_rmc, [Reads Flt 4; Reads Flt 16; Reads Flt 4]), (176, 118849798144, Some 1729));
  ((glm_mat4x2_mul, [Reads Flt 8; Reads Flt 8; Writes 4]), (20, 14680064, Some 281));
  ((glm_mat4x2_mulv, [Reads Flt 8; Reads Flt 4; Writes 2]), (20, 14680064, Some 281));
  ((glm_mat4x2_scale, [Updates Flt 8; Float]), (1, 1048576, Some 67));
  ((glm_mat4x3_mul, [Reads Flt 12; Reads Flt 12; Writes 9]), (20, 14680064, Some 281));
  ((glm_mat4x3_mulv, [Reads Flt 12; Reads Flt 4; Writes 3]), (20, 14680064, Some 281));
  ((glm_mat4x3_scale, [Updates Flt 12; Float]), (1, 1048576, Some 67));
  ((glm_quat_dot, [Reads Flt 4; Reads Flt 4]), (20, 14680064, Some 281));
  ((glm_quat_add, [Reads Flt 4; Reads Flt 4; Writes 4]), (2, 2048, Some 68));
  ((glm_quat_sub, [Reads Flt 4; Reads Flt 4; Writes 4]), (2, 2048, Some 68));
  ((glm_quat_mul, [Apart Flt 4; Apart Flt 4; Writes 4]), (20, 14680064, Some 281));
  ((glm_quat_lerp, [Reads Flt 4; Reads Flt 4; Float; Writes 4]), (10, 6242304, Some 173));
  ((glm_quat_lerpc, [Reads Flt 4; Reads Flt 4; Float; Writes 4]), (10, 6242304, Some 173));
  ((glm_ray_at, [Reads Flt 3; Reads Flt 3; Float; Writes 3]), (5, 2097152, Some 103));
  ((glm_sphere_transform, [Reads Flt 4; Reads Flt 16; Writes 4]), (20, 13632512, Some 249));
  ((glms_scale, [Struct Flt 16; Struct Flt 3]), (1, 1048576, Some 67));
  ((glms_scale_uni, [Struct Flt 16; Float]), (1, 1048576, Some 67));
  ((glms_translate2d, [Struct Flt 9; Struct Flt 2]), (10, 6291456, Some 173));
  ((glms_translate2d_x, [Struct Flt 9; Float]), (5, 2097152, Some 103));
  ((glms_translate2d_y, [Struct Flt 9; Float]), (5, 2097152, Some 103));
  ((glms_scale2d, [Struct Flt 9; Struct Flt 2]), (1, 1048576, Some 67));
  ((glms_scale2d_uni, [Struct Flt 9; Float]), (1, 1048576, Some 67));
  ((glms_mul, [Struct Flt 16; Struct Flt 16]), (20, 14680064, Some 281));
  ((glms_mul_rot, [Struct Flt 16; Struct Flt 16]), (11, 9437184, Some 207));
  ((glms_inv_tr, [Struct Flt 16]), (11, 9437184, Some 207));
  ((glms_translated, [Struct Flt 16; Struct Flt 3]), (2, 2048, Some 68));
  ((glms_translated_x, [Struct Flt 16; Float]), (2, 2048, Some 68));
  ((glms_translated_y, [Struct Flt 16; Float]), (2, 2048, Some 68));
  ((glms_translated_z, [Struct Flt 16; Float]), (2, 2048, Some 68));
  ((glms_translate, [Struct Flt 16; Struct Flt 3]), (19, 10485760, Some 247));
  ((glms_translate_x, [Struct Flt 16; Float]), (5, 2097152, Some 103));
  ((glms_translate_y, [Struct Flt 16; Float]), (5, 2097152, Some 103));
  ((glms_translate_z, [Struct Flt 16; Float]), (5, 2097152, Some 103));
  ((glms_aabb_transform, [Reads Flt 6; Struct Flt 16; Writes 6]), (19, 10485760, Some 247));
  ((glms_aabb_center, [Reads Flt 6]), (3, 2048, Some 36));
  ((glms_luminance, [Struct Flt 3]), (5, 4081, Some 38));
  ((glms_smc, [Float; Struct Flt 16; Struct Flt 4]), (193, 41207026142871552, Some 2009));
  ((glms_frustum_center, [Reads Flt 32]), (9, 6400, Some 41));
  ((glms_frustum_box, [Reads Flt 32; Struct Flt 16; Writes 6]), (20, 14680064, Some 281));
  ((glms_mat2_mul, [Struct Flt 4; Struct Flt 4]), (6, 4194304, Some 137));
  ((glms_mat2_mulv, [Struct Flt 4; Struct Flt 2]), (6, 4194304, Some 137));
  ((glms_mat2_scale, [Struct Flt 4; Float]), (1, 1048576, Some 67));
  ((glms_mat2_det, [Struct Flt 4]), (6, 4194304, Some 137));
  ((glms_mat2_trace, [Struct Flt 4]), (2, 2048, Some 68));
  ((glms_mat2_rmc, [Struct Flt 2; Struct Flt 4; Struct Flt 2]), (28, 16978542592, Some 417));
  ((glms_mat2x3_mul, [Struct Flt 6; Struct Flt 6]), (6, 4194304, Some 137));
  ((glms_mat2x3_mulv, [Struct Flt 6; Struct Flt 2]), (6, 4194304, Some 137));
  ((glms_mat2x3_scale, [Struct Flt 6; Float]), (1, 1048576, Some 67));
  ((glms_mat2x4_mul, [Struct Flt 8; Struct Flt 8]), (6, 4194304, Some 137));
  ((glms_mat2x4_mulv, [Struct Flt 8; Struct Flt 2]), (6, 4194304, Some 137));
  ((glms_mat2x4_scale, [Struct Flt 8; Float]), (1, 1048576, Some 67));
  ((glms_mat3_mul, [Struct Flt 9; Struct Flt 9]), (11, 9437184, Some 207));
  ((glms_mat3_mulv, [Struct Flt 9; Struct Flt 3]), (11, 9437184, Some 207));
  ((glms_mat3_trace, [Struct Flt 9]), (6, 6144, Some 104));
  ((glms_mat3_scale, [Struct Flt 9; Float]), (1, 1048576, Some 67));
  ((glms_mat3_det, [Struct Flt 9]), (46, 31910264832, Some 629));
  ((glms_mat3_rmc, [Struct Flt 3; Struct Flt 9; Struct Flt 3]), (69, 66966257664, Some 943));
  ((glms_mat3x2_mul, [Struct Flt 6; Struct Flt 6]), (11, 9437184, Some 207));
  ((glms_mat3x2_mulv, [Struct Flt 6; Struct Flt 3]), (11, 9437184, Some 207));
  ((glms_mat3x2_scale, [Struct Flt 6; Float]), (1, 1048576, Some 67));
  ((glms_mat3x4_mul, [Struct Flt 12; Struct Flt 12]), (11, 9437184, Some 207));
  ((glms_mat3x4_mulv, [Struct Flt 12; Struct Flt 3]), (11, 9437184, Some 207));
  ((glms_mat3x4_scale, [Struct Flt 12; Float]), (1, 1048576, Some 67));
  ((glms_mat4_mul, [Struct Flt 16; Struct Flt 16]), (20, 14680064, Some 281));
  ((glms_mat4_mulv, [Struct Flt 16; Struct Flt 4]), (20, 14680064, Some 281));
  ((glms_mat4_trace, [Struct Flt 16]), (14, 10240, Some 144));
  ((glms_mat4_trace3, [Struct Flt 16]), (6, 6144, Some 104));
  ((glms_mat4_mulv3, [Struct Flt 16; Struct Flt 3; Float]), (20, 14680064, Some 281));
  ((glms_mat4_scale_p, [Struct Flt 16; Float]), (1, 1048576, Some 67));
  ((glms_mat4_scale, [Struct Flt 16; Float]), (1, 1048576, Some 67));
  ((glms_mat4_det, [Struct Flt 16]), (296, 250786361638912, Some 3394));
  ((glms_mat4_rmc, [Struct Flt 4; Struct Flt 16; Struct Flt 4]), (176, 118849798144, Some 1729));
  ((glms_mat4x2_mul, [Struct Flt 8; Struct Flt 8]), (20, 14680064, Some 281));
  ((glms_mat4x2_mulv, [Struct Flt 8; Struct Flt 4]), (20, 14680064, Some 281));
  ((glms_mat4x2_scale, [Struct Flt 8; Float]), (1, 1048576, Some 67));
  ((glms_mat4x3_mul, [Struct Flt 12; Struct Flt 12]), (20, 14680064, Some 281));
  ((glms_mat4x3_mulv, [Struct Flt 12; Struct Flt 4]), (20, 14680064, Some 281));
  ((glms_mat4x3_scale, [Struct Flt 12; Float]), (1, 1048576, Some 67));
  ((glms_quat_dot, [Struct Flt 4; Struct Flt 4]), (20, 14680064, Some 281));
  ((glms_quat_add, [Struct Flt 4; Struct Flt 4]), (2, 2048, Some 68));
  ((glms_quat_sub, [Struct Flt 4; Struct Flt 4]), (2, 2048, Some 68));
  ((glms_quat_mul, [Struct Flt 4; Struct Flt 4]), (20, 14680064, Some 281));
  ((glms_quat_lerp, [Struct Flt 4; Struct Flt 4; Float]), (10, 6242304, Some 173));
  ((glms_quat_lerpc, [Struct Flt 4; Struct Flt 4; Float]), (10, 6242304, Some 173));
  ((glms_ray_at, [Struct Flt 3; Struct Flt 3; Float]), (5, 2097152, Some 103));
  ((glms_sphere_transform, [Struct Flt 4; Struct Flt 16]), (20, 13632512, Some 249));
  ((glms_vec2_dot, [Struct Flt 2; Struct Flt 2]), (6, 4194304, Some 137));
  ((glms_vec2_cross, [Struct Flt 2; Struct Flt 2]), (6, 4194304, Some 137));
  ((glms_vec2_norm2, [Struct Flt 2]), (6, 4194304, Some 137));
  ((glms_vec2_add, [Struct Flt 2; Struct Flt 2]), (2, 2048, Some 68));
  ((glms_vec2_adds, [Struct Flt 2; Float]), (2, 2048, Some 68));
  ((glms_vec2_sub, [Struct Flt 2; Struct Flt 2]), (2, 2048, Some 68));
  ((glms_vec2_subs, [Struct Flt 2; Float]), (2, 2048, Some 68));
  ((glms_vec2_mul, [Struct Flt 2; Struct Flt 2]), (1, 1048576, Some 67));
  ((glms_vec2_scale, [Struct Flt 2; Float]), (1, 1048576, Some 67));
  ((glms_vec2_addadd, [Struct Flt 2; Struct Flt 2; Struct Flt 2]), (6, 6144, Some 104));
  ((glms_vec2_subadd, [Struct Flt 2; Struct Flt 2; Struct Flt 2]), (6, 6144, Some 104));
  ((glms_vec2_muladd, [Struct Flt 2; Struct Flt 2; Struct Flt 2]), (5, 2097152, Some 103));
  ((glms_vec2_muladds, [Struct Flt 2; Float; Struct Flt 2]), (5, 2097152, Some 103));
  ((glms_vec2_maxadd, [Struct Flt 2; Struct Flt 2; Struct Flt 2]), (2, 2048, Some 68));
  ((glms_vec2_minadd, [Struct Flt 2; Struct Flt 2; Struct Flt 2]), (2, 2048, Some 68));
  ((glms_vec2_subsub, [Struct Flt 2; Struct Flt 2; Struct Flt 2]), (6, 6144, Some 104));
  ((glms_vec2_addsub, [Struct Flt 2; Struct Flt 2; Struct Flt 2]), (6, 6144, Some 104));
  ((glms_vec2_mulsub, [Struct Flt 2; Struct Flt 2; Struct Flt 2]), (5, 2097152, Some 103));
  ((glms_vec2_mulsubs, [Struct Flt 2; Float; Struct Flt 2]), (5, 2097152, Some 103));
  ((glms_vec2_maxsub, [Struct Flt 2; Struct Flt 2; Struct Flt 2]), (2, 2048, Some 68));
  ((glms_vec2_minsub, [Struct Flt 2; Struct Flt 2; Struct Flt 2]), (2, 2048, Some 68));
  ((glms_vec2_center, [Struct Flt 2; Struct Flt 2]), (3, 2048, Some 36));
  ((glms_vec2_distance2, [Struct Flt 2; Struct Flt 2]), (49, 33161217, Some 577));
  ((glms_vec2_lerp, [Struct Flt 2; Struct Flt 2; Float]), (10, 6242304, Some 173));
  ((glms_vec2_reflect, [Struct Flt 2; Struct Flt 2]), (36, 21172846592, Some 457));
  ((glms_vec2_fract, [Struct Flt 2]), (4, 2048, None));
  ((glms_vec2_complex_mul, [Struct Flt 2; Struct Flt 2; Struct Flt 2]), (6, 4194304, Some 137));
  ((glms_vec3_dot, [Struct Flt 3; Struct Flt 3]), (11, 9437184, Some 207));
  ((glms_vec3_norm2, [Struct Flt 3]), (11, 9437184, Some 207));
  ((glms_vec3_norm_one, [Struct Flt 3]), (6, 6144, Some 104));
  ((glms_vec3_add, [Struct Flt 3; Struct Flt 3]), (2, 2048, Some 68));
  ((glms_vec3_adds, [Struct Flt 3; Float]), (2, 2048, Some 68));
  ((glms_vec3_sub, [Struct Flt 3; Struct Flt 3]), (2, 2048, Some 68));
  ((glms_vec3_subs, [Struct Flt 3; Float]), (2, 2048, Some 68));
  ((glms_vec3_mul, [Struct Flt 3; Struct Flt 3]), (1, 1048576, Some 67));
  ((glms_vec3_scale, [Struct Flt 3; Float]), (1, 1048576, Some 67));
  ((glms_vec3_addadd, [Struct Flt 3; Struct Flt 3; Struct Flt 3]), (6, 6144, Some 104));
  ((glms_vec3_subadd, [Struct Flt 3; Struct Flt 3; Struct Flt 3]), (6, 6144, Some 104));
  ((glms_vec3_muladd, [Struct Flt 3; Struct Flt 3; Struct Flt 3]), (5, 2097152, Some 103));
  ((glms_vec3_muladds, [Struct Flt 3; Float; Struct Flt 3]), (5, 2097152, Some 103));
  ((glms_vec3_maxadd, [Struct Flt 3; Struct Flt 3; Struct Flt 3]), (2, 2048, Some 68));
  ((glms_vec3_minadd, [Struct Flt 3; Struct Flt 3; Struct Flt 3]), (2, 2048, Some 68));
  ((glms_vec3_subsub, [Struct Flt 3; Struct Flt 3; Struct Flt 3]), (6, 6144, Some 104));
  ((glms_vec3_addsub, [Struct Flt 3; Struct Flt 3; Struct Flt 3]), (6, 6144, Some 104));
  ((glms_vec3_mulsub, [Struct Flt 3; Struct Flt 3; Struct Flt 3]), (5, 2097152, Some 103));
  ((glms_vec3_mulsubs, [Struct Flt 3; Float; Struct Flt 3]), (5, 2097152, Some 103));
  ((glms_vec3_maxsub, [Struct Flt 3; Struct Flt 3; Struct Flt 3]), (2, 2048, Some 68));
  ((glms_vec3_minsub, [Struct Flt 3; Struct Flt 3; Struct Flt 3]), (2, 2048, Some 68));
  ((glms_vec3_cross, [Struct Flt 3; Struct Flt 3]), (6, 4194304, Some 137));
  ((glms_vec3_center, [Struct Flt 3; Struct Flt 3]), (3, 2048, Some 36));
  ((glms_vec3_distance2, [Struct Flt 3; Struct Flt 3]), (81, 62324737, Some 873));
  ((glms_vec3_lerp, [Struct Flt 3; Struct Flt 3; Float]), (10, 6242304, Some 173));
  ((glms_vec3_lerpc, [Struct Flt 3; Struct Flt 3; Float]), (10, 6242304, Some 173));
  ((glms_vec3_mix, [Struct Flt 3; Struct Flt 3; Float]), (10, 6242304, Some 173));
  ((glms_vec3_mixc, [Struct Flt 3; Struct Flt 3; Float]), (10, 6242304, Some 173));
  ((glms_vec3_smoothinterp, [Struct Flt 3; Struct Flt 3; Float]), (89, 29585800539473, Some 1233));
  ((glms_vec3_smoothinterpc, [Struct Flt 3; Struct Flt 3; Float]), (89, 29585800539473, Some 1233));
  ((glms_cross, [Struct Flt 3; Struct Flt 3]), (6, 4194304, Some 137));
  ((glms_dot, [Struct Flt 3; Struct Flt 3]), (11, 9437184, Some 207));
  ((glms_vec3_reflect, [Struct Flt 3; Struct Flt 3]), (46, 44442845184, Some 661));
  ((glms_vec3_fract, [Struct Flt 3]), (4, 2048, None));
  ((glms_vec3_hadd, [Struct Flt 3]), (6, 6144, Some 104));
  ((glms_vec4_dot, [Struct Flt 4; Struct Flt 4]), (20, 14680064, Some 281));
  ((glms_vec4_norm2, [Struct Flt 4]), (20, 14680064, Some 281));
  ((glms_vec4_norm_one, [Struct Flt 4]), (14, 10240, Some 144));
  ((glms_vec4_add, [Struct Flt 4; Struct Flt 4]), (2, 2048, Some 68));
  ((glms_vec4_adds, [Struct Flt 4; Float]), (2, 2048, Some 68));
  ((glms_vec4_sub, [Struct Flt 4; Struct Flt 4]), (2, 2048, Some 68));
  ((glms_vec4_subs, [Struct Flt 4; Float]), (2, 2048, Some 68));
  ((glms_vec4_mul, [Struct Flt 4; Struct Flt 4]), (1, 1048576, Some 67));
  ((glms_vec4_scale, [Struct Flt 4; Float]), (1, 1048576, Some 67));
  ((glms_vec4_addadd, [Struct Flt 4; Struct Flt 4; Struct Flt 4]), (6, 6144, Some 104));
  ((glms_vec4_subadd, [Struct Flt 4; Struct Flt 4; Struct Flt 4]), (6, 6144, Some 104));
  ((glms_vec4_muladd, [Struct Flt 4; Struct Flt 4; Struct Flt 4]), (5, 2097152, Some 103));
  ((glms_vec4_muladds, [Struct Flt 4; Float; Struct Flt 4]), (5, 2097152, Some 103));
  ((glms_vec4_maxadd, [Struct Flt 4; Struct Flt 4; Struct Flt 4]), (2, 2048, Some 68));
  ((glms_vec4_minadd, [Struct Flt 4; Struct Flt 4; Struct Flt 4]), (2, 2048, Some 68));
  ((glms_vec4_subsub, [Struct Flt 4; Struct Flt 4; Struct Flt 4]), (6, 6144, Some 104));
  ((glms_vec4_addsub, [Struct Flt 4; Struct Flt 4; Struct Flt 4]), (6, 6144, Some 104));
  ((glms_vec4_mulsub, [Struct Flt 4; Struct Flt 4; Struct Flt 4]), (5, 2097152, Some 103));
  ((glms_vec4_mulsubs, [Struct Flt 4; Float; Struct Flt 4]), (5, 2097152, Some 103));
  ((glms_vec4_maxsub, [Struct Flt 4; Struct Flt 4; Struct Flt 4]), (2, 2048, Some 68));
  ((glms_vec4_minsub, [Struct Flt 4; Struct Flt 4; Struct Flt 4]), (2, 2048, Some 68));
  ((glms_vec4_distance2, [Struct Flt 4; Struct Flt 4]), (129, 91488257, Some 1185));
  ((glms_vec4_lerp, [Struct Flt 4; Struct Flt 4; Float]), (10, 6242304, Some 173));
  ((glms_vec4_lerpc, [Struct Flt 4; Struct Flt 4; Float]), (10, 6242304, Some 173));
  ((glms_vec4_mix, [Struct Flt 4; Struct Flt 4; Float]), (10, 6242304, Some 173));
  ((glms_vec4_mixc, [Struct Flt 4; Struct Flt 4; Float]), (10, 6242304, Some 173));
  ((glms_vec4_smoothinterp, [Struct Flt 4; Struct Flt 4; Float]), (89, 29585800539473, Some 1233));
  ((glms_vec4_smoothinterpc, [Struct Flt 4; Struct Flt 4; Float]), (89, 29585800539473, Some 1233));
  ((glms_vec4_cubic, [Float]), (3, 2122317824, Some 101));
  ((glms_vec4_reflect, [Struct Flt 4; Struct Flt 4]), (88, 54928605184, Some 897));
  ((glms_vec4_fract, [Struct Flt 4]), (4, 2048, None));
  ((glms_vec4_hadd, [Struct Flt 4]), (14, 10240, Some 144));
  ((glm_rad, [Float]), (1, 72, Some 1));
  ((glm_make_rad, [Updates Flt 1]), (1, 72, Some 1));
  ((glm_pow2, [Float]), (1, 1048576, Some 67));
  ((glm_lerp, [Float; Float; Float]), (10, 6242304, Some 173));
  ((glm_lerpc, [Float; Float; Float]), (10, 6242304, Some 173));
  ((glm_smooth, [Float]), (24, 8343781504, Some 415));
  ((glm_smoothinterp, [Float; Float; Float]), (89, 29585800539473, Some 1233));
  ((glm_smoothinterpc, [Float; Float; Float]), (89, 29585800539473, Some 1233));
  ((glm_vec2_dot, [Reads Flt 2; Reads Flt 2]), (6, 4194304, Some 137));
  ((glm_vec2_cross, [Reads Flt 2; Reads Flt 2]), (6, 4194304, Some 137));
  ((glm_vec2_norm2, [Reads Flt 2]), (6, 4194304, Some 137));
  ((glm_vec2_add, [Reads Flt 2; Reads Flt 2; Writes 2]), (2, 2048, Some 68));
  ((glm_vec2_adds, [Reads Flt 2; Float; Writes 2]), (2, 2048, Some 68));
  ((glm_vec2_sub, [Reads Flt 2; Reads Flt 2; Writes 2]), (2, 2048, Some 68));
  ((glm_vec2_subs, [Reads Flt 2; Float; Writes 2]), (2, 2048, Some 68));
  ((glm_vec2_mul, [Reads Flt 2; Reads Flt 2; Writes 2]), (1, 1048576, Some 67));
  ((glm_vec2_scale, [Reads Flt 2; Float; Writes 2]), (1, 1048576, Some 67));
  ((glm_vec2_addadd, [Reads Flt 2; Reads Flt 2; Updates Flt 2]), (6, 6144, Some 104));
  ((glm_vec2_subadd, [Reads Flt 2; Reads Flt 2; Updates Flt 2]), (6, 6144, Some 104));
  ((glm_vec2_muladd, [Reads Flt 2; Reads Flt 2; Updates Flt 2]), (5, 2097152, Some 103));
  ((glm_vec2_muladds, [Reads Flt 2; Float; Updates Flt 2]), (5, 2097152, Some 103));
  ((glm_vec2_maxadd, [Reads Flt 2; Reads Flt 2; Updates Flt 2]), (2, 2048, Some 68));
  ((glm_vec2_minadd, [Reads Flt 2; Reads Flt 2; Updates Flt 2]), (2, 2048, Some 68));
  ((glm_vec2_subsub, [Reads Flt 2; Reads Flt 2; Updates Flt 2]), (6, 6144, Some 104));
  ((glm_vec2_addsub, [Reads Flt 2; Reads Flt 2; Updates Flt 2]), (6, 6144, Some 104));
  ((glm_vec2_mulsub, [Reads Flt 2; Reads Flt 2; Updates Flt 2]), (5, 2097152, Some 103));
  ((glm_vec2_mulsubs, [Reads Flt 2; Float; Updates Flt 2]), (5, 2097152, Some 103));
  ((glm_vec2_maxsub, [Reads Flt 2; Reads Flt 2; Updates Flt 2]), (2, 2048, Some 68));
  ((glm_vec2_minsub, [Reads Flt 2; Reads Flt 2; Updates Flt 2]), (2, 2048, Some 68));
  ((glm_vec2_center, [Reads Flt 2; Reads Flt 2; Writes 2]), (3, 2048, Some 36));
  ((glm_vec2_distance2, [Reads Flt 2; Reads Flt 2]), (49, 33161217, Some 577));
  ((glm_vec2_lerp, [Reads Flt 2; Reads Flt 2; Float; Writes 2]), (10, 6242304, Some 173));
  ((glm_vec2_reflect, [Reads Flt 2; Reads Flt 2; Writes 2]), (36, 21172846592, Some 457));
  ((glm_vec2_fract, [Reads Flt 2; Writes 2]), (4, 2048, None));
  ((glm_vec2_complex_mul, [Reads Flt 2; Reads Flt 2; Writes 2]), (6, 4194304, Some 137));
  ((glm_vec3_dot, [Reads Flt 3; Reads Flt 3]), (11, 9437184, Some 207));
  ((glm_vec3_norm2, [Reads Flt 3]), (11, 9437184, Some 207));
  ((glm_vec3_norm_one, [Reads Flt 3]), (6, 6144, Some 104));
  ((glm_vec3_add, [Reads Flt 3; Reads Flt 3; Writes 3]), (2, 2048, Some 68));
  ((glm_vec3_adds, [Reads Flt 3; Float; Writes 3]), (2, 2048, Some 68));
  ((glm_vec3_sub, [Reads Flt 3; Reads Flt 3; Writes 3]), (2, 2048, Some 68));
  ((glm_vec3_subs, [Reads Flt 3; Float; Writes 3]), (2, 2048, Some 68));
  ((glm_vec3_mul, [Reads Flt 3; Reads Flt 3; Writes 3]), (1, 1048576, Some 67));
  ((glm_vec3_scale, [Reads Flt 3; Float; Writes 3]), (1, 1048576, Some 67));
  ((glm_vec3_addadd, [Reads Flt 3; Reads Flt 3; Updates Flt 3]), (6, 6144, Some 104));
  ((glm_vec3_subadd, [Reads Flt 3; Reads Flt 3; Updates Flt 3]), (6, 6144, Some 104));
  ((glm_vec3_muladd, [Reads Flt 3; Reads Flt 3; Updates Flt 3]), (5, 2097152, Some 103));
  ((glm_vec3_muladds, [Reads Flt 3; Float; Updates Flt 3]), (5, 2097152, Some 103));
  ((glm_vec3_maxadd, [Reads Flt 3; Reads Flt 3; Updates Flt 3]), (2, 2048, Some 68));
  ((glm_vec3_minadd, [Reads Flt 3; Reads Flt 3; Updates Flt 3]), (2, 2048, Some 68));
  ((glm_vec3_subsub, [Reads Flt 3; Reads Flt 3; Updates Flt 3]), (6, 6144, Some 104));
  ((glm_vec3_addsub, [Reads Flt 3; Reads Flt 3; Updates Flt 3]), (6, 6144, Some 104));
  ((glm_vec3_mulsub, [Reads Flt 3; Reads Flt 3; Updates Flt 3]), (5, 2097152, Some 103));
  ((glm_vec3_mulsubs, [Reads Flt 3; Float; Updates Flt 3]), (5, 2097152, Some 103));
  ((glm_vec3_maxsub, [Reads Flt 3; Reads Flt 3; Updates Flt 3]), (2, 2048, Some 68));
  ((glm_vec3_minsub, [Reads Flt 3; Reads Flt 3; Updates Flt 3]), (2, 2048, Some 68));
  ((glm_vec3_cross, [Reads Flt 3; Reads Flt 3; Writes 3]), (6, 4194304, Some 137));
  ((glm_vec3_center, [Reads Flt 3; Reads Flt 3; Writes 3]), (3, 2048, Some 36));
  ((glm_vec3_distance2, [Reads Flt 3; Reads Flt 3]), (81, 62324737, Some 873));
  ((glm_vec3_lerp, [Reads Flt 3; Reads Flt 3; Float; Writes 3]), (10, 6242304, Some 173));
  ((glm_vec3_lerpc, [Reads Flt 3; Reads Flt 3; Float; Writes 3]), (10, 6242304, Some 173));
  ((glm_vec3_mix, [Reads Flt 3; Reads Flt 3; Float; Writes 3]), (10, 6242304, Some 173));
  ((glm_vec3_mixc, [Reads Flt 3; Reads Flt 3; Float; Writes 3]), (10, 6242304, Some 173));
  ((glm_vec3_smoothinterp, [Reads Flt 3; Reads Flt 3; Float; Writes 3]), (89, 29585800539473, Some 1233));
  ((glm_vec3_smoothinterpc, [Reads Flt 3; Reads Flt 3; Float; Writes 3]), (89, 29585800539473, Some 1233));
  ((glm_cross, [Reads Flt 3; Reads Flt 3; Writes 3]), (6, 4194304, Some 137));
  ((glm_dot, [Reads Flt 3; Reads Flt 3]), (11, 9437184, Some 207));
  ((glm_vec3_reflect, [Reads Flt 3; Reads Flt 3; Writes 3]), (46, 44442845184, Some 661));
  ((glm_vec3_fract, [Reads Flt 3; Writes 3]), (4, 2048, None));
  ((glm_vec3_hadd, [Reads Flt 3]), (6, 6144, Some 104));
  ((glm_vec4_dot, [Reads Flt 4; Reads Flt 4]), (20, 14680064, Some 281));
  ((glm_vec4_norm2, [Reads Flt 4]), (20, 14680064, Some 281));
  ((glm_vec4_norm_one, [Reads Flt 4]), (14, 10240, Some 144));
  ((glm_vec4_add, [Reads Flt 4; Reads Flt 4; Writes 4]), (2, 2048, Some 68));
  ((glm_vec4_adds, [Reads Flt 4; Float; Writes 4]), (2, 2048, Some 68));
  ((glm_vec4_sub, [Reads Flt 4; Reads Flt 4; Writes 4]), (2, 2048, Some 68));
  ((glm_vec4_subs, [Reads Flt 4; Float; Writes 4]), (2, 2048, Some 68));
  ((glm_vec4_mul, [Reads Flt 4; Reads Flt 4; Writes 4]), (1, 1048576, Some 67));
  ((glm_vec4_scale, [Reads Flt 4; Float; Writes 4]), (1, 1048576, Some 67));
  ((glm_vec4_addadd, [Reads Flt 4; Reads Flt 4; Updates Flt 4]), (6, 6144, Some 104));
  ((glm_vec4_subadd, [Reads Flt 4; Reads Flt 4; Updates Flt 4]), (6, 6144, Some 104));
  ((glm_vec4_muladd, [Reads Flt 4; Reads Flt 4; Updates Flt 4]), (5, 2097152, Some 103));
  ((glm_vec4_muladds, [Reads Flt 4; Float; Updates Flt 4]), (5, 2097152, Some 103));
  ((glm_vec4_maxadd, [Reads Flt 4; Reads Flt 4; Updates Flt 4]), (2, 2048, Some 68));
  ((glm_vec4_minadd, [Reads Flt 4; Reads Flt 4; Updates Flt 4]), (2, 2048, Some 68));
  ((glm_vec4_subsub, [Reads Flt 4; Reads Flt 4; Updates Flt 4]), (6, 6144, Some 104));
  ((glm_vec4_addsub, [Reads Flt 4; Reads Flt 4; Updates Flt 4]), (6, 6144, Some 104));
  ((glm_vec4_mulsub, [Reads Flt 4; Reads Flt 4; Updates Flt 4]), (5, 2097152, Some 103));
  ((glm_vec4_mulsubs, [Reads Flt 4; Float; Updates Flt 4]), (5, 2097152, Some 103));
  ((glm_vec4_maxsub, [Reads Flt 4; Reads Flt 4; Updates Flt 4]), (2, 2048, Some 68));
  ((glm_vec4_minsub, [Reads Flt 4; Reads Flt 4; Updates Flt 4]), (2, 2048, Some 68));
  ((glm_vec4_distance2, [Reads Flt 4; Reads Flt 4]), (129, 91488257, Some 1185));
  ((glm_vec4_lerp, [Reads Flt 4; Reads Flt 4; Float; Writes 4]), (10, 6242304, Some 173));
  ((glm_vec4_lerpc, [Reads Flt 4; Reads Flt 4; Float; Writes 4]), (10, 6242304, Some 173));
  ((glm_vec4_mix, [Reads Flt 4; Reads Flt 4; Float; Writes 4]), (10, 6242304, Some 173));
  ((glm_vec4_mixc, [Reads Flt 4; Reads Flt 4; Float; Writes 4]), (10, 6242304, Some 173));
  ((glm_vec4_smoothinterp, [Reads Flt 4; Reads Flt 4; Float; Writes 4]), (89, 29585800539473, Some 1233));
  ((glm_vec4_smoothinterpc, [Reads Flt 4; Reads Flt 4; Float; Writes 4]), (89, 29585800539473, Some 1233));
  ((glm_vec4_cubic, [Float; Writes 4]), (3, 2122317824, Some 101));
  ((glm_vec4_reflect, [Reads Flt 4; Reads Flt 4; Writes 4]), (88, 54928605184, Some 897));
  ((glm_vec4_fract, [Reads Flt 4; Writes 4]), (4, 2048, None));
  ((glm_vec4_hadd, [Reads Flt 4]), (14, 10240, Some 144));
  ((sse2.sse2_glm_vec4_hadd, [Reads Flt 4]), (12, 8192, Some 144));
  ((sse2.sse2_glm_vec4_dot, [Reads Flt 4; Reads Flt 4]), (20, 12582912, Some 281));
  ((sse2.sse2_glm_vec4_norm2, [Reads Flt 4]), (20, 12582912, Some 281));
  ((sse2.sse2_glm_vec4_norm_one, [Reads Flt 4]), (12, 8192, Some 144));
  ((sse2.sse2_glm_vec4_add, [Reads Flt 4; Reads Flt 4; Writes 4]), (2, 2048, Some 68));
  ((sse2.sse2_glm_vec4_adds, [Reads Flt 4; Float; Writes 4]), (2, 2048, Some 68));
  ((sse2.sse2_glm_vec4_sub, [Reads Flt 4; Reads Flt 4; Writes 4]), (2, 2048, Some 68));
  ((sse2.sse2_glm_vec4_subs, [Reads Flt 4; Float; Writes 4]), (2, 2048, Some 68));
  ((sse2.sse2_glm_vec4_mul, [Reads Flt 4; Reads Flt 4; Writes 4]), (1, 1048576, Some 67));
  ((sse2.sse2_glm_vec4_scale, [Reads Flt 4; Float; Writes 4]), (1, 1048576, Some 67));
  ((sse2.sse2_glm_vec4_addadd, [Reads Flt 4; Reads Flt 4; Updates Flt 4]), (6, 6144, Some 104));
  ((sse2.sse2_glm_vec4_subadd, [Reads Flt 4; Reads Flt 4; Updates Flt 4]), (6, 6144, Some 104));
  ((sse2.sse2_glm_vec4_muladd, [Reads Flt 4; Reads Flt 4; Updates Flt 4]), (5, 2097152, Some 103));
  ((sse2.sse2_glm_vec4_muladds, [Reads Flt 4; Float; Updates Flt 4]), (5, 2097152, Some 103));
  ((sse2.sse2_glm_vec4_maxadd, [Reads Flt 4; Reads Flt 4; Updates Flt 4]), (2, 2048, Some 68));
  ((sse2.sse2_glm_vec4_minadd, [Reads Flt 4; Reads Flt 4; Updates Flt 4]), (2, 2048, Some 68));
  ((sse2.sse2_glm_vec4_subsub, [Reads Flt 4; Reads Flt 4; Updates Flt 4]), (6, 6144, Some 104));
  ((sse2.sse2_glm_vec4_addsub, [Reads Flt 4; Reads Flt 4; Updates Flt 4]), (6, 6144, Some 104));
  ((sse2.sse2_glm_vec4_mulsub, [Reads Flt 4; Reads Flt 4; Updates Flt 4]), (5, 2097152, Some 103));
  ((sse2.sse2_glm_vec4_mulsubs, [Reads Flt 4; Float; Updates Flt 4]), (5, 2097152, Some 103));
  ((sse2.sse2_glm_vec4_maxsub, [Reads Flt 4; Reads Flt 4; Updates Flt 4]), (2, 2048, Some 68));
  ((sse2.sse2_glm_vec4_minsub, [Reads Flt 4; Reads Flt 4; Updates Flt 4]), (2, 2048, Some 68));
  ((sse2.sse2_glm_vec4_distance2, [Reads Flt 4; Reads Flt 4]), (129, 83099649, Some 1185));
  ((sse2.sse2_glm_vec4_lerp, [Reads Flt 4; Reads Flt 4; Float; Writes 4]), (10, 6242304, Some 173));
  ((sse2.sse2_glm_vec4_lerpc, [Reads Flt 4; Reads Flt 4; Float; Writes 4]), (10, 6242304, Some 173));
  ((sse2.sse2_glm_vec4_mix, [Reads Flt 4; Reads Flt 4; Float; Writes 4]), (10, 6242304, Some 173));
  ((sse2.sse2_glm_vec4_mixc, [Reads Flt 4; Reads Flt 4; Float; Writes 4]), (10, 6242304, Some 173));
  ((sse2.sse2_glm_vec4_smoothinterp, [Reads Flt 4; Reads Flt 4; Float; Writes 4]), (89, 29585800539473, Some 1233));
  ((sse2.sse2_glm_vec4_smoothinterpc, [Reads Flt 4; Reads Flt 4; Float; Writes 4]), (89, 29585800539473, Some 1233));
  ((sse2.sse2_glm_vec4_reflect, [Reads Flt 4; Reads Flt 4; Writes 4]), (88, 50734301184, Some 897));
  ((sse2.sse2_glm_mat4_mul, [Reads Flt 16; Reads Flt 16; Writes 16]), (20, 14680064, Some 281));
  ((sse2.sse2_glm_mat4_mulv, [Reads Flt 16; Reads Flt 4; Writes 4]), (20, 14680064, Some 281));
  ((sse2.sse2_glm_mat4_mulv3, [Reads Flt 16; Reads Flt 3; Float; Writes 3]), (20, 14680064, Some 281));
  ((sse2.sse2_glm_mat4_scale, [Updates Flt 16; Float]), (1, 1048576, Some 67));
  ((sse2.sse2_glm_mat4_det, [Reads Flt 16]), (280, 233194175594496, Some 3378));
  ((sse2.sse2_glm_mat4_rmc, [Reads Flt 4; Reads Flt 16; Reads Flt 4]), (176, 110259863552, Some 1729));
  ((sse2.sse2_glm_mat3_mul, [Reads Flt 9; Reads Flt 9; Writes 9]), (11, 9437184, Some 207));
  ((sse2.sse2_glm_mat2_mul, [Reads Flt 4; Reads Flt 4; Writes 4]), (6, 4194304, Some 137));
  ((sse2.sse2_glm_mat2_scale, [Updates Flt 4; Float]), (1, 1048576, Some 67));
  ((sse2.sse2_glm_mul, [Reads Flt 16; Reads Flt 16; Writes 16]), (20, 14680064, Some 281));
  ((sse2.sse2_glm_mul_rot, [Reads Flt 16; Reads Flt 16; Writes 16]), (11, 9437184, Some 207));
  ((sse2.sse2_glm_inv_tr, [Updates Flt 16]), (19, 13631488, Some 247));
  ((sse2.sse2_glm_scale_to, [Reads Flt 16; Reads Flt 3; Writes 16]), (1, 1048576, Some 67));
  ((sse2.sse2_glm_scale, [Updates Flt 16; Reads Flt 3]), (1, 1048576, Some 67));
  ((sse2.sse2_glm_scale_uni, [Updates Flt 16; Float]), (1, 1048576, Some 67));
  ((sse2.sse2_glm_translate, [Updates Flt 16; Reads Flt 3]), (19, 10485760, Some 247));
  ((sse2.sse2_glm_translate_to, [Reads Flt 16; Reads Flt 3; Writes 16]), (19, 10485760, Some 247));
  ((sse2.sse2_glm_translate_x, [Updates Flt 16; Float]), (5, 2097152, Some 103));
  ((sse2.sse2_glm_translate_y, [Updates Flt 16; Float]), (5, 2097152, Some 103));
  ((sse2.sse2_glm_translate_z, [Updates Flt 16; Float]), (5, 2097152, Some 103));
  ((sse2.sse2_glm_translated_to, [Reads Flt 16; Reads Flt 3; Writes 16]), (2, 2048, Some 68));
  ((sse2.sse2_glm_frustum_center, [Reads Flt 32; Writes 4]), (9, 6400, Some 41));
  ((sse2.sse2_glm_frustum_box, [Reads Flt 32; Reads Flt 16; Writes 6]), (20, 14680064, Some 281));
  ((sse2.sse2_glm_quat_dot, [Reads Flt 4; Reads Flt 4]), (20, 12582912, Some 281));
  ((sse2.sse2_glm_quat_add, [Reads Flt 4; Reads Flt 4; Writes 4]), (2, 2048, Some 68));
  ((sse2.sse2_glm_quat_sub, [Reads Flt 4; Reads Flt 4; Writes 4]), (2, 2048, Some 68));
  ((sse2.sse2_glm_quat_mul, [Reads Flt 4; Reads Flt 4; Writes 4]), (20, 14680064, Some 281));
  ((sse2.sse2_glm_quat_lerp, [Reads Flt 4; Reads Flt 4; Float; Writes 4]), (10, 6242304, Some 173));
  ((sse2.sse2_glm_quat_lerpc, [Reads Flt 4; Reads Flt 4; Float; Writes 4]), (10, 6242304, Some 173));
  ((sse2.sse2_glm_sphere_transform, [Reads Flt 4; Reads Flt 16; Writes 4]), (20, 10486784, Some 249));
  ((sse2.sse2_glm_smc, [Float; Reads Flt 16; Reads Flt 4]), (193, 36703430810468352, Some 2009));
  ((avx.avx_glm_vec4_hadd, [Reads Flt 4]), (12, 8192, Some 144));
  ((avx.avx_glm_vec4_dot, [Reads Flt 4; Reads Flt 4]), (20, 12582912, Some 281));
  ((avx.avx_glm_vec4_norm2, [Reads Flt 4]), (20, 12582912, Some 281));
  ((avx.avx_glm_vec4_norm_one, [Reads Flt 4]), (12, 8192, Some 144));
  ((avx.avx_glm_vec4_add, [Reads Flt 4; Reads Flt 4; Writes 4]), (2, 2048, Some 68));
  ((avx.avx_glm_vec4_adds, [Reads Flt 4; Float; Writes 4]), (2, 2048, Some 68));
  ((avx.avx_glm_vec4_sub, [Reads Flt 4; Reads Flt 4; Writes 4]), (2, 2048, Some 68));
  ((avx.avx_glm_vec4_subs, [Reads Flt 4; Float; Writes 4]), (2, 2048, Some 68));
  ((avx.avx_glm_vec4_mul, [Reads Flt 4; Reads Flt 4; Writes 4]), (1, 1048576, Some 67));
  ((avx.avx_glm_vec4_scale, [Reads Flt 4; Float; Writes 4]), (1, 1048576, Some 67));
  ((avx.avx_glm_vec4_addadd, [Reads Flt 4; Reads Flt 4; Updates Flt 4]), (6, 6144, Some 104));
  ((avx.avx_glm_vec4_subadd, [Reads Flt 4; Reads Flt 4; Updates Flt 4]), (6, 6144, Some 104));
  ((avx.avx_glm_vec4_muladd, [Reads Flt 4; Reads Flt 4; Updates Flt 4]), (5, 2097152, Some 103));
  ((avx.avx_glm_vec4_muladds, [Reads Flt 4; Float; Updates Flt 4]), (5, 2097152, Some 103));
  ((avx.avx_glm_vec4_maxadd, [Reads Flt 4; Reads Flt 4; Updates Flt 4]), (2, 2048, Some 68));
  ((avx.avx_glm_vec4_minadd, [Reads Flt 4; Reads Flt 4; Updates Flt 4]), (2, 2048, Some 68));
  ((avx.avx_glm_vec4_subsub, [Reads Flt 4; Reads Flt 4; Updates Flt 4]), (6, 6144, Some 104));
  ((avx.avx_glm_vec4_addsub, [Reads Flt 4; Reads Flt 4; Updates Flt 4]), (6, 6144, Some 104));
  ((avx.avx_glm_vec4_mulsub, [Reads Flt 4; Reads Flt 4; Updates Flt 4]), (5, 2097152, Some 103));
  ((avx.avx_glm_vec4_mulsubs, [Reads Flt 4; Float; Updates Flt 4]), (5, 2097152, Some 103));
  ((avx.avx_glm_vec4_maxsub, [Reads Flt 4; Reads Flt 4; Updates Flt 4]), (2, 2048, Some 68));
  ((avx.avx_glm_vec4_minsub, [Reads Flt 4; Reads Flt 4; Updates Flt 4]), (2, 2048, Some 68));
  ((avx.avx_glm_vec4_distance2, [Reads Flt 4; Reads Flt 4]), (129, 83099649, Some 1185));
  ((avx.avx_glm_vec4_lerp, [Reads Flt 4; Reads Flt 4; Float; Writes 4]), (10, 6242304, Some 173));
  ((avx.avx_glm_vec4_lerpc, [Reads Flt 4; Reads Flt 4; Float; Writes 4]), (10, 6242304, Some 173));
  ((avx.avx_glm_vec4_mix, [Reads Flt 4; Reads Flt 4; Float; Writes 4]), (10, 6242304, Some 173));
  ((avx.avx_glm_vec4_mixc, [Reads Flt 4; Reads Flt 4; Float; Writes 4]), (10, 6242304, Some 173));
  ((avx.avx_glm_vec4_smoothinterp, [Reads Flt 4; Reads Flt 4; Float; Writes 4]), (89, 29585800539473, Some 1233));
  ((avx.avx_glm_vec4_smoothinterpc, [Reads Flt 4; Reads Flt 4; Float; Writes 4]), (89, 29585800539473, Some 1233));
  ((avx.avx_glm_vec4_reflect, [Reads Flt 4; Reads Flt 4; Writes 4]), (88, 50734301184, Some 897));
  ((avx.avx_glm_mat4_mul, [Reads Flt 16; Reads Flt 16; Writes 16]), (20, 14680064, Some 281));
  ((avx.avx_glm_mat4_mulv, [Reads Flt 16; Reads Flt 4; Writes 4]), (20, 14680064, Some 281));
  ((avx.avx_glm_mat4_mulv3, [Reads Flt 16; Reads Flt 3; Float; Writes 3]), (20, 14680064, Some 281));
  ((avx.avx_glm_mat4_scale, [Updates Flt 16; Float]), (1, 1048576, Some 67));
  ((avx.avx_glm_mat4_det, [Reads Flt 16]), (280, 233194175594496, Some 3378));
  ((avx.avx_glm_mat4_rmc, [Reads Flt 4; Reads Flt 16; Reads Flt 4]), (176, 110259863552, Some 1729));
  ((avx.avx_glm_mat3_mul, [Reads Flt 9; Reads Flt 9; Writes 9]), (11, 9437184, Some 207));
  ((avx.avx_glm_mat2_mul, [Reads Flt 4; Reads Flt 4; Writes 4]), (6, 4194304, Some 137));
  ((avx.avx_glm_mat2_scale, [Updates Flt 4; Float]), (1, 1048576, Some 67));
  ((avx.avx_glm_mul, [Reads Flt 16; Reads Flt 16; Writes 16]), (20, 12582912, Some 281));
  ((avx.avx_glm_mul_rot, [Reads Flt 16; Reads Flt 16; Writes 16]), (11, 9437184, Some 207));
  ((avx.avx_glm_inv_tr, [Updates Flt 16]), (19, 13631488, Some 247));
  ((avx.avx_glm_scale_to, [Reads Flt 16; Reads Flt 3; Writes 16]), (1, 1048576, Some 67));
  ((avx.avx_glm_scale, [Updates Flt 16; Reads Flt 3]), (1, 1048576, Some 67));
  ((avx.avx_glm_scale_uni, [Updates Flt 16; Float]), (1, 1048576, Some 67));
  ((avx.avx_glm_translate, [Updates Flt 16; Reads Flt 3]), (19, 10485760, Some 247));
  ((avx.avx_glm_translate_to, [Reads Flt 16; Reads Flt 3; Writes 16]), (19, 10485760, Some 247));
  ((avx.avx_glm_translate_x, [Updates Flt 16; Float]), (5, 2097152, Some 103));
  ((avx.avx_glm_translate_y, [Updates Flt 16; Float]), (5, 2097152, Some 103));
  ((avx.avx_glm_translate_z, [Updates Flt 16; Float]), (5, 2097152, Some 103));
  ((avx.avx_glm_translated_to, [Reads Flt 16; Reads Flt 3; Writes 16]), (2, 2048, Some 68));
  ((avx.avx_glm_frustum_center, [Reads Flt 32; Writes 4]), (9, 6400, Some 41));
  ((avx.avx_glm_frustum_box, [Reads Flt 32; Reads Flt 16; Writes 6]), (20, 14680064, Some 281));
  ((avx.avx_glm_quat_dot, [Reads Flt 4; Reads Flt 4]), (20, 12582912, Some 281));
  ((avx.avx_glm_quat_add, [Reads Flt 4; Reads Flt 4; Writes 4]), (2, 2048, Some 68));
  ((avx.avx_glm_quat_sub, [Reads Flt 4; Reads Flt 4; Writes 4]), (2, 2048, Some 68));
  ((avx.avx_glm_quat_mul, [Reads Flt 4; Reads Flt 4; Writes 4]), (20, 14680064, Some 281));
  ((avx.avx_glm_quat_lerp, [Reads Flt 4; Reads Flt 4; Float; Writes 4]), (10, 6242304, Some 173));
  ((avx.avx_glm_quat_lerpc, [Reads Flt 4; Reads Flt 4; Float; Writes 4]), (10, 6242304, Some 173));
  ((avx.avx_glm_sphere_transform, [Reads Flt 4; Reads Flt 16; Writes 4]), (20, 10486784, Some 249));
  ((avx.avx_glm_smc, [Float; Reads Flt 16; Reads Flt 4]), (193, 36703430810468352, Some 2009));
  ((fma.fma_glm_vec4_hadd, [Reads Flt 4]), (12, 8192, Some 144));
  ((fma.fma_glm_vec4_dot, [Reads Flt 4; Reads Flt 4]), (20, 12582912, Some 281));
  ((fma.fma_glm_vec4_norm2, [Reads Flt 4]), (20, 12582912, Some 281));
  ((fma.fma_glm_vec4_norm_one, [Reads Flt 4]), (12, 8192, Some 144));
  ((fma.fma_glm_vec4_add, [Reads Flt 4; Reads Flt 4; Writes 4]), (2, 2048, Some 68));
  ((fma.fma_glm_vec4_adds, [Reads Flt 4; Float; Writes 4]), (2, 2048, Some 68));
  ((fma.fma_glm_vec4_sub, [Reads Flt 4; Reads Flt 4; Writes 4]), (2, 2048, Some 68));
  ((fma.fma_glm_vec4_subs, [Reads Flt 4; Float; Writes 4]), (2, 2048, Some 68));
  ((fma.fma_glm_vec4_mul, [Reads Flt 4; Reads Flt 4; Writes 4]), (1, 1048576, Some 67));
  ((fma.fma_glm_vec4_scale, [Reads Flt 4; Float; Writes 4]), (1, 1048576, Some 67));
  ((fma.fma_glm_vec4_addadd, [Reads Flt 4; Reads Flt 4; Updates Flt 4]), (6, 6144, Some 104));
  ((fma.fma_glm_vec4_subadd, [Reads Flt 4; Reads Flt 4; Updates Flt 4]), (6, 6144, Some 104));
  ((fma.fma_glm_vec4_muladd, [Reads Flt 4; Reads Flt 4; Updates Flt 4]), (2, 1048576, Some 101));
  ((fma.fma_glm_vec4_muladds, [Reads Flt 4; Float; Updates Flt 4]), (2, 1048576, Some 101));
  ((fma.fma_glm_vec4_maxadd, [Reads Flt 4; Reads Flt 4; Updates Flt 4]), (2, 2048, Some 68));
  ((fma.fma_glm_vec4_minadd, [Reads Flt 4; Reads Flt 4; Updates Flt 4]), (2, 2048, Some 68));
  ((fma.fma_glm_vec4_subsub, [Reads Flt 4; Reads Flt 4; Updates Flt 4]), (6, 6144, Some 104));
  ((fma.fma_glm_vec4_addsub, [Reads Flt 4; Reads Flt 4; Updates Flt 4]), (6, 6144, Some 104));
  ((fma.fma_glm_vec4_mulsub, [Reads Flt 4; Reads Flt 4; Updates Flt 4]), (2, 1048576, Some 101));
  ((fma.fma_glm_vec4_mulsubs, [Reads Flt 4; Float; Updates Flt 4]), (2, 1048576, Some 101));
  ((fma.fma_glm_vec4_maxsub, [Reads Flt 4; Reads Flt 4; Updates Flt 4]), (2, 2048, Some 68));
  ((fma.fma_glm_vec4_minsub, [Reads Flt 4; Reads Flt 4; Updates Flt 4]), (2, 2048, Some 68));
  ((fma.fma_glm_vec4_distance2, [Reads Flt 4; Reads Flt 4]), (129, 83099649, Some 1185));
  ((fma.fma_glm_vec4_lerp, [Reads Flt 4; Reads Flt 4; Float; Writes 4]), (10, 6242304, Some 173));
  ((fma.fma_glm_vec4_lerpc, [Reads Flt 4; Reads Flt 4; Float; Writes 4]), (10, 6242304, Some 173));
  ((fma.fma_glm_vec4_mix, [Reads Flt 4; Reads Flt 4; Float; Writes 4]), (10, 6242304, Some 173));
  ((fma.fma_glm_vec4_mixc, [Reads Flt 4; Reads Flt 4; Float; Writes 4]), (10, 6242304, Some 173));
  ((fma.fma_glm_vec4_smoothinterp, [Reads Flt 4; Reads Flt 4; Float; Writes 4]), (89, 29585800539473, Some 1233));
  ((fma.fma_glm_vec4_smoothinterpc, [Reads Flt 4; Reads Flt 4; Float; Writes 4]), (89, 29585800539473, Some 1233));
  ((fma.fma_glm_vec4_reflect, [Reads Flt 4; Reads Flt 4; Writes 4]), (88, 50734301184, Some 897));
  ((fma.fma_glm_mat4_mul, [Reads Flt 16; Reads Flt 16; Writes 16]), (17, 11534336, Some 275));
  ((fma.fma_glm_mat4_mulv, [Reads Flt 16; Reads Flt 4; Writes 4]), (17, 11534336, Some 275));
  ((fma.fma_glm_mat4_mulv3, [Reads Flt 16; Reads Flt 3; Float; Writes 3]), (17, 11534336, Some 275));
  ((fma.fma_glm_mat4_scale, [Updates Flt 16; Float]), (1, 1048576, Some 67));
  ((fma.fma_glm_mat4_det, [Reads Flt 16]), (236, 203431394410496, Some 3322));
  ((fma.fma_glm_mat4_rmc, [Reads Flt 4; Reads Flt 16; Reads Flt 4]), (164, 97676951552, Some 1705));
  ((fma.fma_glm_mat3_mul, [Reads Flt 9; Reads Flt 9; Writes 9]), (11, 9437184, Some 207));
  ((fma.fma_glm_mat2_mul, [Reads Flt 4; Reads Flt 4; Writes 4]), (5, 3145728, Some 135));
  ((fma.fma_glm_mat2_scale, [Updates Flt 4; Float]), (1, 1048576, Some 67));
  ((fma.fma_glm_mul, [Reads Flt 16; Reads Flt 16; Writes 16]), (20, 12582912, Some 281));
  ((fma.fma_glm_mul_rot, [Reads Flt 16; Reads Flt 16; Writes 16]), (9, 7340032, Some 203));
  ((fma.fma_glm_inv_tr, [Updates Flt 16]), (17, 11534336, Some 243));
  ((fma.fma_glm_scale_to, [Reads Flt 16; Reads Flt 3; Writes 16]), (1, 1048576, Some 67));
  ((fma.fma_glm_scale, [Updates Flt 16; Reads Flt 3]), (1, 1048576, Some 67));
  ((fma.fma_glm_scale_uni, [Updates Flt 16; Float]), (1, 1048576, Some 67));
  ((fma.fma_glm_translate, [Updates Flt 16; Reads Flt 3]), (14, 7340032, Some 241));
  ((fma.fma_glm_translate_to, [Reads Flt 16; Reads Flt 3; Writes 16]), (14, 7340032, Some 241));
  ((fma.fma_glm_translate_x, [Updates Flt 16; Float]), (2, 1048576, Some 101));
  ((fma.fma_glm_translate_y, [Updates Flt 16; Float]), (2, 1048576, Some 101));
  ((fma.fma_glm_translate_z, [Updates Flt 16; Float]), (2, 1048576, Some 101));
  ((fma.fma_glm_translated_to, [Reads Flt 16; Reads Flt 3; Writes 16]), (2, 2048, Some 68));
  ((fma.fma_glm_frustum_center, [Reads Flt 32; Writes 4]), (9, 6400, Some 41));
  ((fma.fma_glm_frustum_box, [Reads Flt 32; Reads Flt 16; Writes 6]), (17, 11534336, Some 275));
  ((fma.fma_glm_quat_dot, [Reads Flt 4; Reads Flt 4]), (20, 12582912, Some 281));
  ((fma.fma_glm_quat_add, [Reads Flt 4; Reads Flt 4; Writes 4]), (2, 2048, Some 68));
  ((fma.fma_glm_quat_sub, [Reads Flt 4; Reads Flt 4; Writes 4]), (2, 2048, Some 68));
  ((fma.fma_glm_quat_mul, [Reads Flt 4; Reads Flt 4; Writes 4]), (17, 11534336, Some 275));
  ((fma.fma_glm_quat_lerp, [Reads Flt 4; Reads Flt 4; Float; Writes 4]), (10, 6242304, Some 173));
  ((fma.fma_glm_quat_lerpc, [Reads Flt 4; Reads Flt 4; Float; Writes 4]), (10, 6242304, Some 173));
  ((fma.fma_glm_sphere_transform, [Reads Flt 4; Reads Flt 16; Writes 4]), (17, 7341056, Some 243));
  ((fma.fma_glm_smc, [Float; Reads Flt 16; Reads Flt 4]), (181, 33554553734529024, Some 1985));
  ((neon.neon_glm_vec4_dot, [Reads Flt 4; Reads Flt 4]), (20, 12582912, Some 281));
  ((neon.neon_glm_vec4_norm2, [Reads Flt 4]), (20, 12582912, Some 281));
  ((neon.neon_glm_vec4_norm_one, [Reads Flt 4]), (12, 8192, Some 144));
  ((neon.neon_glm_vec4_add, [Reads Flt 4; Reads Flt 4; Writes 4]), (2, 2048, Some 68));
  ((neon.neon_glm_vec4_adds, [Reads Flt 4; Float; Writes 4]), (2, 2048, Some 68));
  ((neon.neon_glm_vec4_sub, [Reads Flt 4; Reads Flt 4; Writes 4]), (2, 2048, Some 68));
  ((neon.neon_glm_vec4_subs, [Reads Flt 4; Float; Writes 4]), (2, 2048, Some 68));
  ((neon.neon_glm_vec4_mul, [Reads Flt 4; Reads Flt 4; Writes 4]), (1, 1048576, Some 67));
  ((neon.neon_glm_vec4_scale, [Reads Flt 4; Float; Writes 4]), (1, 1048576, Some 67));
  ((neon.neon_glm_vec4_addadd, [Reads Flt 4; Reads Flt 4; Updates Flt 4]), (6, 6144, Some 104));
  ((neon.neon_glm_vec4_subadd, [Reads Flt 4; Reads Flt 4; Updates Flt 4]), (6, 6144, Some 104));
  ((neon.neon_glm_vec4_muladd, [Reads Flt 4; Reads Flt 4; Updates Flt 4]), (2, 1048576, Some 101));
  ((neon.neon_glm_vec4_muladds, [Reads Flt 4; Float; Updates Flt 4]), (2, 1048576, Some 101));
  ((neon.neon_glm_vec4_subsub, [Reads Flt 4; Reads Flt 4; Updates Flt 4]), (6, 6144, Some 104));
  ((neon.neon_glm_vec4_addsub, [Reads Flt 4; Reads Flt 4; Updates Flt 4]), (6, 6144, Some 104));
  ((neon.neon_glm_vec4_mulsub, [Reads Flt 4; Reads Flt 4; Updates Flt 4]), (2, 1048576, Some 101));
  ((neon.neon_glm_vec4_mulsubs, [Reads Flt 4; Float; Updates Flt 4]), (2, 1048576, Some 101));
  ((neon.neon_glm_vec4_distance2, [Reads Flt 4; Reads Flt 4]), (129, 83099649, Some 1185));
  ((neon.neon_glm_vec4_lerp, [Reads Flt 4; Reads Flt 4; Float; Writes 4]), (10, 6242304, Some 173));
  ((neon.neon_glm_vec4_lerpc, [Reads Flt 4; Reads Flt 4; Float; Writes 4]), (10, 6242304, Some 173));
  ((neon.neon_glm_vec4_mix, [Reads Flt 4; Reads Flt 4; Float; Writes 4]), (10, 6242304, Some 173));
  ((neon.neon_glm_vec4_mixc, [Reads Flt 4; Reads Flt 4; Float; Writes 4]), (10, 6242304, Some 173));
  ((neon.neon_glm_vec4_smoothinterp, [Reads Flt 4; Reads Flt 4; Float; Writes 4]), (89, 29585800539473, Some 1233));
  ((neon.neon_glm_vec4_smoothinterpc, [Reads Flt 4; Reads Flt 4; Float; Writes 4]), (89, 29585800539473, Some 1233));
  ((neon.neon_glm_vec4_reflect, [Reads Flt 4; Reads Flt 4; Writes 4]), (88, 50734301184, Some 897));
  ((neon.neon_glm_mat4_mul, [Reads Flt 16; Reads Flt 16; Writes 16]), (17, 11534336, Some 275));
  ((neon.neon_glm_mat4_mulv, [Reads Flt 16; Reads Flt 4; Writes 4]), (20, 14680064, Some 281));
  ((neon.neon_glm_mat4_mulv3, [Reads Flt 16; Reads Flt 3; Float; Writes 3]), (20, 14680064, Some 281));
  ((neon.neon_glm_mat4_scale, [Updates Flt 16; Float]), (1, 1048576, Some 67));
  ((neon.neon_glm_mat4_det, [Reads Flt 16]), (236, 203431394410496, Some 3322));
  ((neon.neon_glm_mat4_rmc, [Reads Flt 4; Reads Flt 16; Reads Flt 4]), (176, 110259863552, Some 1729));
  ((neon.neon_glm_mat2_mul, [Reads Flt 4; Reads Flt 4; Writes 4]), (5, 3145728, Some 135));
  ((neon.neon_glm_mat2_scale, [Updates Flt 4; Float]), (1, 1048576, Some 67));
  ((neon.neon_glm_mul, [Reads Flt 16; Reads Flt 16; Writes 16]), (17, 11534336, Some 275));
  ((neon.neon_glm_mul_rot, [Reads Flt 16; Reads Flt 16; Writes 16]), (9, 7340032, Some 203));
  ((neon.neon_glm_inv_tr, [Updates Flt 16]), (9, 7340032, Some 203));
  ((neon.neon_glm_scale_to, [Reads Flt 16; Reads Flt 3; Writes 16]), (1, 1048576, Some 67));
  ((neon.neon_glm_scale, [Updates Flt 16; Reads Flt 3]), (1, 1048576, Some 67));
  ((neon.neon_glm_scale_uni, [Updates Flt 16; Float]), (1, 1048576, Some 67));
  ((neon.neon_glm_translate, [Updates Flt 16; Reads Flt 3]), (14, 7340032, Some 241));
  ((neon.neon_glm_translate_to, [Reads Flt 16; Reads Flt 3; Writes 16]), (14, 7340032, Some 241));
  ((neon.neon_glm_translate_x, [Updates Flt 16; Float]), (2, 1048576, Some 101));
  ((neon.neon_glm_translate_y, [Updates Flt 16; Float]), (2, 1048576, Some 101));
  ((neon.neon_glm_translate_z, [Updates Flt 16; Float]), (2, 1048576, Some 101));
  ((neon.neon_glm_translated_to, [Reads Flt 16; Reads Flt 3; Writes 16]), (2, 2048, Some 68));
  ((neon.neon_glm_frustum_center, [Reads Flt 32; Writes 4]), (9, 6400, Some 41));
  ((neon.neon_glm_frustum_box, [Reads Flt 32; Reads Flt 16; Writes 6]), (20, 14680064, Some 281));
  ((neon.neon_glm_quat_dot, [Reads Flt 4; Reads Flt 4]), (20, 12582912, Some 281));
  ((neon.neon_glm_quat_add, [Reads Flt 4; Reads Flt 4; Writes 4]), (2, 2048, Some 68));
  ((neon.neon_glm_quat_sub, [Reads Flt 4; Reads Flt 4; Writes 4]), (2, 2048, Some 68));
  ((neon.neon_glm_quat_mul, [Reads Flt 4; Reads Flt 4; Writes 4]), (17, 11534336, Some 275));
  ((neon.neon_glm_quat_lerp, [Reads Flt 4; Reads Flt 4; Float; Writes 4]), (10, 6242304, Some 173));
  ((neon.neon_glm_quat_lerpc, [Reads Flt 4; Reads Flt 4; Float; Writes 4]), (10, 6242304, Some 173));
  ((neon.neon_glm_sphere_transform, [Reads Flt 4; Reads Flt 16; Writes 4]), (20, 13632512, Some 249));
  ((neon.neon_glm_smc, [Float; Reads Flt 16; Reads Flt 4]), (193, 36703430810468352, Some 2009));
  ((neon32.neon32_glm_vec4_dot, [Reads Flt 4; Reads Flt 4]), (20, 12582912, Some 281));
  ((neon32.neon32_glm_vec4_norm2, [Reads Flt 4]), (20, 12582912, Some 281));
  ((neon32.neon32_glm_vec4_norm_one, [Reads Flt 4]), (12, 8192, Some 144));
  ((neon32.neon32_glm_vec4_add, [Reads Flt 4; Reads Flt 4; Writes 4]), (2, 2048, Some 68));
  ((neon32.neon32_glm_vec4_adds, [Reads Flt 4; Float; Writes 4]), (2, 2048, Some 68));
  ((neon32.neon32_glm_vec4_sub, [Reads Flt 4; Reads Flt 4; Writes 4]), (2, 2048, Some 68));
  ((neon32.neon32_glm_vec4_subs, [Reads Flt 4; Float; Writes 4]), (2, 2048, Some 68));
  ((neon32.neon32_glm_vec4_mul, [Reads Flt 4; Reads Flt 4; Writes 4]), (1, 1048576, Some 67));
  ((neon32.neon32_glm_vec4_scale, [Reads Flt 4; Float; Writes 4]), (1, 1048576, Some 67));
  ((neon32.neon32_glm_vec4_addadd, [Reads Flt 4; Reads Flt 4; Updates Flt 4]), (6, 6144, Some 104));
  ((neon32.neon32_glm_vec4_subadd, [Reads Flt 4; Reads Flt 4; Updates Flt 4]), (6, 6144, Some 104));
  ((neon32.neon32_glm_vec4_muladd, [Reads Flt 4; Reads Flt 4; Updates Flt 4]), (5, 2097152, Some 103));
  ((neon32.neon32_glm_vec4_muladds, [Reads Flt 4; Float; Updates Flt 4]), (5, 2097152, Some 103));
  ((neon32.neon32_glm_vec4_subsub, [Reads Flt 4; Reads Flt 4; Updates Flt 4]), (6, 6144, Some 104));
  ((neon32.neon32_glm_vec4_addsub, [Reads Flt 4; Reads Flt 4; Updates Flt 4]), (6, 6144, Some 104));
  ((neon32.neon32_glm_vec4_mulsub, [Reads Flt 4; Reads Flt 4; Updates Flt 4]), (5, 2097152, Some 103));
  ((neon32.neon32_glm_vec4_mulsubs, [Reads Flt 4; Float; Updates Flt 4]), (5, 2097152, Some 103));
  ((neon32.neon32_glm_vec4_distance2, [Reads Flt 4; Reads Flt 4]), (129, 83099649, Some 1185));
  ((neon32.neon32_glm_vec4_lerp, [Reads Flt 4; Reads Flt 4; Float; Writes 4]), (10, 6242304, Some 173));
  ((neon32.neon32_glm_vec4_lerpc, [Reads Flt 4; Reads Flt 4; Float; Writes 4]), (10, 6242304, Some 173));
  ((neon32.neon32_glm_vec4_mix, [Reads Flt 4; Reads Flt 4; Float; Writes 4]), (10, 6242304, Some 173));
  ((neon32.neon32_glm_vec4_mixc, [Reads Flt 4; Reads Flt 4; Float; Writes 4]), (10, 6242304, Some 173));
  ((neon32.neon32_glm_vec4_smoothinterp, [Reads Flt 4; Reads Flt 4; Float; Writes 4]), (89, 29585800539473, Some 1233));
  ((neon32.neon32_glm_vec4_smoothinterpc, [Reads Flt 4; Reads Flt 4; Float; Writes 4]), (89, 29585800539473, Some 1233));
  ((neon32.neon32_glm_vec4_reflect, [Reads Flt 4; Reads Flt 4; Writes 4]), (88, 50734301184, Some 897));
  ((neon32.neon32_glm_mat4_mul, [Reads Flt 16; Reads Flt 16; Writes 16]), (20, 14680064, Some 281));
  ((neon32.neon32_glm_mat4_mulv, [Reads Flt 16; Reads Flt 4; Writes 4]), (20, 14680064, Some 281));
  ((neon32.neon32_glm_mat4_mulv3, [Reads Flt 16; Reads Flt 3; Float; Writes 3]), (20, 14680064, Some 281));
  ((neon32.neon32_glm_mat4_scale, [Updates Flt 16; Float]), (1, 1048576, Some 67));
  ((neon32.neon32_glm_mat4_det, [Reads Flt 16]), (280, 233194175594496, Some 3378));
  ((neon32.neon32_glm_mat4_rmc, [Reads Flt 4; Reads Flt 16; Reads Flt 4]), (176, 110259863552, Some 1729));
  ((neon32.neon32_glm_mat2_mul, [Reads Flt 4; Reads Flt 4; Writes 4]), (6, 4194304, Some 137));
  ((neon32.neon32_glm_mat2_scale, [Updates Flt 4; Float]), (1, 1048576, Some 67));
  ((neon32.neon32_glm_mul, [Reads Flt 16; Reads Flt 16; Writes 16]), (20, 14680064, Some 281));
  ((neon32.neon32_glm_mul_rot, [Reads Flt 16; Reads Flt 16; Writes 16]), (11, 9437184, Some 207));
  ((neon32.neon32_glm_inv_tr, [Updates Flt 16]), (11, 9437184, Some 207));
  ((neon32.neon32_glm_scale_to, [Reads Flt 16; Reads Flt 3; Writes 16]), (1, 1048576, Some 67));
  ((neon32.neon32_glm_scale, [Updates Flt 16; Reads Flt 3]), (1, 1048576, Some 67));
  ((neon32.neon32_glm_scale_uni, [Updates Flt 16; Float]), (1, 1048576, Some 67));
  ((neon32.neon32_glm_translate, [Updates Flt 16; Reads Flt 3]), (19, 10485760, Some 247));
  ((neon32.neon32_glm_translate_to, [Reads Flt 16; Reads Flt 3; Writes 16]), (19, 10485760, Some 247));
  ((neon32.neon32_glm_translate_x, [Updates Flt 16; Float]), (5, 2097152, Some 103));
  ((neon32.neon32_glm_translate_y, [Updates Flt 16; Float]), (5, 2097152, Some 103));
  ((neon32.neon32_glm_translate_z, [Updates Flt 16; Float]), (5, 2097152, Some 103));
  ((neon32.neon32_glm_translated_to, [Reads Flt 16; Reads Flt 3; Writes 16]), (2, 2048, Some 68));
  ((neon32.neon32_glm_frustum_center, [Reads Flt 32; Writes 4]), (9, 6400, Some 41));
  ((neon32.neon32_glm_frustum_box, [Reads Flt 32; Reads Flt 16; Writes 6]), (20, 14680064, Some 281));
  ((neon32.neon32_glm_quat_dot, [Reads Flt 4; Reads Flt 4]), (20, 12582912, Some 281));
  ((neon32.neon32_glm_quat_add, [Reads Flt 4; Reads Flt 4; Writes 4]), (2, 2048, Some 68));
  ((neon32.neon32_glm_quat_sub, [Reads Flt 4; Reads Flt 4; Writes 4]), (2, 2048, Some 68));
  ((neon32.neon32_glm_quat_mul, [Reads Flt 4; Reads Flt 4; Writes 4]), (20, 14680064, Some 281));
  ((neon32.neon32_glm_quat_lerp, [Reads Flt 4; Reads Flt 4; Float; Writes 4]), (10, 6242304, Some 173));
  ((neon32.neon32_glm_quat_lerpc, [Reads Flt 4; Reads Flt 4; Float; Writes 4]), (10, 6242304, Some 173));
  ((neon32.neon32_glm_sphere_transform, [Reads Flt 4; Reads Flt 16; Writes 4]), (20, 13632512, Some 249));
  ((neon32.neon32_glm_smc, [Float; Reads Flt 16; Reads Flt 4]), (193, 36703430810468352, Some 2009));
  ((wasm.wasm_glm_vec4_hadd, [Reads Flt 4]), (12, 8192, Some 144));
  ((wasm.wasm_glm_vec4_dot, [Reads Flt 4; Reads Flt 4]), (20, 12582912, Some 281));
  ((wasm.wasm_glm_vec4_norm2, [Reads Flt 4]), (20, 12582912, Some 281));
  ((wasm.wasm_glm_vec4_norm_one, [Reads Flt 4]), (12, 8192, Some 144));
  ((wasm.wasm_glm_vec4_add, [Reads Flt 4; Reads Flt 4; Writes 4]), (2, 2048, Some 68));
  ((wasm.wasm_glm_vec4_adds, [Reads Flt 4; Float; Writes 4]), (2, 2048, Some 68));
  ((wasm.wasm_glm_vec4_sub, [Reads Flt 4; Reads Flt 4; Writes 4]), (2, 2048, Some 68));
  ((wasm.wasm_glm_vec4_subs, [Reads Flt 4; Float; Writes 4]), (2, 2048, Some 68));
  ((wasm.wasm_glm_vec4_mul, [Reads Flt 4; Reads Flt 4; Writes 4]), (1, 1048576, Some 67));
  ((wasm.wasm_glm_vec4_scale, [Reads Flt 4; Float; Writes 4]), (1, 1048576, Some 67));
  ((wasm.wasm_glm_vec4_addadd, [Reads Flt 4; Reads Flt 4; Updates Flt 4]), (6, 6144, Some 104));
  ((wasm.wasm_glm_vec4_subadd, [Reads Flt 4; Reads Flt 4; Updates Flt 4]), (6, 6144, Some 104));
  ((wasm.wasm_glm_vec4_muladd, [Reads Flt 4; Reads Flt 4; Updates Flt 4]), (5, 2097152, Some 103));
  ((wasm.wasm_glm_vec4_muladds, [Reads Flt 4; Float; Updates Flt 4]), (5, 2097152, Some 103));
  ((wasm.wasm_glm_vec4_maxadd, [Reads Flt 4; Reads Flt 4; Updates Flt 4]), (2, 2048, Some 68));
  ((wasm.wasm_glm_vec4_minadd, [Reads Flt 4; Reads Flt 4; Updates Flt 4]), (2, 2048, Some 68));
  ((wasm.wasm_glm_vec4_subsub, [Reads Flt 4; Reads Flt 4; Updates Flt 4]), (6, 6144, Some 104));
  ((wasm.wasm_glm_vec4_addsub, [Reads Flt 4; Reads Flt 4; Updates Flt 4]), (6, 6144, Some 104));
  ((wasm.wasm_glm_vec4_mulsub, [Reads Flt 4; Reads Flt 4; Updates Flt 4]), (5, 2097152, Some 103));
  ((wasm.wasm_glm_vec4_mulsubs, [Reads Flt 4; Float; Updates Flt 4]), (5, 2097152, Some 103));
  ((wasm.wasm_glm_vec4_maxsub, [Reads Flt 4; Reads Flt 4; Updates Flt 4]), (2, 2048, Some 68));
  ((wasm.wasm_glm_vec4_minsub, [Reads Flt 4; Reads Flt 4; Updates Flt 4]), (2, 2048, Some 68));
  ((wasm.wasm_glm_vec4_distance2, [Reads Flt 4; Reads Flt 4]), (129, 83099649, Some 1185));
  ((wasm.wasm_glm_vec4_lerp, [Reads Flt 4; Reads Flt 4; Float; Writes 4]), (10, 6242304, Some 173));
  ((wasm.wasm_glm_vec4_lerpc, [Reads Flt 4; Reads Flt 4; Float; Writes 4]), (10, 6242304, Some 173));
  ((wasm.wasm_glm_vec4_mix, [Reads Flt 4; Reads Flt 4; Float; Writes 4]), (10, 6242304, Some 173));
  ((wasm.wasm_glm_vec4_mixc, [Reads Flt 4; Reads Flt 4; Float; Writes 4]), (10, 6242304, Some 173));
  ((wasm.wasm_glm_vec4_smoothinterp, [Reads Flt 4; Reads Flt 4; Float; Writes 4]), (89, 29585800539473, Some 1233));
  ((wasm.wasm_glm_vec4_smoothinterpc, [Reads Flt 4; Reads Flt 4; Float; Writes 4]), (89, 29585800539473, Some 1233));
  ((wasm.wasm_glm_vec4_reflect, [Reads Flt 4; Reads Flt 4; Writes 4]), (88, 50734301184, Some 897));
  ((wasm.wasm_glm_mat4_mul, [Reads Flt 16; Reads Flt 16; Writes 16]), (20, 14680064, Some 281));
  ((wasm.wasm_glm_mat4_mulv, [Reads Flt 16; Reads Flt 4; Writes 4]), (20, 14680064, Some 281));
  ((wasm.wasm_glm_mat4_mulv3, [Reads Flt 16; Reads Flt 3; Float; Writes 3]), (20, 14680064, Some 281));
  ((wasm.wasm_glm_mat4_scale, [Updates Flt 16; Float]), (1, 1048576, Some 67));
  ((wasm.wasm_glm_mat4_det, [Reads Flt 16]), (280, 233194175594496, Some 3378));
  ((wasm.wasm_glm_mat4_rmc, [Reads Flt 4; Reads Flt 16; Reads Flt 4]), (176, 110259863552, Some 1729));
  ((wasm.wasm_glm_mat3_mul, [Reads Flt 9; Reads Flt 9; Writes 9]), (11, 9437184, Some 207));
  ((wasm.wasm_glm_mat2_mul, [Reads Flt 4; Reads Flt 4; Writes 4]), (6, 4194304, Some 137));
  ((wasm.wasm_glm_mat2_scale, [Updates Flt 4; Float]), (1, 1048576, Some 67));
  ((wasm.wasm_glm_mul, [Reads Flt 16; Reads Flt 16; Writes 16]), (20, 14680064, Some 281));
  ((wasm.wasm_glm_mul_rot, [Reads Flt 16; Reads Flt 16; Writes 16]), (11, 9437184, Some 207));
  ((wasm.wasm_glm_inv_tr, [Updates Flt 16]), (19, 13631488, Some 247));
  ((wasm.wasm_glm_scale_to, [Reads Flt 16; Reads Flt 3; Writes 16]), (1, 1048576, Some 67));
  ((wasm.wasm_glm_scale, [Updates Flt 16; Reads Flt 3]), (1, 1048576, Some 67));
  ((wasm.wasm_glm_scale_uni, [Updates Flt 16; Float]), (1, 1048576, Some 67));
  ((wasm.wasm_glm_translate, [Updates Flt 16; Reads Flt 3]), (19, 10485760, Some 247));
  ((wasm.wasm_glm_translate_to, [Reads Flt 16; Reads Flt 3; Writes 16]), (19, 10485760, Some 247));
  ((wasm.wasm_glm_translate_x, [Updates Flt 16; Float]), (5, 2097152, Some 103));
  ((wasm.wasm_glm_translate_y, [Updates Flt 16; Float]), (5, 2097152, Some 103));
  ((wasm.wasm_glm_translate_z, [Updates Flt 16; Float]), (5, 2097152, Some 103));
  ((wasm.wasm_glm_translated_to, [Reads Flt 16; Reads Flt 3; Writes 16]), (2, 2048, Some 68));
  ((wasm.wasm_glm_frustum_center, [Reads Flt 32; Writes 4]), (9, 6400, Some 41));
  ((wasm.wasm_glm_frustum_box, [Reads Flt 32; Reads Flt 16; Writes 6]), (20, 14680064, Some 281));
  ((wasm.wasm_glm_quat_dot, [Reads Flt 4; Reads Flt 4]), (20, 12582912, Some 281));
  ((wasm.wasm_glm_quat_add, [Reads Flt 4; Reads Flt 4; Writes 4]), (2, 2048, Some 68));
  ((wasm.wasm_glm_quat_sub, [Reads Flt 4; Reads Flt 4; Writes 4]), (2, 2048, Some 68));
  ((wasm.wasm_glm_quat_mul, [Reads Flt 4; Reads Flt 4; Writes 4]), (20, 14680064, Some 281));
  ((wasm.wasm_glm_quat_lerp, [Reads Flt 4; Reads Flt 4; Float; Writes 4]), (10, 6242304, Some 173));
  ((wasm.wasm_glm_quat_lerpc, [Reads Flt 4; Reads Flt 4; Float; Writes 4]), (10, 6242304, Some 173));
  ((wasm.wasm_glm_sphere_transform, [Reads Flt 4; Reads Flt 16; Writes 4]), (20, 10486784, Some 249));
  ((wasm.wasm_glm_smc, [Float; Reads Flt 16; Reads Flt 4]), (193, 36703430810468352, Some 2009))
 ].

(** the same for functions that take sines or cosines *)
Definition trig_error_bounds : list (fundef * list param * (Z * Z * option Z)) :=
 [
  ((glm_rotate2d_make, [Writes 9; Float]), (2, 2, Some 34));
  ((glm_rotate2d, [Updates Flt 9; Float]), (12, 8096, Some 141));
  ((glm_rotate2d_to, [Reads Flt 9; Float; Writes 9]), (12, 8096, Some 141));
  ((glm_rotated2d, [Updates Flt 9; Float]), (12, 8096, Some 141));
  ((glm_rotated_x, [Reads Flt 16; Float; Writes 16]), (12, 8096, Some 141));
  ((glm_rotated_y, [Reads Flt 16; Float; Writes 16]), (12, 8096, Some 141));
  ((glm_rotated_z, [Reads Flt 16; Float; Writes 16]), (12, 8096, Some 141));
  ((glm_rotate_x, [Reads Flt 16; Float; Writes 16]), (12, 8096, Some 141));
  ((glm_rotate_y, [Reads Flt 16; Float; Writes 16]), (12, 8096, Some 141));
  ((glm_rotate_z, [Reads Flt 16; Float; Writes 16]), (12, 8096, Some 141));
  ((glm_ease_sine_in, [Float]), (17, 5164, Some 70));
  ((glm_ease_sine_out, [Float]), (6, 3550, Some 56));
  ((glm_ease_sine_inout, [Float]), (9, 3538, Some 59));
  ((glm_euler_xyz, [Reads Flt 3; Writes 16]), (21, 21, Some 181));
  ((glm_euler, [Reads Flt 3; Writes 16]), (21, 21, Some 181));
  ((glm_euler_xzy, [Reads Flt 3; Writes 16]), (21, 21, Some 181));
  ((glm_euler_yxz, [Reads Flt 3; Writes 16]), (21, 21, Some 181));
  ((glm_euler_yzx, [Reads Flt 3; Writes 16]), (21, 21, Some 181));
  ((glm_euler_zxy, [Reads Flt 3; Writes 16]), (21, 21, Some 181));
  ((glm_euler_zyx, [Reads Flt 3; Writes 16]), (21, 21, Some 181));
  ((glm_euler_by_order, [Reads Flt 3; OneOf [36; 24; 9; 33; 18; 6]; Writes 16]), (21, 21, Some 181));
  ((glm_euler_xyz_quat, [Reads Flt 3; Writes 4]), (28, 3097, Some 127));
  ((glm_euler_xzy_quat, [Reads Flt 3; Writes 4]), (28, 3097, Some 127));
  ((glm_euler_yxz_quat, [Reads Flt 3; Writes 4]), (28, 3097, Some 127));
  ((glm_euler_yzx_quat, [Reads Flt 3; Writes 4]), (28, 3097, Some 127));
  ((glm_euler_zxy_quat, [Reads Flt 3; Writes 4]), (28, 3097, Some 127));
  ((glm_euler_zyx_quat, [Reads Flt 3; Writes 4]), (28, 3097, Some 127));
  ((glm_euler_xyz_quat_lh, [Reads Flt 3; Writes 4]), (28, 3097, Some 127));
  ((glm_euler_xzy_quat_lh, [Reads Flt 3; Writes 4]), (28, 3097, Some 127));
  ((glm_euler_yxz_quat_lh, [Reads Flt 3; Writes 4]), (28, 3097, Some 127));
  ((glm_euler_yzx_quat_lh, [Reads Flt 3; Writes 4]), (28, 3097, Some 127));
  ((glm_euler_zxy_quat_lh, [Reads Flt 3; Writes 4]), (28, 3097, Some 127));
  ((glm_euler_zyx_quat_lh, [Reads Flt 3; Writes 4]), (28, 3097, Some 127));
  ((glm_euler_xyz_quat_rh, [Reads Flt 3; Writes 4]), (28, 3097, Some 127));
  ((glm_euler_xzy_quat_rh, [Reads Flt 3; Writes 4]), (28, 3097, Some 127));
  ((glm_euler_yxz_quat_rh, [Reads Flt 3; Writes 4]), (28, 3097, Some 127));
  ((glm_euler_yzx_quat_rh, [Reads Flt 3; Writes 4]), (28, 3097, Some 127));
  ((glm_euler_zxy_quat_rh, [Reads Flt 3; Writes 4]), (28, 3097, Some 127));
  ((glm_euler_zyx_quat_rh, [Reads Flt 3; Writes 4]), (28, 3097, Some 127));
  ((glm_mat3_textrans, [Float; Float; Float; Float; Float; Writes 9]), (4, 3024, Some 69));
  ((glm_mat4_textrans, [Float; Float; Float; Float; Float; Writes 16]), (4, 3024, Some 69));
  ((glms_rotate2d_make, [Float]), (2, 2, Some 34));
  ((glms_rotate2d, [Struct Flt 9; Float]), (12, 8096, Some 141));
  ((glms_rotate2d_to, [Struct Flt 9; Float]), (12, 8096, Some 141));
  ((glms_rotated_x, [Struct Flt 16; Float]), (12, 8096, Some 141));
  ((glms_rotated_y, [Struct Flt 16; Float]), (12, 8096, Some 141));
  ((glms_rotated_z, [Struct Flt 16; Float]), (12, 8096, Some 141));
  ((glms_rotate_x, [Struct Flt 16; Float]), (12, 8096, Some 141));
  ((glms_rotate_y, [Struct Flt 16; Float]), (12, 8096, Some 141));
  ((glms_rotate_z, [Struct Flt 16; Float]), (12, 8096, Some 141));
  ((glms_euler_xyz, [Struct Flt 3]), (21, 21, Some 181));
  ((glms_euler_xzy, [Struct Flt 3]), (21, 21, Some 181));
  ((glms_euler_yxz, [Struct Flt 3]), (21, 21, Some 181));
  ((glms_euler_yzx, [Struct Flt 3]), (21, 21, Some 181));
  ((glms_euler_zxy, [Struct Flt 3]), (21, 21, Some 181));
  ((glms_euler_zyx, [Struct Flt 3]), (21, 21, Some 181));
  ((glms_euler_by_order, [Struct Flt 3; OneOf [36; 24; 9; 33; 18; 6]]), (21, 21, Some 181));
  ((glms_euler_xyz_quat, [Struct Flt 3]), (28, 3097, Some 127));
  ((glms_euler_xzy_quat, [Struct Flt 3]), (28, 3097, Some 127));
  ((glms_euler_yxz_quat, [Struct Flt 3]), (28, 3097, Some 127));
  ((glms_euler_yzx_quat, [Struct Flt 3]), (28, 3097, Some 127));
  ((glms_euler_zxy_quat, [Struct Flt 3]), (28, 3097, Some 127));
  ((glms_euler_zyx_quat, [Struct Flt 3]), (28, 3097, Some 127));
  ((glms_mat3_textrans, [Float; Float; Float; Float; Float]), (4, 3024, Some 69));
  ((glms_mat4_textrans, [Float; Float; Float; Float; Float]), (4, 3024, Some 69));
  ((glms_vec2_rotate, [Struct Flt 2; Float]), (12, 8096, Some 141));
  ((glm_vec2_rotate, [Reads Flt 2; Float; Writes 2]), (12, 8096, Some 141));
  ((sse2.sse2_glm_mat4_textrans, [Float; Float; Float; Float; Float; Writes 16]), (4, 3024, Some 69));
  ((sse2.sse2_glm_rotate_x, [Reads Flt 16; Float; Writes 16]), (12, 8096, Some 141));
  ((sse2.sse2_glm_rotate_y, [Reads Flt 16; Float; Writes 16]), (12, 8096, Some 141));
  ((sse2.sse2_glm_rotate_z, [Reads Flt 16; Float; Writes 16]), (12, 8096, Some 141));
  ((sse2.sse2_glm_rotated_x, [Reads Flt 16; Float; Writes 16]), (12, 8096, Some 141));
  ((sse2.sse2_glm_rotated_y, [Reads Flt 16; Float; Writes 16]), (12, 8096, Some 141));
  ((sse2.sse2_glm_rotated_z, [Reads Flt 16; Float; Writes 16]), (12, 8096, Some 141));
  ((avx.avx_glm_mat4_textrans, [Float; Float; Float; Float; Float; Writes 16]), (4, 3024, Some 69));
  ((avx.avx_glm_rotate_x, [Reads Flt 16; Float; Writes 16]), (12, 8096, Some 141));
  ((avx.avx_glm_rotate_y, [Reads Flt 16; Float; Writes 16]), (12, 8096, Some 141));
  ((avx.avx_glm_rotate_z, [Reads Flt 16; Float; Writes 16]), (12, 8096, Some 141));
  ((avx.avx_glm_rotated_x, [Reads Flt 16; Float; Writes 16]), (12, 8096, Some 141));
  ((avx.avx_glm_rotated_y, [Reads Flt 16; Float; Writes 16]), (12, 8096, Some 141));
  ((avx.avx_glm_rotated_z, [Reads Flt 16; Float; Writes 16]), (12, 8096, Some 141));
  ((fma.fma_glm_mat4_textrans, [Float; Float; Float; Float; Float; Writes 16]), (4, 3024, Some 69));
  ((fma.fma_glm_rotate_x, [Reads Flt 16; Float; Writes 16]), (10, 7072, Some 139));
  ((fma.fma_glm_rotate_y, [Reads Flt 16; Float; Writes 16]), (12, 8096, Some 141));
  ((fma.fma_glm_rotate_z, [Reads Flt 16; Float; Writes 16]), (14, 9120, Some 143));
  ((fma.fma_glm_rotated_x, [Reads Flt 16; Float; Writes 16]), (10, 7072, Some 139));
  ((fma.fma_glm_rotated_y, [Reads Flt 16; Float; Writes 16]), (12, 8096, Some 141));
  ((fma.fma_glm_rotated_z, [Reads Flt 16; Float; Writes 16]), (14, 9120, Some 143));
  ((neon.neon_glm_mat4_textrans, [Float; Float; Float; Float; Float; Writes 16]), (4, 3024, Some 69));
  ((neon.neon_glm_rotate_x, [Reads Flt 16; Float; Writes 16]), (10, 7072, Some 139));
  ((neon.neon_glm_rotate_y, [Reads Flt 16; Float; Writes 16]), (12, 8096, Some 141));
  ((neon.neon_glm_rotate_z, [Reads Flt 16; Float; Writes 16]), (14, 9120, Some 143));
  ((neon.neon_glm_rotated_x, [Reads Flt 16; Float; Writes 16]), (10, 7072, Some 139));
  ((neon.neon_glm_rotated_y, [Reads Flt 16; Float; Writes 16]), (12, 8096, Some 141));
  ((neon.neon_glm_rotated_z, [Reads Flt 16; Float; Writes 16]), (14, 9120, Some 143));
  ((neon32.neon32_glm_mat4_textrans, [Float; Float; Float; Float; Float; Writes 16]), (4, 3024, Some 69));
  ((neon32.neon32_glm_rotate_x, [Reads Flt 16; Float; Writes 16]), (12, 8096, Some 141));
  ((neon32.neon32_glm_rotate_y, [Reads Flt 16; Float; Writes 16]), (12, 8096, Some 141));
  ((neon32.neon32_glm_rotate_z, [Reads Flt 16; Float; Writes 16]), (12, 8096, Some 141));
  ((neon32.neon32_glm_rotated_x, [Reads Flt 16; Float; Writes 16]), (12, 8096, Some 141));
  ((neon32.neon32_glm_rotated_y, [Reads Flt 16; Float; Writes 16]), (12, 8096, Some 141));
  ((neon32.neon32_glm_rotated_z, [Reads Flt 16; Float; Writes 16]), (12, 8096, Some 141));
  ((wasm.wasm_glm_mat4_textrans, [Float; Float; Float; Float; Float; Writes 16]), (4, 3024, Some 69));
  ((wasm.wasm_glm_rotate_x, [Reads Flt 16; Float; Writes 16]), (12, 8096, Some 141));
  ((wasm.wasm_glm_rotate_y, [Reads Flt 16; Float; Writes 16]), (12, 8096, Some 141));
  ((wasm.wasm_glm_rotate_z, [Reads Flt 16; Float; Writes 16]), (12, 8096, Some 141));
  ((wasm.wasm_glm_rotated_x, [Reads Flt 16; Float; Writes 16]), (12, 8096, Some 141));
  ((wasm.wasm_glm_rotated_y, [Reads Flt 16; Float; Writes 16]), (12, 8096, Some 141));
  ((wasm.wasm_glm_rotated_z, [Reads Flt 16; Float; Writes 16]), (12, 8096, Some 141))
 ].
