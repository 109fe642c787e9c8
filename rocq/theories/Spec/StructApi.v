(** * The struct functions and the array functions of the same name

    Written by tools/structapi.py.  The array function is the one of the same name, except
    that glms_scale, glms_scale2d and glms_quat_normalize correspond to the "_to" functions,
    glms_rotate2d_to to glm_rotate2d, glms_quat_imagn to glm_normalize_to and
    glms_vec3_flipsign to glm_vec3_negate. *)

From Coq Require Import String List.
From Verif Require Import MiniC Cglm.
From Verif.Gen Require Export struct_affine struct_affine2d struct_affine_mat struct_affine_post struct_affine_pre struct_box struct_cam struct_clipspace_ortho_lh_no struct_clipspace_ortho_lh_zo struct_clipspace_ortho_rh_no struct_clipspace_ortho_rh_zo struct_clipspace_persp_lh_no struct_clipspace_persp_lh_zo struct_clipspace_persp_rh_no struct_clipspace_persp_rh_zo struct_clipspace_project_no struct_clipspace_project_zo struct_clipspace_view_lh_no struct_clipspace_view_lh_zo struct_clipspace_view_rh_no struct_clipspace_view_rh_zo struct_color struct_curve struct_euler struct_frustum struct_ivec2 struct_ivec3 struct_ivec4 struct_mat2 struct_mat2x3 struct_mat2x4 struct_mat3 struct_mat3x2 struct_mat3x4 struct_mat4 struct_mat4x2 struct_mat4x3 struct_noise struct_plane struct_project struct_quat struct_ray struct_sphere struct_vec2 struct_vec2_ext struct_vec3 struct_vec3_ext struct_vec4 struct_vec4_ext.
From Verif.Spec Require Export StructPass.
Import ListNotations.

Definition struct_api : list (fundef * fundef * result) := [
  (glms_translate_make, glm_translate_make, DestFirst 16);
  (glms_scale_make, glm_scale_make, DestFirst 16);
  (glms_scale, glm_scale_to, Dest 16);
  (glms_scale_uni, glm_scale_uni, InPlace 0);
  (glms_rotate_make, glm_rotate_make, DestFirst 16);
  (glms_rotate_atm, glm_rotate_atm, DestFirst 16);
  (glms_decompose_scalev, glm_decompose_scalev, Dest 3);
  (glms_uniscaled, glm_uniscaled, Returned);
  (glms_decompose_rs, glm_decompose_rs, Nothing);
  (glms_decompose, glm_decompose, Nothing);
  (glms_translate2d, glm_translate2d, InPlace 0);
  (glms_translate2d_x, glm_translate2d_x, InPlace 0);
  (glms_translate2d_y, glm_translate2d_y, InPlace 0);
  (glms_translate2d_make, glm_translate2d_make, DestFirst 9);
  (glms_scale2d_make, glm_scale2d_make, DestFirst 9);
  (glms_scale2d, glm_scale2d_to, Dest 9);
  (glms_scale2d_uni, glm_scale2d_uni, InPlace 0);
  (glms_rotate2d_make, glm_rotate2d_make, DestFirst 9);
  (glms_rotate2d, glm_rotate2d, InPlace 0);
  (glms_rotate2d_to, glm_rotate2d, InPlace 0);
  (glms_mul, glm_mul, Dest 16);
  (glms_mul_rot, glm_mul_rot, Dest 16);
  (glms_inv_tr, glm_inv_tr, InPlace 0);
  (glms_translated, glm_translated, InPlace 0);
  (glms_translated_x, glm_translated_x, InPlace 0);
  (glms_translated_y, glm_translated_y, InPlace 0);
  (glms_translated_z, glm_translated_z, InPlace 0);
  (glms_rotated_x, glm_rotated_x, Dest 16);
  (glms_rotated_y, glm_rotated_y, Dest 16);
  (glms_rotated_z, glm_rotated_z, Dest 16);
  (glms_rotated, glm_rotated, InPlace 0);
  (glms_rotated_at, glm_rotated_at, InPlace 0);
  (glms_spinned, glm_spinned, InPlace 0);
  (glms_translate, glm_translate, InPlace 0);
  (glms_translate_x, glm_translate_x, InPlace 0);
  (glms_translate_y, glm_translate_y, InPlace 0);
  (glms_translate_z, glm_translate_z, InPlace 0);
  (glms_rotate_x, glm_rotate_x, Dest 16);
  (glms_rotate_y, glm_rotate_y, Dest 16);
  (glms_rotate_z, glm_rotate_z, Dest 16);
  (glms_rotate, glm_rotate, InPlace 0);
  (glms_rotate_at, glm_rotate_at, InPlace 0);
  (glms_spin, glm_spin, InPlace 0);
  (glms_ortho_lh_no, glm_ortho_lh_no, Dest 16);
  (glms_ortho_default_lh_no, glm_ortho_default_lh_no, Dest 16);
  (glms_ortho_default_s_lh_no, glm_ortho_default_s_lh_no, Dest 16);
  (glms_ortho_lh_zo, glm_ortho_lh_zo, Dest 16);
  (glms_ortho_default_lh_zo, glm_ortho_default_lh_zo, Dest 16);
  (glms_ortho_default_s_lh_zo, glm_ortho_default_s_lh_zo, Dest 16);
  (glms_ortho_rh_no, glm_ortho_rh_no, Dest 16);
  (glms_ortho_default_rh_no, glm_ortho_default_rh_no, Dest 16);
  (glms_ortho_default_s_rh_no, glm_ortho_default_s_rh_no, Dest 16);
  (glms_ortho_rh_zo, glm_ortho_rh_zo, Dest 16);
  (glms_ortho_default_rh_zo, glm_ortho_default_rh_zo, Dest 16);
  (glms_ortho_default_s_rh_zo, glm_ortho_default_s_rh_zo, Dest 16);
  (glms_frustum_lh_no, glm_frustum_lh_no, Dest 16);
  (glms_perspective_lh_no, glm_perspective_lh_no, Dest 16);
  (glms_perspective_default_lh_no, glm_perspective_default_lh_no, Dest 16);
  (glms_persp_decomp_lh_no, glm_persp_decomp_lh_no, Nothing);
  (glms_persp_decompv_lh_no, glm_persp_decompv_lh_no, Nothing);
  (glms_persp_decomp_x_lh_no, glm_persp_decomp_x_lh_no, Nothing);
  (glms_persp_decomp_y_lh_no, glm_persp_decomp_y_lh_no, Nothing);
  (glms_persp_decomp_z_lh_no, glm_persp_decomp_z_lh_no, Nothing);
  (glms_persp_decomp_far_lh_no, glm_persp_decomp_far_lh_no, Nothing);
  (glms_persp_decomp_near_lh_no, glm_persp_decomp_near_lh_no, Nothing);
  (glms_persp_fovy_lh_no, glm_persp_fovy_lh_no, Returned);
  (glms_persp_aspect_lh_no, glm_persp_aspect_lh_no, Returned);
  (glms_persp_sizes_lh_no, glm_persp_sizes_lh_no, Dest 4);
  (glms_frustum_lh_zo, glm_frustum_lh_zo, Dest 16);
  (glms_perspective_lh_zo, glm_perspective_lh_zo, Dest 16);
  (glms_perspective_default_lh_zo, glm_perspective_default_lh_zo, Dest 16);
  (glms_persp_decomp_lh_zo, glm_persp_decomp_lh_zo, Nothing);
  (glms_persp_decompv_lh_zo, glm_persp_decompv_lh_zo, Nothing);
  (glms_persp_decomp_x_lh_zo, glm_persp_decomp_x_lh_zo, Nothing);
  (glms_persp_decomp_y_lh_zo, glm_persp_decomp_y_lh_zo, Nothing);
  (glms_persp_decomp_z_lh_zo, glm_persp_decomp_z_lh_zo, Nothing);
  (glms_persp_decomp_far_lh_zo, glm_persp_decomp_far_lh_zo, Nothing);
  (glms_persp_decomp_near_lh_zo, glm_persp_decomp_near_lh_zo, Nothing);
  (glms_persp_fovy_lh_zo, glm_persp_fovy_lh_zo, Returned);
  (glms_persp_aspect_lh_zo, glm_persp_aspect_lh_zo, Returned);
  (glms_persp_sizes_lh_zo, glm_persp_sizes_lh_zo, Dest 4);
  (glms_frustum_rh_no, glm_frustum_rh_no, Dest 16);
  (glms_perspective_rh_no, glm_perspective_rh_no, Dest 16);
  (glms_perspective_default_rh_no, glm_perspective_default_rh_no, Dest 16);
  (glms_persp_decomp_rh_no, glm_persp_decomp_rh_no, Nothing);
  (glms_persp_decompv_rh_no, glm_persp_decompv_rh_no, Nothing);
  (glms_persp_decomp_x_rh_no, glm_persp_decomp_x_rh_no, Nothing);
  (glms_persp_decomp_y_rh_no, glm_persp_decomp_y_rh_no, Nothing);
  (glms_persp_decomp_z_rh_no, glm_persp_decomp_z_rh_no, Nothing);
  (glms_persp_decomp_far_rh_no, glm_persp_decomp_far_rh_no, Nothing);
  (glms_persp_decomp_near_rh_no, glm_persp_decomp_near_rh_no, Nothing);
  (glms_persp_fovy_rh_no, glm_persp_fovy_rh_no, Returned);
  (glms_persp_aspect_rh_no, glm_persp_aspect_rh_no, Returned);
  (glms_persp_sizes_rh_no, glm_persp_sizes_rh_no, Dest 4);
  (glms_frustum_rh_zo, glm_frustum_rh_zo, Dest 16);
  (glms_perspective_rh_zo, glm_perspective_rh_zo, Dest 16);
  (glms_perspective_default_rh_zo, glm_perspective_default_rh_zo, Dest 16);
  (glms_persp_decomp_rh_zo, glm_persp_decomp_rh_zo, Nothing);
  (glms_persp_decompv_rh_zo, glm_persp_decompv_rh_zo, Nothing);
  (glms_persp_decomp_x_rh_zo, glm_persp_decomp_x_rh_zo, Nothing);
  (glms_persp_decomp_y_rh_zo, glm_persp_decomp_y_rh_zo, Nothing);
  (glms_persp_decomp_z_rh_zo, glm_persp_decomp_z_rh_zo, Nothing);
  (glms_persp_decomp_far_rh_zo, glm_persp_decomp_far_rh_zo, Nothing);
  (glms_persp_decomp_near_rh_zo, glm_persp_decomp_near_rh_zo, Nothing);
  (glms_persp_fovy_rh_zo, glm_persp_fovy_rh_zo, Returned);
  (glms_persp_aspect_rh_zo, glm_persp_aspect_rh_zo, Returned);
  (glms_persp_sizes_rh_zo, glm_persp_sizes_rh_zo, Dest 4);
  (glms_unprojecti_no, glm_unprojecti_no, Dest 3);
  (glms_project_no, glm_project_no, Dest 3);
  (glms_project_z_no, glm_project_z_no, Returned);
  (glms_unprojecti_zo, glm_unprojecti_zo, Dest 3);
  (glms_project_zo, glm_project_zo, Dest 3);
  (glms_project_z_zo, glm_project_z_zo, Returned);
  (glms_lookat_lh_no, glm_lookat_lh_no, Dest 16);
  (glms_look_lh_no, glm_look_lh_no, Dest 16);
  (glms_look_anyup_lh_no, glm_look_anyup_lh_no, Dest 16);
  (glms_lookat_lh_zo, glm_lookat_lh_zo, Dest 16);
  (glms_look_lh_zo, glm_look_lh_zo, Dest 16);
  (glms_look_anyup_lh_zo, glm_look_anyup_lh_zo, Dest 16);
  (glms_lookat_rh_no, glm_lookat_rh_no, Dest 16);
  (glms_look_rh_no, glm_look_rh_no, Dest 16);
  (glms_look_anyup_rh_no, glm_look_anyup_rh_no, Dest 16);
  (glms_lookat_rh_zo, glm_lookat_rh_zo, Dest 16);
  (glms_look_rh_zo, glm_look_rh_zo, Dest 16);
  (glms_look_anyup_rh_zo, glm_look_anyup_rh_zo, Dest 16);
  (glms_luminance, glm_luminance, Returned);
  (glms_smc, glm_smc, Returned);
  (glms_euler_angles, glm_euler_angles, Dest 3);
  (glms_euler_xyz, glm_euler_xyz, Dest 16);
  (glms_euler_xzy, glm_euler_xzy, Dest 16);
  (glms_euler_yxz, glm_euler_yxz, Dest 16);
  (glms_euler_yzx, glm_euler_yzx, Dest 16);
  (glms_euler_zxy, glm_euler_zxy, Dest 16);
  (glms_euler_zyx, glm_euler_zyx, Dest 16);
  (glms_euler_by_order, glm_euler_by_order, Dest 16);
  (glms_euler_xyz_quat, glm_euler_xyz_quat, Dest 4);
  (glms_euler_xzy_quat, glm_euler_xzy_quat, Dest 4);
  (glms_euler_yxz_quat, glm_euler_yxz_quat, Dest 4);
  (glms_euler_yzx_quat, glm_euler_yzx_quat, Dest 4);
  (glms_euler_zxy_quat, glm_euler_zxy_quat, Dest 4);
  (glms_euler_zyx_quat, glm_euler_zyx_quat, Dest 4);
  (glms_ivec2, glm_ivec2, Dest 2);
  (glms_ivec2_zero, glm_ivec2_zero, Dest 2);
  (glms_ivec2_one, glm_ivec2_one, Dest 2);
  (glms_ivec2_dot, glm_ivec2_dot, Returned);
  (glms_ivec2_cross, glm_ivec2_cross, Returned);
  (glms_ivec2_add, glm_ivec2_add, Dest 2);
  (glms_ivec2_adds, glm_ivec2_adds, Dest 2);
  (glms_ivec2_sub, glm_ivec2_sub, Dest 2);
  (glms_ivec2_subs, glm_ivec2_subs, Dest 2);
  (glms_ivec2_mul, glm_ivec2_mul, Dest 2);
  (glms_ivec2_scale, glm_ivec2_scale, Dest 2);
  (glms_ivec2_div, glm_ivec2_div, Dest 2);
  (glms_ivec2_divs, glm_ivec2_divs, Dest 2);
  (glms_ivec2_mod, glm_ivec2_mod, Dest 2);
  (glms_ivec2_addadd, glm_ivec2_addadd, InPlace 2);
  (glms_ivec2_addadds, glm_ivec2_addadds, InPlace 2);
  (glms_ivec2_subadd, glm_ivec2_subadd, InPlace 2);
  (glms_ivec2_subadds, glm_ivec2_subadds, InPlace 2);
  (glms_ivec2_muladd, glm_ivec2_muladd, InPlace 2);
  (glms_ivec2_muladds, glm_ivec2_muladds, InPlace 2);
  (glms_ivec2_maxadd, glm_ivec2_maxadd, InPlace 2);
  (glms_ivec2_minadd, glm_ivec2_minadd, InPlace 2);
  (glms_ivec2_subsub, glm_ivec2_subsub, InPlace 2);
  (glms_ivec2_subsubs, glm_ivec2_subsubs, InPlace 2);
  (glms_ivec2_addsub, glm_ivec2_addsub, InPlace 2);
  (glms_ivec2_addsubs, glm_ivec2_addsubs, InPlace 2);
  (glms_ivec2_mulsub, glm_ivec2_mulsub, InPlace 2);
  (glms_ivec2_mulsubs, glm_ivec2_mulsubs, InPlace 2);
  (glms_ivec2_maxsub, glm_ivec2_maxsub, InPlace 2);
  (glms_ivec2_minsub, glm_ivec2_minsub, InPlace 2);
  (glms_ivec2_distance2, glm_ivec2_distance2, Returned);
  (glms_ivec2_distance, glm_ivec2_distance, Returned);
  (glms_ivec2_fill, glm_ivec2_fill, DestFirst 2);
  (glms_ivec2_eq, glm_ivec2_eq, Returned);
  (glms_ivec2_eqv, glm_ivec2_eqv, Returned);
  (glms_ivec2_maxv, glm_ivec2_maxv, Dest 2);
  (glms_ivec2_minv, glm_ivec2_minv, Dest 2);
  (glms_ivec2_clamp, glm_ivec2_clamp, InPlace 0);
  (glms_ivec2_abs, glm_ivec2_abs, Dest 2);
  (glms_ivec3, glm_ivec3, Dest 3);
  (glms_ivec3_zero, glm_ivec3_zero, Dest 3);
  (glms_ivec3_one, glm_ivec3_one, Dest 3);
  (glms_ivec3_dot, glm_ivec3_dot, Returned);
  (glms_ivec3_norm2, glm_ivec3_norm2, Returned);
  (glms_ivec3_norm, glm_ivec3_norm, Returned);
  (glms_ivec3_add, glm_ivec3_add, Dest 3);
  (glms_ivec3_adds, glm_ivec3_adds, Dest 3);
  (glms_ivec3_sub, glm_ivec3_sub, Dest 3);
  (glms_ivec3_subs, glm_ivec3_subs, Dest 3);
  (glms_ivec3_mul, glm_ivec3_mul, Dest 3);
  (glms_ivec3_scale, glm_ivec3_scale, Dest 3);
  (glms_ivec3_div, glm_ivec3_div, Dest 3);
  (glms_ivec3_divs, glm_ivec3_divs, Dest 3);
  (glms_ivec3_mod, glm_ivec3_mod, Dest 3);
  (glms_ivec3_addadd, glm_ivec3_addadd, InPlace 2);
  (glms_ivec3_addadds, glm_ivec3_addadds, InPlace 2);
  (glms_ivec3_subadd, glm_ivec3_subadd, InPlace 2);
  (glms_ivec3_subadds, glm_ivec3_subadds, InPlace 2);
  (glms_ivec3_muladd, glm_ivec3_muladd, InPlace 2);
  (glms_ivec3_muladds, glm_ivec3_muladds, InPlace 2);
  (glms_ivec3_maxadd, glm_ivec3_maxadd, InPlace 2);
  (glms_ivec3_minadd, glm_ivec3_minadd, InPlace 2);
  (glms_ivec3_subsub, glm_ivec3_subsub, InPlace 2);
  (glms_ivec3_subsubs, glm_ivec3_subsubs, InPlace 2);
  (glms_ivec3_addsub, glm_ivec3_addsub, InPlace 2);
  (glms_ivec3_addsubs, glm_ivec3_addsubs, InPlace 2);
  (glms_ivec3_mulsub, glm_ivec3_mulsub, InPlace 2);
  (glms_ivec3_mulsubs, glm_ivec3_mulsubs, InPlace 2);
  (glms_ivec3_maxsub, glm_ivec3_maxsub, InPlace 2);
  (glms_ivec3_minsub, glm_ivec3_minsub, InPlace 2);
  (glms_ivec3_distance2, glm_ivec3_distance2, Returned);
  (glms_ivec3_distance, glm_ivec3_distance, Returned);
  (glms_ivec3_fill, glm_ivec3_fill, DestFirst 3);
  (glms_ivec3_eq, glm_ivec3_eq, Returned);
  (glms_ivec3_eqv, glm_ivec3_eqv, Returned);
  (glms_ivec3_maxv, glm_ivec3_maxv, Dest 3);
  (glms_ivec3_minv, glm_ivec3_minv, Dest 3);
  (glms_ivec3_clamp, glm_ivec3_clamp, InPlace 0);
  (glms_ivec3_abs, glm_ivec3_abs, Dest 3);
  (glms_ivec4, glm_ivec4, Dest 4);
  (glms_ivec4_zero, glm_ivec4_zero, Dest 4);
  (glms_ivec4_one, glm_ivec4_one, Dest 4);
  (glms_ivec4_add, glm_ivec4_add, Dest 4);
  (glms_ivec4_adds, glm_ivec4_adds, Dest 4);
  (glms_ivec4_sub, glm_ivec4_sub, Dest 4);
  (glms_ivec4_subs, glm_ivec4_subs, Dest 4);
  (glms_ivec4_mul, glm_ivec4_mul, Dest 4);
  (glms_ivec4_scale, glm_ivec4_scale, Dest 4);
  (glms_ivec4_addadd, glm_ivec4_addadd, InPlace 2);
  (glms_ivec4_addadds, glm_ivec4_addadds, InPlace 2);
  (glms_ivec4_subadd, glm_ivec4_subadd, InPlace 2);
  (glms_ivec4_subadds, glm_ivec4_subadds, InPlace 2);
  (glms_ivec4_muladd, glm_ivec4_muladd, InPlace 2);
  (glms_ivec4_muladds, glm_ivec4_muladds, InPlace 2);
  (glms_ivec4_maxadd, glm_ivec4_maxadd, InPlace 2);
  (glms_ivec4_minadd, glm_ivec4_minadd, InPlace 2);
  (glms_ivec4_subsub, glm_ivec4_subsub, InPlace 2);
  (glms_ivec4_subsubs, glm_ivec4_subsubs, InPlace 2);
  (glms_ivec4_addsub, glm_ivec4_addsub, InPlace 2);
  (glms_ivec4_addsubs, glm_ivec4_addsubs, InPlace 2);
  (glms_ivec4_mulsub, glm_ivec4_mulsub, InPlace 2);
  (glms_ivec4_mulsubs, glm_ivec4_mulsubs, InPlace 2);
  (glms_ivec4_maxsub, glm_ivec4_maxsub, InPlace 2);
  (glms_ivec4_minsub, glm_ivec4_minsub, InPlace 2);
  (glms_ivec4_distance2, glm_ivec4_distance2, Returned);
  (glms_ivec4_distance, glm_ivec4_distance, Returned);
  (glms_ivec4_maxv, glm_ivec4_maxv, Dest 4);
  (glms_ivec4_minv, glm_ivec4_minv, Dest 4);
  (glms_ivec4_clamp, glm_ivec4_clamp, InPlace 0);
  (glms_ivec4_abs, glm_ivec4_abs, Dest 4);
  (glms_mat2_make, glm_mat2_make, Dest 4);
  (glms_mat2_identity, glm_mat2_identity, Dest 4);
  (glms_mat2_zero, glm_mat2_zero, Dest 4);
  (glms_mat2_mul, glm_mat2_mul, Dest 4);
  (glms_mat2_mulv, glm_mat2_mulv, Dest 2);
  (glms_mat2_transpose, glm_mat2_transpose, InPlace 0);
  (glms_mat2_scale, glm_mat2_scale, InPlace 0);
  (glms_mat2_inv, glm_mat2_inv, Dest 4);
  (glms_mat2_swap_col, glm_mat2_swap_col, InPlace 0);
  (glms_mat2_swap_row, glm_mat2_swap_row, InPlace 0);
  (glms_mat2_det, glm_mat2_det, Returned);
  (glms_mat2_trace, glm_mat2_trace, Returned);
  (glms_mat2_rmc, glm_mat2_rmc, Returned);
  (glms_mat2x3_zero, glm_mat2x3_zero, Dest 6);
  (glms_mat2x3_make, glm_mat2x3_make, Dest 6);
  (glms_mat2x3_mul, glm_mat2x3_mul, Dest 9);
  (glms_mat2x3_mulv, glm_mat2x3_mulv, Dest 3);
  (glms_mat2x3_transpose, glm_mat2x3_transpose, Dest 6);
  (glms_mat2x3_scale, glm_mat2x3_scale, InPlace 0);
  (glms_mat2x4_zero, glm_mat2x4_zero, Dest 8);
  (glms_mat2x4_make, glm_mat2x4_make, Dest 8);
  (glms_mat2x4_mul, glm_mat2x4_mul, Dest 16);
  (glms_mat2x4_mulv, glm_mat2x4_mulv, Dest 4);
  (glms_mat2x4_transpose, glm_mat2x4_transpose, Dest 8);
  (glms_mat2x4_scale, glm_mat2x4_scale, InPlace 0);
  (glms_mat3_copy, glm_mat3_copy, Dest 9);
  (glms_mat3_identity, glm_mat3_identity, Dest 9);
  (glms_mat3_zero, glm_mat3_zero, Dest 9);
  (glms_mat3_mul, glm_mat3_mul, Dest 9);
  (glms_mat3_transpose, glm_mat3_transpose, InPlace 0);
  (glms_mat3_mulv, glm_mat3_mulv, Dest 3);
  (glms_mat3_trace, glm_mat3_trace, Returned);
  (glms_mat3_quat, glm_mat3_quat, Dest 4);
  (glms_mat3_scale, glm_mat3_scale, InPlace 0);
  (glms_mat3_det, glm_mat3_det, Returned);
  (glms_mat3_inv, glm_mat3_inv, Dest 9);
  (glms_mat3_swap_col, glm_mat3_swap_col, InPlace 0);
  (glms_mat3_swap_row, glm_mat3_swap_row, InPlace 0);
  (glms_mat3_rmc, glm_mat3_rmc, Returned);
  (glms_mat3_make, glm_mat3_make, Dest 9);
  (glms_mat3_textrans, glm_mat3_textrans, Dest 9);
  (glms_mat3x2_zero, glm_mat3x2_zero, Dest 6);
  (glms_mat3x2_make, glm_mat3x2_make, Dest 6);
  (glms_mat3x2_mul, glm_mat3x2_mul, Dest 4);
  (glms_mat3x2_mulv, glm_mat3x2_mulv, Dest 2);
  (glms_mat3x2_transpose, glm_mat3x2_transpose, Dest 6);
  (glms_mat3x2_scale, glm_mat3x2_scale, InPlace 0);
  (glms_mat3x4_zero, glm_mat3x4_zero, Dest 12);
  (glms_mat3x4_make, glm_mat3x4_make, Dest 12);
  (glms_mat3x4_mul, glm_mat3x4_mul, Dest 16);
  (glms_mat3x4_mulv, glm_mat3x4_mulv, Dest 4);
  (glms_mat3x4_transpose, glm_mat3x4_transpose, Dest 12);
  (glms_mat3x4_scale, glm_mat3x4_scale, InPlace 0);
  (glms_mat4_ucopy, glm_mat4_ucopy, Dest 16);
  (glms_mat4_copy, glm_mat4_copy, Dest 16);
  (glms_mat4_identity, glm_mat4_identity, Dest 16);
  (glms_mat4_zero, glm_mat4_zero, Dest 16);
  (glms_mat4_pick3, glm_mat4_pick3, Dest 9);
  (glms_mat4_pick3t, glm_mat4_pick3t, Dest 9);
  (glms_mat4_ins3, glm_mat4_ins3, InPlace 1);
  (glms_mat4_mul, glm_mat4_mul, Dest 16);
  (glms_mat4_mulv, glm_mat4_mulv, Dest 4);
  (glms_mat4_trace, glm_mat4_trace, Returned);
  (glms_mat4_trace3, glm_mat4_trace3, Returned);
  (glms_mat4_quat, glm_mat4_quat, Dest 4);
  (glms_mat4_mulv3, glm_mat4_mulv3, Dest 3);
  (glms_mat4_transpose, glm_mat4_transpose, InPlace 0);
  (glms_mat4_scale_p, glm_mat4_scale_p, InPlace 0);
  (glms_mat4_scale, glm_mat4_scale, InPlace 0);
  (glms_mat4_det, glm_mat4_det, Returned);
  (glms_mat4_inv, glm_mat4_inv, Dest 16);
  (glms_mat4_inv_fast, glm_mat4_inv_fast, Dest 16);
  (glms_mat4_swap_col, glm_mat4_swap_col, InPlace 0);
  (glms_mat4_swap_row, glm_mat4_swap_row, InPlace 0);
  (glms_mat4_rmc, glm_mat4_rmc, Returned);
  (glms_mat4_make, glm_mat4_make, Dest 16);
  (glms_mat4_textrans, glm_mat4_textrans, Dest 16);
  (glms_mat4x2_zero, glm_mat4x2_zero, Dest 8);
  (glms_mat4x2_make, glm_mat4x2_make, Dest 8);
  (glms_mat4x2_mul, glm_mat4x2_mul, Dest 4);
  (glms_mat4x2_mulv, glm_mat4x2_mulv, Dest 2);
  (glms_mat4x2_transpose, glm_mat4x2_transpose, Dest 8);
  (glms_mat4x2_scale, glm_mat4x2_scale, InPlace 0);
  (glms_mat4x3_zero, glm_mat4x3_zero, Dest 12);
  (glms_mat4x3_make, glm_mat4x3_make, Dest 12);
  (glms_mat4x3_mul, glm_mat4x3_mul, Dest 9);
  (glms_mat4x3_mulv, glm_mat4x3_mulv, Dest 3);
  (glms_mat4x3_transpose, glm_mat4x3_transpose, Dest 12);
  (glms_mat4x3_scale, glm_mat4x3_scale, InPlace 0);
  (glms_perlin_vec4, glm_perlin_vec4, Returned);
  (glms_perlin_vec3, glm_perlin_vec3, Returned);
  (glms_perlin_vec2, glm_perlin_vec2, Returned);
  (glms_plane_normalize, glm_plane_normalize, InPlace 0);
  (glms_unprojecti, glm_unprojecti, Dest 3);
  (glms_unproject, glm_unproject, Dest 3);
  (glms_project, glm_project, Dest 3);
  (glms_pickmatrix, glm_pickmatrix, Dest 16);
  (glms_quat_identity, glm_quat_identity, Dest 4);
  (glms_quat_init, glm_quat_init, DestFirst 4);
  (glms_quatv, glm_quatv, DestFirst 4);
  (glms_quat, glm_quat, DestFirst 4);
  (glms_quat_from_vecs, glm_quat_from_vecs, Dest 4);
  (glms_quat_norm, glm_quat_norm, Returned);
  (glms_quat_normalize, glm_quat_normalize_to, Dest 4);
  (glms_quat_dot, glm_quat_dot, Returned);
  (glms_quat_conjugate, glm_quat_conjugate, Dest 4);
  (glms_quat_inv, glm_quat_inv, Dest 4);
  (glms_quat_add, glm_quat_add, Dest 4);
  (glms_quat_sub, glm_quat_sub, Dest 4);
  (glms_quat_imagn, glm_normalize_to, Dest 3);
  (glms_quat_imaglen, glm_quat_imaglen, Returned);
  (glms_quat_angle, glm_quat_angle, Returned);
  (glms_quat_axis, glm_quat_axis, Dest 3);
  (glms_quat_mul, glm_quat_mul, Dest 4);
  (glms_quat_mat4, glm_quat_mat4, Dest 16);
  (glms_quat_mat4t, glm_quat_mat4t, Dest 16);
  (glms_quat_mat3, glm_quat_mat3, Dest 9);
  (glms_quat_mat3t, glm_quat_mat3t, Dest 9);
  (glms_quat_lerp, glm_quat_lerp, Dest 4);
  (glms_quat_lerpc, glm_quat_lerpc, Dest 4);
  (glms_quat_nlerp, glm_quat_nlerp, Dest 4);
  (glms_quat_slerp, glm_quat_slerp, Dest 4);
  (glms_quat_slerp_longest, glm_quat_slerp_longest, Dest 4);
  (glms_quat_look, glm_quat_look, Dest 16);
  (glms_quat_for, glm_quat_for, Dest 4);
  (glms_quat_forp, glm_quat_forp, Dest 4);
  (glms_quat_rotatev, glm_quat_rotatev, Dest 3);
  (glms_quat_rotate_at, glm_quat_rotate_at, InPlace 0);
  (glms_quat_rotate_atm, glm_quat_rotate_atm, DestFirst 16);
  (glms_quat_make, glm_quat_make, Dest 4);
  (glms_ray_triangle, glm_ray_triangle, Returned);
  (glms_ray_sphere, glm_ray_sphere, Returned);
  (glms_ray_at, glm_ray_at, Dest 3);
  (glms_sphere_radii, glm_sphere_radii, Returned);
  (glms_sphere_transform, glm_sphere_transform, Dest 4);
  (glms_sphere_merge, glm_sphere_merge, Dest 4);
  (glms_sphere_sphere, glm_sphere_sphere, Returned);
  (glms_sphere_point, glm_sphere_point, Returned);
  (glms_vec2, glm_vec2, Dest 2);
  (glms_vec2_zero, glm_vec2_zero, Dest 2);
  (glms_vec2_one, glm_vec2_one, Dest 2);
  (glms_vec2_dot, glm_vec2_dot, Returned);
  (glms_vec2_cross, glm_vec2_cross, Returned);
  (glms_vec2_norm2, glm_vec2_norm2, Returned);
  (glms_vec2_norm, glm_vec2_norm, Returned);
  (glms_vec2_add, glm_vec2_add, Dest 2);
  (glms_vec2_adds, glm_vec2_adds, Dest 2);
  (glms_vec2_sub, glm_vec2_sub, Dest 2);
  (glms_vec2_subs, glm_vec2_subs, Dest 2);
  (glms_vec2_mul, glm_vec2_mul, Dest 2);
  (glms_vec2_scale, glm_vec2_scale, Dest 2);
  (glms_vec2_scale_as, glm_vec2_scale_as, Dest 2);
  (glms_vec2_div, glm_vec2_div, Dest 2);
  (glms_vec2_divs, glm_vec2_divs, Dest 2);
  (glms_vec2_addadd, glm_vec2_addadd, InPlace 2);
  (glms_vec2_subadd, glm_vec2_subadd, InPlace 2);
  (glms_vec2_muladd, glm_vec2_muladd, InPlace 2);
  (glms_vec2_muladds, glm_vec2_muladds, InPlace 2);
  (glms_vec2_maxadd, glm_vec2_maxadd, InPlace 2);
  (glms_vec2_minadd, glm_vec2_minadd, InPlace 2);
  (glms_vec2_subsub, glm_vec2_subsub, InPlace 2);
  (glms_vec2_addsub, glm_vec2_addsub, InPlace 2);
  (glms_vec2_mulsub, glm_vec2_mulsub, InPlace 2);
  (glms_vec2_mulsubs, glm_vec2_mulsubs, InPlace 2);
  (glms_vec2_maxsub, glm_vec2_maxsub, InPlace 2);
  (glms_vec2_minsub, glm_vec2_minsub, InPlace 2);
  (glms_vec2_negate, glm_vec2_negate, InPlace 0);
  (glms_vec2_normalize, glm_vec2_normalize, InPlace 0);
  (glms_vec2_rotate, glm_vec2_rotate, Dest 2);
  (glms_vec2_center, glm_vec2_center, Dest 2);
  (glms_vec2_distance, glm_vec2_distance, Returned);
  (glms_vec2_distance2, glm_vec2_distance2, Returned);
  (glms_vec2_maxv, glm_vec2_maxv, Dest 2);
  (glms_vec2_minv, glm_vec2_minv, Dest 2);
  (glms_vec2_clamp, glm_vec2_clamp, InPlace 0);
  (glms_vec2_lerp, glm_vec2_lerp, Dest 2);
  (glms_vec2_step, glm_vec2_step, Dest 2);
  (glms_vec2_make, glm_vec2_make, Dest 2);
  (glms_vec2_reflect, glm_vec2_reflect, Dest 2);
  (glms_vec2_refract, glm_vec2_refract, Returned);
  (glms_vec2_fill, glm_vec2_fill, DestFirst 2);
  (glms_vec2_eq, glm_vec2_eq, Returned);
  (glms_vec2_eq_eps, glm_vec2_eq_eps, Returned);
  (glms_vec2_eq_all, glm_vec2_eq_all, Returned);
  (glms_vec2_eqv, glm_vec2_eqv, Returned);
  (glms_vec2_eqv_eps, glm_vec2_eqv_eps, Returned);
  (glms_vec2_max, glm_vec2_max, Returned);
  (glms_vec2_min, glm_vec2_min, Returned);
  (glms_vec2_isnan, glm_vec2_isnan, Returned);
  (glms_vec2_isinf, glm_vec2_isinf, Returned);
  (glms_vec2_isvalid, glm_vec2_isvalid, Returned);
  (glms_vec2_sign, glm_vec2_sign, Dest 2);
  (glms_vec2_abs, glm_vec2_abs, Dest 2);
  (glms_vec2_fract, glm_vec2_fract, Dest 2);
  (glms_vec2_floor, glm_vec2_floor, Dest 2);
  (glms_vec2_mods, glm_vec2_mods, Dest 2);
  (glms_vec2_steps, glm_vec2_steps, Dest 2);
  (glms_vec2_stepr, glm_vec2_stepr, Dest 2);
  (glms_vec2_sqrt, glm_vec2_sqrt, Dest 2);
  (glms_vec2_complex_mul, glm_vec2_complex_mul, InPlace 2);
  (glms_vec2_complex_div, glm_vec2_complex_div, InPlace 2);
  (glms_vec2_complex_conjugate, glm_vec2_complex_conjugate, InPlace 1);
  (glms_vec3, glm_vec3, Dest 3);
  (glms_vec3_zero, glm_vec3_zero, Dest 3);
  (glms_vec3_one, glm_vec3_one, Dest 3);
  (glms_vec3_dot, glm_vec3_dot, Returned);
  (glms_vec3_norm2, glm_vec3_norm2, Returned);
  (glms_vec3_norm, glm_vec3_norm, Returned);
  (glms_vec3_norm_one, glm_vec3_norm_one, Returned);
  (glms_vec3_norm_inf, glm_vec3_norm_inf, Returned);
  (glms_vec3_add, glm_vec3_add, Dest 3);
  (glms_vec3_adds, glm_vec3_adds, Dest 3);
  (glms_vec3_sub, glm_vec3_sub, Dest 3);
  (glms_vec3_subs, glm_vec3_subs, Dest 3);
  (glms_vec3_mul, glm_vec3_mul, Dest 3);
  (glms_vec3_scale, glm_vec3_scale, Dest 3);
  (glms_vec3_scale_as, glm_vec3_scale_as, Dest 3);
  (glms_vec3_div, glm_vec3_div, Dest 3);
  (glms_vec3_divs, glm_vec3_divs, Dest 3);
  (glms_vec3_addadd, glm_vec3_addadd, InPlace 2);
  (glms_vec3_subadd, glm_vec3_subadd, InPlace 2);
  (glms_vec3_muladd, glm_vec3_muladd, InPlace 2);
  (glms_vec3_muladds, glm_vec3_muladds, InPlace 2);
  (glms_vec3_maxadd, glm_vec3_maxadd, InPlace 2);
  (glms_vec3_minadd, glm_vec3_minadd, InPlace 2);
  (glms_vec3_subsub, glm_vec3_subsub, InPlace 2);
  (glms_vec3_addsub, glm_vec3_addsub, InPlace 2);
  (glms_vec3_mulsub, glm_vec3_mulsub, InPlace 2);
  (glms_vec3_mulsubs, glm_vec3_mulsubs, InPlace 2);
  (glms_vec3_maxsub, glm_vec3_maxsub, InPlace 2);
  (glms_vec3_minsub, glm_vec3_minsub, InPlace 2);
  (glms_vec3_flipsign, glm_vec3_negate, InPlace 0);
  (glms_vec3_negate, glm_vec3_negate, InPlace 0);
  (glms_vec3_normalize, glm_vec3_normalize, InPlace 0);
  (glms_vec3_cross, glm_vec3_cross, Dest 3);
  (glms_vec3_crossn, glm_vec3_crossn, Dest 3);
  (glms_vec3_angle, glm_vec3_angle, Returned);
  (glms_vec3_rotate, glm_vec3_rotate, InPlace 0);
  (glms_vec3_rotate_m4, glm_vec3_rotate_m4, Dest 3);
  (glms_vec3_rotate_m3, glm_vec3_rotate_m3, Dest 3);
  (glms_vec3_proj, glm_vec3_proj, Dest 3);
  (glms_vec3_center, glm_vec3_center, Dest 3);
  (glms_vec3_distance, glm_vec3_distance, Returned);
  (glms_vec3_distance2, glm_vec3_distance2, Returned);
  (glms_vec3_maxv, glm_vec3_maxv, Dest 3);
  (glms_vec3_minv, glm_vec3_minv, Dest 3);
  (glms_vec3_ortho, glm_vec3_ortho, Dest 3);
  (glms_vec3_clamp, glm_vec3_clamp, InPlace 0);
  (glms_vec3_lerp, glm_vec3_lerp, Dest 3);
  (glms_vec3_lerpc, glm_vec3_lerpc, Dest 3);
  (glms_vec3_mix, glm_vec3_mix, Dest 3);
  (glms_vec3_mixc, glm_vec3_mixc, Dest 3);
  (glms_vec3_step, glm_vec3_step, Dest 3);
  (glms_vec3_smoothstep_uni, glm_vec3_smoothstep_uni, Dest 3);
  (glms_vec3_smoothstep, glm_vec3_smoothstep, Dest 3);
  (glms_vec3_smoothinterp, glm_vec3_smoothinterp, Dest 3);
  (glms_vec3_smoothinterpc, glm_vec3_smoothinterpc, Dest 3);
  (glms_cross, glm_cross, Dest 3);
  (glms_dot, glm_dot, Returned);
  (glms_normalize, glm_normalize, InPlace 0);
  (glms_vec3_swizzle, glm_vec3_swizzle, Dest 3);
  (glms_vec3_make, glm_vec3_make, Dest 3);
  (glms_vec3_faceforward, glm_vec3_faceforward, Dest 3);
  (glms_vec3_reflect, glm_vec3_reflect, Dest 3);
  (glms_vec3_refract, glm_vec3_refract, Returned);
  (glms_vec3_broadcast, glm_vec3_broadcast, Dest 3);
  (glms_vec3_fill, glm_vec3_fill, DestFirst 3);
  (glms_vec3_eq, glm_vec3_eq, Returned);
  (glms_vec3_eq_eps, glm_vec3_eq_eps, Returned);
  (glms_vec3_eq_all, glm_vec3_eq_all, Returned);
  (glms_vec3_eqv, glm_vec3_eqv, Returned);
  (glms_vec3_eqv_eps, glm_vec3_eqv_eps, Returned);
  (glms_vec3_max, glm_vec3_max, Returned);
  (glms_vec3_min, glm_vec3_min, Returned);
  (glms_vec3_isnan, glm_vec3_isnan, Returned);
  (glms_vec3_isinf, glm_vec3_isinf, Returned);
  (glms_vec3_isvalid, glm_vec3_isvalid, Returned);
  (glms_vec3_sign, glm_vec3_sign, Dest 3);
  (glms_vec3_abs, glm_vec3_abs, Dest 3);
  (glms_vec3_fract, glm_vec3_fract, Dest 3);
  (glms_vec3_floor, glm_vec3_floor, Dest 3);
  (glms_vec3_mods, glm_vec3_mods, Dest 3);
  (glms_vec3_steps, glm_vec3_steps, Dest 3);
  (glms_vec3_stepr, glm_vec3_stepr, Dest 3);
  (glms_vec3_hadd, glm_vec3_hadd, Returned);
  (glms_vec3_sqrt, glm_vec3_sqrt, Dest 3);
  (glms_vec4, glm_vec4, Dest 4);
  (glms_vec4_copy3, glm_vec4_copy3, Dest 3);
  (glms_vec4_copy, glm_vec4_copy, Dest 4);
  (glms_vec4_ucopy, glm_vec4_ucopy, Dest 4);
  (glms_vec4_zero, glm_vec4_zero, Dest 4);
  (glms_vec4_one, glm_vec4_one, Dest 4);
  (glms_vec4_dot, glm_vec4_dot, Returned);
  (glms_vec4_norm2, glm_vec4_norm2, Returned);
  (glms_vec4_norm, glm_vec4_norm, Returned);
  (glms_vec4_norm_one, glm_vec4_norm_one, Returned);
  (glms_vec4_norm_inf, glm_vec4_norm_inf, Returned);
  (glms_vec4_add, glm_vec4_add, Dest 4);
  (glms_vec4_adds, glm_vec4_adds, Dest 4);
  (glms_vec4_sub, glm_vec4_sub, Dest 4);
  (glms_vec4_subs, glm_vec4_subs, Dest 4);
  (glms_vec4_mul, glm_vec4_mul, Dest 4);
  (glms_vec4_scale, glm_vec4_scale, Dest 4);
  (glms_vec4_scale_as, glm_vec4_scale_as, Dest 4);
  (glms_vec4_div, glm_vec4_div, Dest 4);
  (glms_vec4_divs, glm_vec4_divs, Dest 4);
  (glms_vec4_addadd, glm_vec4_addadd, InPlace 2);
  (glms_vec4_subadd, glm_vec4_subadd, InPlace 2);
  (glms_vec4_muladd, glm_vec4_muladd, InPlace 2);
  (glms_vec4_muladds, glm_vec4_muladds, InPlace 2);
  (glms_vec4_maxadd, glm_vec4_maxadd, InPlace 2);
  (glms_vec4_minadd, glm_vec4_minadd, InPlace 2);
  (glms_vec4_subsub, glm_vec4_subsub, InPlace 2);
  (glms_vec4_addsub, glm_vec4_addsub, InPlace 2);
  (glms_vec4_mulsub, glm_vec4_mulsub, InPlace 2);
  (glms_vec4_mulsubs, glm_vec4_mulsubs, InPlace 2);
  (glms_vec4_maxsub, glm_vec4_maxsub, InPlace 2);
  (glms_vec4_minsub, glm_vec4_minsub, InPlace 2);
  (glms_vec4_negate, glm_vec4_negate, InPlace 0);
  (glms_vec4_normalize, glm_vec4_normalize, InPlace 0);
  (glms_vec4_distance, glm_vec4_distance, Returned);
  (glms_vec4_distance2, glm_vec4_distance2, Returned);
  (glms_vec4_maxv, glm_vec4_maxv, Dest 4);
  (glms_vec4_minv, glm_vec4_minv, Dest 4);
  (glms_vec4_clamp, glm_vec4_clamp, InPlace 0);
  (glms_vec4_lerp, glm_vec4_lerp, Dest 4);
  (glms_vec4_lerpc, glm_vec4_lerpc, Dest 4);
  (glms_vec4_mix, glm_vec4_mix, Dest 4);
  (glms_vec4_mixc, glm_vec4_mixc, Dest 4);
  (glms_vec4_step, glm_vec4_step, Dest 4);
  (glms_vec4_smoothstep_uni, glm_vec4_smoothstep_uni, Dest 4);
  (glms_vec4_smoothstep, glm_vec4_smoothstep, Dest 4);
  (glms_vec4_smoothinterp, glm_vec4_smoothinterp, Dest 4);
  (glms_vec4_smoothinterpc, glm_vec4_smoothinterpc, Dest 4);
  (glms_vec4_cubic, glm_vec4_cubic, Dest 4);
  (glms_vec4_swizzle, glm_vec4_swizzle, Dest 4);
  (glms_vec4_make, glm_vec4_make, Dest 4);
  (glms_vec4_reflect, glm_vec4_reflect, Dest 4);
  (glms_vec4_refract, glm_vec4_refract, Returned);
  (glms_vec4_broadcast, glm_vec4_broadcast, Dest 4);
  (glms_vec4_fill, glm_vec4_fill, DestFirst 4);
  (glms_vec4_eq, glm_vec4_eq, Returned);
  (glms_vec4_eq_eps, glm_vec4_eq_eps, Returned);
  (glms_vec4_eq_all, glm_vec4_eq_all, Returned);
  (glms_vec4_eqv, glm_vec4_eqv, Returned);
  (glms_vec4_eqv_eps, glm_vec4_eqv_eps, Returned);
  (glms_vec4_max, glm_vec4_max, Returned);
  (glms_vec4_min, glm_vec4_min, Returned);
  (glms_vec4_isnan, glm_vec4_isnan, Returned);
  (glms_vec4_isinf, glm_vec4_isinf, Returned);
  (glms_vec4_isvalid, glm_vec4_isvalid, Returned);
  (glms_vec4_sign, glm_vec4_sign, Dest 4);
  (glms_vec4_abs, glm_vec4_abs, Dest 4);
  (glms_vec4_fract, glm_vec4_fract, Dest 4);
  (glms_vec4_floor, glm_vec4_floor, Dest 4);
  (glms_vec4_mods, glm_vec4_mods, Dest 4);
  (glms_vec4_steps, glm_vec4_steps, Dest 4);
  (glms_vec4_stepr, glm_vec4_stepr, Dest 4);
  (glms_vec4_hadd, glm_vec4_hadd, Returned);
  (glms_vec4_sqrt, glm_vec4_sqrt, Dest 4)].

(** the functions of struct/cam.h and struct/project.h that stand for the default clip space *)
Definition struct_default : list (fundef * fundef) := [
  (glms_frustum, glms_frustum_rh_no);
  (glms_ortho, glms_ortho_rh_no);
  (glms_ortho_aabb, glms_ortho_aabb_rh_no);
  (glms_ortho_aabb_p, glms_ortho_aabb_p_rh_no);
  (glms_ortho_aabb_pz, glms_ortho_aabb_pz_rh_no);
  (glms_ortho_default, glms_ortho_default_rh_no);
  (glms_ortho_default_s, glms_ortho_default_s_rh_no);
  (glms_perspective, glms_perspective_rh_no);
  (glms_persp_move_far, glms_persp_move_far_rh_no);
  (glms_perspective_default, glms_perspective_default_rh_no);
  (glms_perspective_resize, glms_perspective_resize_rh_no);
  (glms_lookat, glms_lookat_rh_no);
  (glms_look, glms_look_rh_no);
  (glms_look_anyup, glms_look_anyup_rh_no);
  (glms_persp_decomp, glms_persp_decomp_rh_no);
  (glms_persp_decompv, glms_persp_decompv_rh_no);
  (glms_persp_decomp_x, glms_persp_decomp_x_rh_no);
  (glms_persp_decomp_y, glms_persp_decomp_y_rh_no);
  (glms_persp_decomp_z, glms_persp_decomp_z_rh_no);
  (glms_persp_decomp_far, glms_persp_decomp_far_rh_no);
  (glms_persp_decomp_near, glms_persp_decomp_near_rh_no);
  (glms_persp_fovy, glms_persp_fovy_rh_no);
  (glms_persp_aspect, glms_persp_aspect_rh_no);
  (glms_persp_sizes, glms_persp_sizes_rh_no);
  (glms_project_z, glms_project_z_no)].
