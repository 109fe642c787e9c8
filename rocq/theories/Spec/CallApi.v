(** * The exported functions and the inline functions of the same name

    Written by tools/callapi.py from the function names alone.  Three inline names are macros
    for another function (glm_mat4_inv_precise, glm_vec3_mulv, glm_vec4_mulv). *)

From Coq Require Import String List.
From Verif Require Import MiniC Cglm.
From Verif.Gen Require Export call_vec3 call_vec4 src_aabb2d src_affine src_affine2d src_bezier src_box src_cam src_clipspace_ortho_lh_no src_clipspace_ortho_lh_zo src_clipspace_ortho_rh_no src_clipspace_ortho_rh_zo src_clipspace_persp_lh_no src_clipspace_persp_lh_zo src_clipspace_persp_rh_no src_clipspace_persp_rh_zo src_clipspace_project_no src_clipspace_project_zo src_clipspace_view_lh_no src_clipspace_view_lh_zo src_clipspace_view_rh_no src_clipspace_view_rh_zo src_curve src_ease src_euler src_frustum src_ivec2 src_ivec3 src_ivec4 src_mat2 src_mat2x3 src_mat2x4 src_mat3 src_mat3x2 src_mat3x4 src_mat4 src_mat4x2 src_mat4x3 src_noise src_plane src_project src_quat src_ray src_sphere src_vec2 src_vec3 src_vec4.
Import ListNotations.

(** same outcome, returned value and resulting memory for every float arithmetic, all actual
    arguments (values a C program can pass, i.e. not "uninitialised") and all memories *)
Definition same_effect (f g : fundef) : Prop := forall (S : Scalar) vs m,
  Forall (fun v => v <> VU) vs -> call S f vs m = call S g vs m.

Definition exported : list (fundef * fundef) := [
  (glmc_vec3_mix, glm_vec3_mix);
  (glmc_vec3_mixc, glm_vec3_mixc);
  (glmc_vec4_mix, glm_vec4_mix);
  (glmc_vec4_mixc, glm_vec4_mixc);
  (glmc_aabb2d_zero, glm_aabb2d_zero);
  (glmc_aabb2d_copy, glm_aabb2d_copy);
  (glmc_aabb2d_transform, glm_aabb2d_transform);
  (glmc_aabb2d_merge, glm_aabb2d_merge);
  (glmc_aabb2d_crop, glm_aabb2d_crop);
  (glmc_aabb2d_crop_until, glm_aabb2d_crop_until);
  (glmc_aabb2d_invalidate, glm_aabb2d_invalidate);
  (glmc_aabb2d_isvalid, glm_aabb2d_isvalid);
  (glmc_aabb2d_diag, glm_aabb2d_diag);
  (glmc_aabb2d_sizev, glm_aabb2d_sizev);
  (glmc_aabb2d_radius, glm_aabb2d_radius);
  (glmc_aabb2d_center, glm_aabb2d_center);
  (glmc_aabb2d_aabb, glm_aabb2d_aabb);
  (glmc_aabb2d_point, glm_aabb2d_point);
  (glmc_aabb2d_contains, glm_aabb2d_contains);
  (glmc_aabb2d_circle, glm_aabb2d_circle);
  (glmc_translate_make, glm_translate_make);
  (glmc_translate_to, glm_translate_to);
  (glmc_translate, glm_translate);
  (glmc_translate_x, glm_translate_x);
  (glmc_translate_y, glm_translate_y);
  (glmc_translate_z, glm_translate_z);
  (glmc_scale_make, glm_scale_make);
  (glmc_scale_to, glm_scale_to);
  (glmc_scale, glm_scale);
  (glmc_scale_uni, glm_scale_uni);
  (glmc_rotate_x, glm_rotate_x);
  (glmc_rotate_y, glm_rotate_y);
  (glmc_rotate_z, glm_rotate_z);
  (glmc_rotate_make, glm_rotate_make);
  (glmc_rotate, glm_rotate);
  (glmc_rotate_at, glm_rotate_at);
  (glmc_rotate_atm, glm_rotate_atm);
  (glmc_spin, glm_spin);
  (glmc_decompose_scalev, glm_decompose_scalev);
  (glmc_uniscaled, glm_uniscaled);
  (glmc_decompose_rs, glm_decompose_rs);
  (glmc_translated, glm_translated);
  (glmc_translated_to, glm_translated_to);
  (glmc_translated_x, glm_translated_x);
  (glmc_translated_y, glm_translated_y);
  (glmc_translated_z, glm_translated_z);
  (glmc_rotated_x, glm_rotated_x);
  (glmc_rotated_y, glm_rotated_y);
  (glmc_rotated_z, glm_rotated_z);
  (glmc_rotated, glm_rotated);
  (glmc_rotated_at, glm_rotated_at);
  (glmc_spinned, glm_spinned);
  (glmc_decompose, glm_decompose);
  (glmc_mul, glm_mul);
  (glmc_mul_rot, glm_mul_rot);
  (glmc_inv_tr, glm_inv_tr);
  (glmc_translate2d_make, glm_translate2d_make);
  (glmc_translate2d_to, glm_translate2d_to);
  (glmc_translate2d, glm_translate2d);
  (glmc_translate2d_x, glm_translate2d_x);
  (glmc_translate2d_y, glm_translate2d_y);
  (glmc_scale2d_to, glm_scale2d_to);
  (glmc_scale2d_make, glm_scale2d_make);
  (glmc_scale2d, glm_scale2d);
  (glmc_scale2d_uni, glm_scale2d_uni);
  (glmc_rotate2d_make, glm_rotate2d_make);
  (glmc_rotate2d, glm_rotate2d);
  (glmc_rotate2d_to, glm_rotate2d_to);
  (glmc_bezier, glm_bezier);
  (glmc_hermite, glm_hermite);
  (glmc_decasteljau, glm_decasteljau);
  (glmc_aabb_transform, glm_aabb_transform);
  (glmc_aabb_merge, glm_aabb_merge);
  (glmc_aabb_crop, glm_aabb_crop);
  (glmc_aabb_crop_until, glm_aabb_crop_until);
  (glmc_aabb_frustum, glm_aabb_frustum);
  (glmc_aabb_invalidate, glm_aabb_invalidate);
  (glmc_aabb_isvalid, glm_aabb_isvalid);
  (glmc_aabb_size, glm_aabb_size);
  (glmc_aabb_radius, glm_aabb_radius);
  (glmc_aabb_center, glm_aabb_center);
  (glmc_aabb_aabb, glm_aabb_aabb);
  (glmc_aabb_point, glm_aabb_point);
  (glmc_aabb_contains, glm_aabb_contains);
  (glmc_aabb_sphere, glm_aabb_sphere);
  (glmc_frustum, glm_frustum);
  (glmc_ortho, glm_ortho);
  (glmc_ortho_aabb, glm_ortho_aabb);
  (glmc_ortho_aabb_p, glm_ortho_aabb_p);
  (glmc_ortho_aabb_pz, glm_ortho_aabb_pz);
  (glmc_ortho_default, glm_ortho_default);
  (glmc_ortho_default_s, glm_ortho_default_s);
  (glmc_perspective, glm_perspective);
  (glmc_persp_move_far, glm_persp_move_far);
  (glmc_perspective_default, glm_perspective_default);
  (glmc_perspective_resize, glm_perspective_resize);
  (glmc_lookat, glm_lookat);
  (glmc_look, glm_look);
  (glmc_look_anyup, glm_look_anyup);
  (glmc_persp_decomp, glm_persp_decomp);
  (glmc_persp_decompv, glm_persp_decompv);
  (glmc_persp_decomp_x, glm_persp_decomp_x);
  (glmc_persp_decomp_y, glm_persp_decomp_y);
  (glmc_persp_decomp_z, glm_persp_decomp_z);
  (glmc_persp_decomp_far, glm_persp_decomp_far);
  (glmc_persp_decomp_near, glm_persp_decomp_near);
  (glmc_persp_fovy, glm_persp_fovy);
  (glmc_persp_aspect, glm_persp_aspect);
  (glmc_persp_sizes, glm_persp_sizes);
  (glmc_ortho_lh_no, glm_ortho_lh_no);
  (glmc_ortho_aabb_lh_no, glm_ortho_aabb_lh_no);
  (glmc_ortho_aabb_p_lh_no, glm_ortho_aabb_p_lh_no);
  (glmc_ortho_aabb_pz_lh_no, glm_ortho_aabb_pz_lh_no);
  (glmc_ortho_default_lh_no, glm_ortho_default_lh_no);
  (glmc_ortho_default_s_lh_no, glm_ortho_default_s_lh_no);
  (glmc_ortho_lh_zo, glm_ortho_lh_zo);
  (glmc_ortho_aabb_lh_zo, glm_ortho_aabb_lh_zo);
  (glmc_ortho_aabb_p_lh_zo, glm_ortho_aabb_p_lh_zo);
  (glmc_ortho_aabb_pz_lh_zo, glm_ortho_aabb_pz_lh_zo);
  (glmc_ortho_default_lh_zo, glm_ortho_default_lh_zo);
  (glmc_ortho_default_s_lh_zo, glm_ortho_default_s_lh_zo);
  (glmc_ortho_rh_no, glm_ortho_rh_no);
  (glmc_ortho_aabb_rh_no, glm_ortho_aabb_rh_no);
  (glmc_ortho_aabb_p_rh_no, glm_ortho_aabb_p_rh_no);
  (glmc_ortho_aabb_pz_rh_no, glm_ortho_aabb_pz_rh_no);
  (glmc_ortho_default_rh_no, glm_ortho_default_rh_no);
  (glmc_ortho_default_s_rh_no, glm_ortho_default_s_rh_no);
  (glmc_ortho_rh_zo, glm_ortho_rh_zo);
  (glmc_ortho_aabb_rh_zo, glm_ortho_aabb_rh_zo);
  (glmc_ortho_aabb_p_rh_zo, glm_ortho_aabb_p_rh_zo);
  (glmc_ortho_aabb_pz_rh_zo, glm_ortho_aabb_pz_rh_zo);
  (glmc_ortho_default_rh_zo, glm_ortho_default_rh_zo);
  (glmc_ortho_default_s_rh_zo, glm_ortho_default_s_rh_zo);
  (glmc_frustum_lh_no, glm_frustum_lh_no);
  (glmc_perspective_lh_no, glm_perspective_lh_no);
  (glmc_persp_move_far_lh_no, glm_persp_move_far_lh_no);
  (glmc_persp_decomp_lh_no, glm_persp_decomp_lh_no);
  (glmc_persp_decompv_lh_no, glm_persp_decompv_lh_no);
  (glmc_persp_decomp_x_lh_no, glm_persp_decomp_x_lh_no);
  (glmc_persp_decomp_y_lh_no, glm_persp_decomp_y_lh_no);
  (glmc_persp_decomp_z_lh_no, glm_persp_decomp_z_lh_no);
  (glmc_persp_decomp_far_lh_no, glm_persp_decomp_far_lh_no);
  (glmc_persp_decomp_near_lh_no, glm_persp_decomp_near_lh_no);
  (glmc_persp_sizes_lh_no, glm_persp_sizes_lh_no);
  (glmc_persp_fovy_lh_no, glm_persp_fovy_lh_no);
  (glmc_persp_aspect_lh_no, glm_persp_aspect_lh_no);
  (glmc_frustum_lh_zo, glm_frustum_lh_zo);
  (glmc_perspective_lh_zo, glm_perspective_lh_zo);
  (glmc_persp_move_far_lh_zo, glm_persp_move_far_lh_zo);
  (glmc_persp_decomp_lh_zo, glm_persp_decomp_lh_zo);
  (glmc_persp_decompv_lh_zo, glm_persp_decompv_lh_zo);
  (glmc_persp_decomp_x_lh_zo, glm_persp_decomp_x_lh_zo);
  (glmc_persp_decomp_y_lh_zo, glm_persp_decomp_y_lh_zo);
  (glmc_persp_decomp_z_lh_zo, glm_persp_decomp_z_lh_zo);
  (glmc_persp_decomp_far_lh_zo, glm_persp_decomp_far_lh_zo);
  (glmc_persp_decomp_near_lh_zo, glm_persp_decomp_near_lh_zo);
  (glmc_persp_sizes_lh_zo, glm_persp_sizes_lh_zo);
  (glmc_persp_fovy_lh_zo, glm_persp_fovy_lh_zo);
  (glmc_persp_aspect_lh_zo, glm_persp_aspect_lh_zo);
  (glmc_frustum_rh_no, glm_frustum_rh_no);
  (glmc_perspective_rh_no, glm_perspective_rh_no);
  (glmc_persp_move_far_rh_no, glm_persp_move_far_rh_no);
  (glmc_persp_decomp_rh_no, glm_persp_decomp_rh_no);
  (glmc_persp_decompv_rh_no, glm_persp_decompv_rh_no);
  (glmc_persp_decomp_x_rh_no, glm_persp_decomp_x_rh_no);
  (glmc_persp_decomp_y_rh_no, glm_persp_decomp_y_rh_no);
  (glmc_persp_decomp_z_rh_no, glm_persp_decomp_z_rh_no);
  (glmc_persp_decomp_far_rh_no, glm_persp_decomp_far_rh_no);
  (glmc_persp_decomp_near_rh_no, glm_persp_decomp_near_rh_no);
  (glmc_persp_sizes_rh_no, glm_persp_sizes_rh_no);
  (glmc_persp_fovy_rh_no, glm_persp_fovy_rh_no);
  (glmc_persp_aspect_rh_no, glm_persp_aspect_rh_no);
  (glmc_frustum_rh_zo, glm_frustum_rh_zo);
  (glmc_perspective_rh_zo, glm_perspective_rh_zo);
  (glmc_persp_move_far_rh_zo, glm_persp_move_far_rh_zo);
  (glmc_persp_decomp_rh_zo, glm_persp_decomp_rh_zo);
  (glmc_persp_decompv_rh_zo, glm_persp_decompv_rh_zo);
  (glmc_persp_decomp_x_rh_zo, glm_persp_decomp_x_rh_zo);
  (glmc_persp_decomp_y_rh_zo, glm_persp_decomp_y_rh_zo);
  (glmc_persp_decomp_z_rh_zo, glm_persp_decomp_z_rh_zo);
  (glmc_persp_decomp_far_rh_zo, glm_persp_decomp_far_rh_zo);
  (glmc_persp_decomp_near_rh_zo, glm_persp_decomp_near_rh_zo);
  (glmc_persp_sizes_rh_zo, glm_persp_sizes_rh_zo);
  (glmc_persp_fovy_rh_zo, glm_persp_fovy_rh_zo);
  (glmc_persp_aspect_rh_zo, glm_persp_aspect_rh_zo);
  (glmc_unprojecti_no, glm_unprojecti_no);
  (glmc_project_no, glm_project_no);
  (glmc_project_z_no, glm_project_z_no);
  (glmc_unprojecti_zo, glm_unprojecti_zo);
  (glmc_project_zo, glm_project_zo);
  (glmc_project_z_zo, glm_project_z_zo);
  (glmc_lookat_lh_no, glm_lookat_lh_no);
  (glmc_look_lh_no, glm_look_lh_no);
  (glmc_look_anyup_lh_no, glm_look_anyup_lh_no);
  (glmc_lookat_lh_zo, glm_lookat_lh_zo);
  (glmc_look_lh_zo, glm_look_lh_zo);
  (glmc_look_anyup_lh_zo, glm_look_anyup_lh_zo);
  (glmc_lookat_rh_no, glm_lookat_rh_no);
  (glmc_look_rh_no, glm_look_rh_no);
  (glmc_look_anyup_rh_no, glm_look_anyup_rh_no);
  (glmc_lookat_rh_zo, glm_lookat_rh_zo);
  (glmc_look_rh_zo, glm_look_rh_zo);
  (glmc_look_anyup_rh_zo, glm_look_anyup_rh_zo);
  (glmc_smc, glm_smc);
  (glmc_ease_linear, glm_ease_linear);
  (glmc_ease_sine_in, glm_ease_sine_in);
  (glmc_ease_sine_out, glm_ease_sine_out);
  (glmc_ease_sine_inout, glm_ease_sine_inout);
  (glmc_ease_quad_in, glm_ease_quad_in);
  (glmc_ease_quad_out, glm_ease_quad_out);
  (glmc_ease_quad_inout, glm_ease_quad_inout);
  (glmc_ease_cubic_in, glm_ease_cubic_in);
  (glmc_ease_cubic_out, glm_ease_cubic_out);
  (glmc_ease_cubic_inout, glm_ease_cubic_inout);
  (glmc_ease_quart_in, glm_ease_quart_in);
  (glmc_ease_quart_out, glm_ease_quart_out);
  (glmc_ease_quart_inout, glm_ease_quart_inout);
  (glmc_ease_quint_in, glm_ease_quint_in);
  (glmc_ease_quint_out, glm_ease_quint_out);
  (glmc_ease_quint_inout, glm_ease_quint_inout);
  (glmc_ease_exp_in, glm_ease_exp_in);
  (glmc_ease_exp_out, glm_ease_exp_out);
  (glmc_ease_exp_inout, glm_ease_exp_inout);
  (glmc_ease_circ_in, glm_ease_circ_in);
  (glmc_ease_circ_out, glm_ease_circ_out);
  (glmc_ease_circ_inout, glm_ease_circ_inout);
  (glmc_ease_back_in, glm_ease_back_in);
  (glmc_ease_back_out, glm_ease_back_out);
  (glmc_ease_back_inout, glm_ease_back_inout);
  (glmc_ease_elast_in, glm_ease_elast_in);
  (glmc_ease_elast_out, glm_ease_elast_out);
  (glmc_ease_elast_inout, glm_ease_elast_inout);
  (glmc_ease_bounce_out, glm_ease_bounce_out);
  (glmc_ease_bounce_in, glm_ease_bounce_in);
  (glmc_ease_bounce_inout, glm_ease_bounce_inout);
  (glmc_euler_angles, glm_euler_angles);
  (glmc_euler, glm_euler);
  (glmc_euler_xyz, glm_euler_xyz);
  (glmc_euler_zyx, glm_euler_zyx);
  (glmc_euler_zxy, glm_euler_zxy);
  (glmc_euler_xzy, glm_euler_xzy);
  (glmc_euler_yzx, glm_euler_yzx);
  (glmc_euler_yxz, glm_euler_yxz);
  (glmc_euler_by_order, glm_euler_by_order);
  (glmc_euler_xyz_quat, glm_euler_xyz_quat);
  (glmc_euler_xzy_quat, glm_euler_xzy_quat);
  (glmc_euler_yxz_quat, glm_euler_yxz_quat);
  (glmc_euler_yzx_quat, glm_euler_yzx_quat);
  (glmc_euler_zxy_quat, glm_euler_zxy_quat);
  (glmc_euler_zyx_quat, glm_euler_zyx_quat);
  (glmc_frustum_planes, glm_frustum_planes);
  (glmc_frustum_corners, glm_frustum_corners);
  (glmc_frustum_center, glm_frustum_center);
  (glmc_frustum_box, glm_frustum_box);
  (glmc_frustum_corners_at, glm_frustum_corners_at);
  (glmc_ivec2, glm_ivec2);
  (glmc_ivec2_copy, glm_ivec2_copy);
  (glmc_ivec2_zero, glm_ivec2_zero);
  (glmc_ivec2_one, glm_ivec2_one);
  (glmc_ivec2_dot, glm_ivec2_dot);
  (glmc_ivec2_cross, glm_ivec2_cross);
  (glmc_ivec2_add, glm_ivec2_add);
  (glmc_ivec2_adds, glm_ivec2_adds);
  (glmc_ivec2_sub, glm_ivec2_sub);
  (glmc_ivec2_subs, glm_ivec2_subs);
  (glmc_ivec2_mul, glm_ivec2_mul);
  (glmc_ivec2_scale, glm_ivec2_scale);
  (glmc_ivec2_div, glm_ivec2_div);
  (glmc_ivec2_divs, glm_ivec2_divs);
  (glmc_ivec2_mod, glm_ivec2_mod);
  (glmc_ivec2_addadd, glm_ivec2_addadd);
  (glmc_ivec2_addadds, glm_ivec2_addadds);
  (glmc_ivec2_subadd, glm_ivec2_subadd);
  (glmc_ivec2_subadds, glm_ivec2_subadds);
  (glmc_ivec2_muladd, glm_ivec2_muladd);
  (glmc_ivec2_muladds, glm_ivec2_muladds);
  (glmc_ivec2_maxadd, glm_ivec2_maxadd);
  (glmc_ivec2_minadd, glm_ivec2_minadd);
  (glmc_ivec2_subsub, glm_ivec2_subsub);
  (glmc_ivec2_subsubs, glm_ivec2_subsubs);
  (glmc_ivec2_addsub, glm_ivec2_addsub);
  (glmc_ivec2_addsubs, glm_ivec2_addsubs);
  (glmc_ivec2_mulsub, glm_ivec2_mulsub);
  (glmc_ivec2_mulsubs, glm_ivec2_mulsubs);
  (glmc_ivec2_maxsub, glm_ivec2_maxsub);
  (glmc_ivec2_minsub, glm_ivec2_minsub);
  (glmc_ivec2_distance2, glm_ivec2_distance2);
  (glmc_ivec2_distance, glm_ivec2_distance);
  (glmc_ivec2_fill, glm_ivec2_fill);
  (glmc_ivec2_eq, glm_ivec2_eq);
  (glmc_ivec2_eqv, glm_ivec2_eqv);
  (glmc_ivec2_maxv, glm_ivec2_maxv);
  (glmc_ivec2_minv, glm_ivec2_minv);
  (glmc_ivec2_clamp, glm_ivec2_clamp);
  (glmc_ivec2_abs, glm_ivec2_abs);
  (glmc_ivec3, glm_ivec3);
  (glmc_ivec3_copy, glm_ivec3_copy);
  (glmc_ivec3_zero, glm_ivec3_zero);
  (glmc_ivec3_one, glm_ivec3_one);
  (glmc_ivec3_dot, glm_ivec3_dot);
  (glmc_ivec3_norm2, glm_ivec3_norm2);
  (glmc_ivec3_norm, glm_ivec3_norm);
  (glmc_ivec3_add, glm_ivec3_add);
  (glmc_ivec3_adds, glm_ivec3_adds);
  (glmc_ivec3_sub, glm_ivec3_sub);
  (glmc_ivec3_subs, glm_ivec3_subs);
  (glmc_ivec3_mul, glm_ivec3_mul);
  (glmc_ivec3_scale, glm_ivec3_scale);
  (glmc_ivec3_div, glm_ivec3_div);
  (glmc_ivec3_divs, glm_ivec3_divs);
  (glmc_ivec3_mod, glm_ivec3_mod);
  (glmc_ivec3_addadd, glm_ivec3_addadd);
  (glmc_ivec3_addadds, glm_ivec3_addadds);
  (glmc_ivec3_subadd, glm_ivec3_subadd);
  (glmc_ivec3_subadds, glm_ivec3_subadds);
  (glmc_ivec3_muladd, glm_ivec3_muladd);
  (glmc_ivec3_muladds, glm_ivec3_muladds);
  (glmc_ivec3_maxadd, glm_ivec3_maxadd);
  (glmc_ivec3_minadd, glm_ivec3_minadd);
  (glmc_ivec3_subsub, glm_ivec3_subsub);
  (glmc_ivec3_subsubs, glm_ivec3_subsubs);
  (glmc_ivec3_addsub, glm_ivec3_addsub);
  (glmc_ivec3_addsubs, glm_ivec3_addsubs);
  (glmc_ivec3_mulsub, glm_ivec3_mulsub);
  (glmc_ivec3_mulsubs, glm_ivec3_mulsubs);
  (glmc_ivec3_maxsub, glm_ivec3_maxsub);
  (glmc_ivec3_minsub, glm_ivec3_minsub);
  (glmc_ivec3_distance2, glm_ivec3_distance2);
  (glmc_ivec3_distance, glm_ivec3_distance);
  (glmc_ivec3_fill, glm_ivec3_fill);
  (glmc_ivec3_eq, glm_ivec3_eq);
  (glmc_ivec3_eqv, glm_ivec3_eqv);
  (glmc_ivec3_maxv, glm_ivec3_maxv);
  (glmc_ivec3_minv, glm_ivec3_minv);
  (glmc_ivec3_clamp, glm_ivec3_clamp);
  (glmc_ivec3_abs, glm_ivec3_abs);
  (glmc_ivec4, glm_ivec4);
  (glmc_ivec4_copy, glm_ivec4_copy);
  (glmc_ivec4_zero, glm_ivec4_zero);
  (glmc_ivec4_one, glm_ivec4_one);
  (glmc_ivec4_add, glm_ivec4_add);
  (glmc_ivec4_adds, glm_ivec4_adds);
  (glmc_ivec4_sub, glm_ivec4_sub);
  (glmc_ivec4_subs, glm_ivec4_subs);
  (glmc_ivec4_mul, glm_ivec4_mul);
  (glmc_ivec4_scale, glm_ivec4_scale);
  (glmc_ivec4_addadd, glm_ivec4_addadd);
  (glmc_ivec4_addadds, glm_ivec4_addadds);
  (glmc_ivec4_subadd, glm_ivec4_subadd);
  (glmc_ivec4_subadds, glm_ivec4_subadds);
  (glmc_ivec4_muladd, glm_ivec4_muladd);
  (glmc_ivec4_muladds, glm_ivec4_muladds);
  (glmc_ivec4_maxadd, glm_ivec4_maxadd);
  (glmc_ivec4_minadd, glm_ivec4_minadd);
  (glmc_ivec4_subsub, glm_ivec4_subsub);
  (glmc_ivec4_subsubs, glm_ivec4_subsubs);
  (glmc_ivec4_addsub, glm_ivec4_addsub);
  (glmc_ivec4_addsubs, glm_ivec4_addsubs);
  (glmc_ivec4_mulsub, glm_ivec4_mulsub);
  (glmc_ivec4_mulsubs, glm_ivec4_mulsubs);
  (glmc_ivec4_maxsub, glm_ivec4_maxsub);
  (glmc_ivec4_minsub, glm_ivec4_minsub);
  (glmc_ivec4_distance2, glm_ivec4_distance2);
  (glmc_ivec4_distance, glm_ivec4_distance);
  (glmc_ivec4_maxv, glm_ivec4_maxv);
  (glmc_ivec4_minv, glm_ivec4_minv);
  (glmc_ivec4_clamp, glm_ivec4_clamp);
  (glmc_ivec4_abs, glm_ivec4_abs);
  (glmc_mat2_make, glm_mat2_make);
  (glmc_mat2_copy, glm_mat2_copy);
  (glmc_mat2_identity, glm_mat2_identity);
  (glmc_mat2_identity_array, glm_mat2_identity_array);
  (glmc_mat2_zero, glm_mat2_zero);
  (glmc_mat2_mul, glm_mat2_mul);
  (glmc_mat2_mulv, glm_mat2_mulv);
  (glmc_mat2_transpose_to, glm_mat2_transpose_to);
  (glmc_mat2_transpose, glm_mat2_transpose);
  (glmc_mat2_scale, glm_mat2_scale);
  (glmc_mat2_inv, glm_mat2_inv);
  (glmc_mat2_swap_col, glm_mat2_swap_col);
  (glmc_mat2_swap_row, glm_mat2_swap_row);
  (glmc_mat2_det, glm_mat2_det);
  (glmc_mat2_trace, glm_mat2_trace);
  (glmc_mat2_rmc, glm_mat2_rmc);
  (glmc_mat2x3_copy, glm_mat2x3_copy);
  (glmc_mat2x3_zero, glm_mat2x3_zero);
  (glmc_mat2x3_make, glm_mat2x3_make);
  (glmc_mat2x3_mul, glm_mat2x3_mul);
  (glmc_mat2x3_mulv, glm_mat2x3_mulv);
  (glmc_mat2x3_transpose, glm_mat2x3_transpose);
  (glmc_mat2x3_scale, glm_mat2x3_scale);
  (glmc_mat2x4_copy, glm_mat2x4_copy);
  (glmc_mat2x4_zero, glm_mat2x4_zero);
  (glmc_mat2x4_make, glm_mat2x4_make);
  (glmc_mat2x4_mul, glm_mat2x4_mul);
  (glmc_mat2x4_mulv, glm_mat2x4_mulv);
  (glmc_mat2x4_transpose, glm_mat2x4_transpose);
  (glmc_mat2x4_scale, glm_mat2x4_scale);
  (glmc_mat3_copy, glm_mat3_copy);
  (glmc_mat3_identity, glm_mat3_identity);
  (glmc_mat3_zero, glm_mat3_zero);
  (glmc_mat3_identity_array, glm_mat3_identity_array);
  (glmc_mat3_mul, glm_mat3_mul);
  (glmc_mat3_transpose_to, glm_mat3_transpose_to);
  (glmc_mat3_transpose, glm_mat3_transpose);
  (glmc_mat3_mulv, glm_mat3_mulv);
  (glmc_mat3_trace, glm_mat3_trace);
  (glmc_mat3_quat, glm_mat3_quat);
  (glmc_mat3_scale, glm_mat3_scale);
  (glmc_mat3_det, glm_mat3_det);
  (glmc_mat3_inv, glm_mat3_inv);
  (glmc_mat3_swap_col, glm_mat3_swap_col);
  (glmc_mat3_swap_row, glm_mat3_swap_row);
  (glmc_mat3_rmc, glm_mat3_rmc);
  (glmc_mat3_make, glm_mat3_make);
  (glmc_mat3_textrans, glm_mat3_textrans);
  (glmc_mat3x2_copy, glm_mat3x2_copy);
  (glmc_mat3x2_zero, glm_mat3x2_zero);
  (glmc_mat3x2_make, glm_mat3x2_make);
  (glmc_mat3x2_mul, glm_mat3x2_mul);
  (glmc_mat3x2_mulv, glm_mat3x2_mulv);
  (glmc_mat3x2_transpose, glm_mat3x2_transpose);
  (glmc_mat3x2_scale, glm_mat3x2_scale);
  (glmc_mat3x4_copy, glm_mat3x4_copy);
  (glmc_mat3x4_zero, glm_mat3x4_zero);
  (glmc_mat3x4_make, glm_mat3x4_make);
  (glmc_mat3x4_mul, glm_mat3x4_mul);
  (glmc_mat3x4_mulv, glm_mat3x4_mulv);
  (glmc_mat3x4_transpose, glm_mat3x4_transpose);
  (glmc_mat3x4_scale, glm_mat3x4_scale);
  (glmc_mat4_ucopy, glm_mat4_ucopy);
  (glmc_mat4_copy, glm_mat4_copy);
  (glmc_mat4_identity, glm_mat4_identity);
  (glmc_mat4_identity_array, glm_mat4_identity_array);
  (glmc_mat4_zero, glm_mat4_zero);
  (glmc_mat4_pick3, glm_mat4_pick3);
  (glmc_mat4_pick3t, glm_mat4_pick3t);
  (glmc_mat4_ins3, glm_mat4_ins3);
  (glmc_mat4_mul, glm_mat4_mul);
  (glmc_mat4_mulN, glm_mat4_mulN);
  (glmc_mat4_mulv, glm_mat4_mulv);
  (glmc_mat4_mulv3, glm_mat4_mulv3);
  (glmc_mat4_trace, glm_mat4_trace);
  (glmc_mat4_trace3, glm_mat4_trace3);
  (glmc_mat4_quat, glm_mat4_quat);
  (glmc_mat4_transpose_to, glm_mat4_transpose_to);
  (glmc_mat4_transpose, glm_mat4_transpose);
  (glmc_mat4_scale_p, glm_mat4_scale_p);
  (glmc_mat4_scale, glm_mat4_scale);
  (glmc_mat4_det, glm_mat4_det);
  (glmc_mat4_inv, glm_mat4_inv);
  (glmc_mat4_inv_precise, glm_mat4_inv);
  (glmc_mat4_inv_fast, glm_mat4_inv_fast);
  (glmc_mat4_swap_col, glm_mat4_swap_col);
  (glmc_mat4_swap_row, glm_mat4_swap_row);
  (glmc_mat4_rmc, glm_mat4_rmc);
  (glmc_mat4_make, glm_mat4_make);
  (glmc_mat4_textrans, glm_mat4_textrans);
  (glmc_mat4x2_copy, glm_mat4x2_copy);
  (glmc_mat4x2_zero, glm_mat4x2_zero);
  (glmc_mat4x2_make, glm_mat4x2_make);
  (glmc_mat4x2_mul, glm_mat4x2_mul);
  (glmc_mat4x2_mulv, glm_mat4x2_mulv);
  (glmc_mat4x2_transpose, glm_mat4x2_transpose);
  (glmc_mat4x2_scale, glm_mat4x2_scale);
  (glmc_mat4x3_copy, glm_mat4x3_copy);
  (glmc_mat4x3_zero, glm_mat4x3_zero);
  (glmc_mat4x3_make, glm_mat4x3_make);
  (glmc_mat4x3_mul, glm_mat4x3_mul);
  (glmc_mat4x3_mulv, glm_mat4x3_mulv);
  (glmc_mat4x3_transpose, glm_mat4x3_transpose);
  (glmc_mat4x3_scale, glm_mat4x3_scale);
  (glmc_perlin_vec4, glm_perlin_vec4);
  (glmc_perlin_vec3, glm_perlin_vec3);
  (glmc_perlin_vec2, glm_perlin_vec2);
  (glmc_plane_normalize, glm_plane_normalize);
  (glmc_unprojecti, glm_unprojecti);
  (glmc_unproject, glm_unproject);
  (glmc_project, glm_project);
  (glmc_project_z, glm_project_z);
  (glmc_pickmatrix, glm_pickmatrix);
  (glmc_quat_identity, glm_quat_identity);
  (glmc_quat_identity_array, glm_quat_identity_array);
  (glmc_quat_init, glm_quat_init);
  (glmc_quat, glm_quat);
  (glmc_quatv, glm_quatv);
  (glmc_quat_copy, glm_quat_copy);
  (glmc_quat_from_vecs, glm_quat_from_vecs);
  (glmc_quat_norm, glm_quat_norm);
  (glmc_quat_normalize_to, glm_quat_normalize_to);
  (glmc_quat_normalize, glm_quat_normalize);
  (glmc_quat_dot, glm_quat_dot);
  (glmc_quat_conjugate, glm_quat_conjugate);
  (glmc_quat_inv, glm_quat_inv);
  (glmc_quat_add, glm_quat_add);
  (glmc_quat_sub, glm_quat_sub);
  (glmc_quat_real, glm_quat_real);
  (glmc_quat_imag, glm_quat_imag);
  (glmc_quat_imagn, glm_quat_imagn);
  (glmc_quat_imaglen, glm_quat_imaglen);
  (glmc_quat_angle, glm_quat_angle);
  (glmc_quat_axis, glm_quat_axis);
  (glmc_quat_mul, glm_quat_mul);
  (glmc_quat_mat4, glm_quat_mat4);
  (glmc_quat_mat4t, glm_quat_mat4t);
  (glmc_quat_mat3, glm_quat_mat3);
  (glmc_quat_mat3t, glm_quat_mat3t);
  (glmc_quat_lerp, glm_quat_lerp);
  (glmc_quat_lerpc, glm_quat_lerpc);
  (glmc_quat_nlerp, glm_quat_nlerp);
  (glmc_quat_slerp, glm_quat_slerp);
  (glmc_quat_slerp_longest, glm_quat_slerp_longest);
  (glmc_quat_look, glm_quat_look);
  (glmc_quat_for, glm_quat_for);
  (glmc_quat_forp, glm_quat_forp);
  (glmc_quat_rotatev, glm_quat_rotatev);
  (glmc_quat_rotate, glm_quat_rotate);
  (glmc_quat_rotate_at, glm_quat_rotate_at);
  (glmc_quat_rotate_atm, glm_quat_rotate_atm);
  (glmc_quat_make, glm_quat_make);
  (glmc_ray_triangle, glm_ray_triangle);
  (glmc_ray_sphere, glm_ray_sphere);
  (glmc_ray_at, glm_ray_at);
  (glmc_sphere_radii, glm_sphere_radii);
  (glmc_sphere_transform, glm_sphere_transform);
  (glmc_sphere_merge, glm_sphere_merge);
  (glmc_sphere_sphere, glm_sphere_sphere);
  (glmc_sphere_point, glm_sphere_point);
  (glmc_vec2, glm_vec2);
  (glmc_vec2_fill, glm_vec2_fill);
  (glmc_vec2_eq, glm_vec2_eq);
  (glmc_vec2_eqv, glm_vec2_eqv);
  (glmc_vec2_copy, glm_vec2_copy);
  (glmc_vec2_zero, glm_vec2_zero);
  (glmc_vec2_one, glm_vec2_one);
  (glmc_vec2_dot, glm_vec2_dot);
  (glmc_vec2_cross, glm_vec2_cross);
  (glmc_vec2_norm2, glm_vec2_norm2);
  (glmc_vec2_norm, glm_vec2_norm);
  (glmc_vec2_add, glm_vec2_add);
  (glmc_vec2_adds, glm_vec2_adds);
  (glmc_vec2_sub, glm_vec2_sub);
  (glmc_vec2_subs, glm_vec2_subs);
  (glmc_vec2_mul, glm_vec2_mul);
  (glmc_vec2_scale, glm_vec2_scale);
  (glmc_vec2_scale_as, glm_vec2_scale_as);
  (glmc_vec2_div, glm_vec2_div);
  (glmc_vec2_divs, glm_vec2_divs);
  (glmc_vec2_addadd, glm_vec2_addadd);
  (glmc_vec2_subadd, glm_vec2_subadd);
  (glmc_vec2_muladd, glm_vec2_muladd);
  (glmc_vec2_muladds, glm_vec2_muladds);
  (glmc_vec2_maxadd, glm_vec2_maxadd);
  (glmc_vec2_minadd, glm_vec2_minadd);
  (glmc_vec2_subsub, glm_vec2_subsub);
  (glmc_vec2_addsub, glm_vec2_addsub);
  (glmc_vec2_mulsub, glm_vec2_mulsub);
  (glmc_vec2_mulsubs, glm_vec2_mulsubs);
  (glmc_vec2_maxsub, glm_vec2_maxsub);
  (glmc_vec2_minsub, glm_vec2_minsub);
  (glmc_vec2_negate_to, glm_vec2_negate_to);
  (glmc_vec2_negate, glm_vec2_negate);
  (glmc_vec2_normalize, glm_vec2_normalize);
  (glmc_vec2_normalize_to, glm_vec2_normalize_to);
  (glmc_vec2_rotate, glm_vec2_rotate);
  (glmc_vec2_center, glm_vec2_center);
  (glmc_vec2_distance2, glm_vec2_distance2);
  (glmc_vec2_distance, glm_vec2_distance);
  (glmc_vec2_maxv, glm_vec2_maxv);
  (glmc_vec2_minv, glm_vec2_minv);
  (glmc_vec2_clamp, glm_vec2_clamp);
  (glmc_vec2_abs, glm_vec2_abs);
  (glmc_vec2_fract, glm_vec2_fract);
  (glmc_vec2_floor, glm_vec2_floor);
  (glmc_vec2_mods, glm_vec2_mods);
  (glmc_vec2_step, glm_vec2_step);
  (glmc_vec2_steps, glm_vec2_steps);
  (glmc_vec2_stepr, glm_vec2_stepr);
  (glmc_vec2_swizzle, glm_vec2_swizzle);
  (glmc_vec2_lerp, glm_vec2_lerp);
  (glmc_vec2_complex_mul, glm_vec2_complex_mul);
  (glmc_vec2_complex_div, glm_vec2_complex_div);
  (glmc_vec2_complex_conjugate, glm_vec2_complex_conjugate);
  (glmc_vec2_make, glm_vec2_make);
  (glmc_vec2_reflect, glm_vec2_reflect);
  (glmc_vec2_refract, glm_vec2_refract);
  (glmc_vec3_lerp, glm_vec3_lerp);
  (glmc_vec3_lerpc, glm_vec3_lerpc);
  (glmc_vec3, glm_vec3);
  (glmc_vec3_copy, glm_vec3_copy);
  (glmc_vec3_zero, glm_vec3_zero);
  (glmc_vec3_one, glm_vec3_one);
  (glmc_vec3_dot, glm_vec3_dot);
  (glmc_vec3_cross, glm_vec3_cross);
  (glmc_vec3_crossn, glm_vec3_crossn);
  (glmc_vec3_norm, glm_vec3_norm);
  (glmc_vec3_normalize_to, glm_vec3_normalize_to);
  (glmc_vec3_normalize, glm_vec3_normalize);
  (glmc_vec3_norm2, glm_vec3_norm2);
  (glmc_vec3_norm_one, glm_vec3_norm_one);
  (glmc_vec3_norm_inf, glm_vec3_norm_inf);
  (glmc_vec3_add, glm_vec3_add);
  (glmc_vec3_adds, glm_vec3_adds);
  (glmc_vec3_sub, glm_vec3_sub);
  (glmc_vec3_subs, glm_vec3_subs);
  (glmc_vec3_mul, glm_vec3_mul);
  (glmc_vec3_scale, glm_vec3_scale);
  (glmc_vec3_scale_as, glm_vec3_scale_as);
  (glmc_vec3_div, glm_vec3_div);
  (glmc_vec3_divs, glm_vec3_divs);
  (glmc_vec3_addadd, glm_vec3_addadd);
  (glmc_vec3_subadd, glm_vec3_subadd);
  (glmc_vec3_muladd, glm_vec3_muladd);
  (glmc_vec3_muladds, glm_vec3_muladds);
  (glmc_vec3_maxadd, glm_vec3_maxadd);
  (glmc_vec3_minadd, glm_vec3_minadd);
  (glmc_vec3_subsub, glm_vec3_subsub);
  (glmc_vec3_addsub, glm_vec3_addsub);
  (glmc_vec3_mulsub, glm_vec3_mulsub);
  (glmc_vec3_mulsubs, glm_vec3_mulsubs);
  (glmc_vec3_maxsub, glm_vec3_maxsub);
  (glmc_vec3_minsub, glm_vec3_minsub);
  (glmc_vec3_negate, glm_vec3_negate);
  (glmc_vec3_negate_to, glm_vec3_negate_to);
  (glmc_vec3_angle, glm_vec3_angle);
  (glmc_vec3_rotate, glm_vec3_rotate);
  (glmc_vec3_rotate_m4, glm_vec3_rotate_m4);
  (glmc_vec3_rotate_m3, glm_vec3_rotate_m3);
  (glmc_vec3_proj, glm_vec3_proj);
  (glmc_vec3_center, glm_vec3_center);
  (glmc_vec3_distance, glm_vec3_distance);
  (glmc_vec3_distance2, glm_vec3_distance2);
  (glmc_vec3_maxv, glm_vec3_maxv);
  (glmc_vec3_minv, glm_vec3_minv);
  (glmc_vec3_clamp, glm_vec3_clamp);
  (glmc_vec3_ortho, glm_vec3_ortho);
  (glmc_vec3_step, glm_vec3_step);
  (glmc_vec3_smoothstep_uni, glm_vec3_smoothstep_uni);
  (glmc_vec3_smoothstep, glm_vec3_smoothstep);
  (glmc_vec3_smoothinterp, glm_vec3_smoothinterp);
  (glmc_vec3_smoothinterpc, glm_vec3_smoothinterpc);
  (glmc_vec3_swizzle, glm_vec3_swizzle);
  (glmc_vec3_mulv, glm_vec3_mul);
  (glmc_vec3_broadcast, glm_vec3_broadcast);
  (glmc_vec3_fill, glm_vec3_fill);
  (glmc_vec3_eq, glm_vec3_eq);
  (glmc_vec3_eq_eps, glm_vec3_eq_eps);
  (glmc_vec3_eq_all, glm_vec3_eq_all);
  (glmc_vec3_eqv, glm_vec3_eqv);
  (glmc_vec3_eqv_eps, glm_vec3_eqv_eps);
  (glmc_vec3_max, glm_vec3_max);
  (glmc_vec3_min, glm_vec3_min);
  (glmc_vec3_isnan, glm_vec3_isnan);
  (glmc_vec3_isinf, glm_vec3_isinf);
  (glmc_vec3_isvalid, glm_vec3_isvalid);
  (glmc_vec3_sign, glm_vec3_sign);
  (glmc_vec3_abs, glm_vec3_abs);
  (glmc_vec3_fract, glm_vec3_fract);
  (glmc_vec3_floor, glm_vec3_floor);
  (glmc_vec3_mods, glm_vec3_mods);
  (glmc_vec3_steps, glm_vec3_steps);
  (glmc_vec3_stepr, glm_vec3_stepr);
  (glmc_vec3_hadd, glm_vec3_hadd);
  (glmc_vec3_sqrt, glm_vec3_sqrt);
  (glmc_vec3_make, glm_vec3_make);
  (glmc_vec3_faceforward, glm_vec3_faceforward);
  (glmc_vec3_reflect, glm_vec3_reflect);
  (glmc_vec3_refract, glm_vec3_refract);
  (glmc_vec4_lerp, glm_vec4_lerp);
  (glmc_vec4_lerpc, glm_vec4_lerpc);
  (glmc_vec4, glm_vec4);
  (glmc_vec4_zero, glm_vec4_zero);
  (glmc_vec4_one, glm_vec4_one);
  (glmc_vec4_copy3, glm_vec4_copy3);
  (glmc_vec4_copy, glm_vec4_copy);
  (glmc_vec4_ucopy, glm_vec4_ucopy);
  (glmc_vec4_dot, glm_vec4_dot);
  (glmc_vec4_norm, glm_vec4_norm);
  (glmc_vec4_normalize_to, glm_vec4_normalize_to);
  (glmc_vec4_normalize, glm_vec4_normalize);
  (glmc_vec4_norm2, glm_vec4_norm2);
  (glmc_vec4_norm_one, glm_vec4_norm_one);
  (glmc_vec4_norm_inf, glm_vec4_norm_inf);
  (glmc_vec4_add, glm_vec4_add);
  (glmc_vec4_adds, glm_vec4_adds);
  (glmc_vec4_sub, glm_vec4_sub);
  (glmc_vec4_subs, glm_vec4_subs);
  (glmc_vec4_mul, glm_vec4_mul);
  (glmc_vec4_scale, glm_vec4_scale);
  (glmc_vec4_scale_as, glm_vec4_scale_as);
  (glmc_vec4_div, glm_vec4_div);
  (glmc_vec4_divs, glm_vec4_divs);
  (glmc_vec4_addadd, glm_vec4_addadd);
  (glmc_vec4_subadd, glm_vec4_subadd);
  (glmc_vec4_muladd, glm_vec4_muladd);
  (glmc_vec4_muladds, glm_vec4_muladds);
  (glmc_vec4_maxadd, glm_vec4_maxadd);
  (glmc_vec4_minadd, glm_vec4_minadd);
  (glmc_vec4_subsub, glm_vec4_subsub);
  (glmc_vec4_addsub, glm_vec4_addsub);
  (glmc_vec4_mulsub, glm_vec4_mulsub);
  (glmc_vec4_mulsubs, glm_vec4_mulsubs);
  (glmc_vec4_maxsub, glm_vec4_maxsub);
  (glmc_vec4_minsub, glm_vec4_minsub);
  (glmc_vec4_negate, glm_vec4_negate);
  (glmc_vec4_negate_to, glm_vec4_negate_to);
  (glmc_vec4_distance, glm_vec4_distance);
  (glmc_vec4_distance2, glm_vec4_distance2);
  (glmc_vec4_maxv, glm_vec4_maxv);
  (glmc_vec4_minv, glm_vec4_minv);
  (glmc_vec4_clamp, glm_vec4_clamp);
  (glmc_vec4_step, glm_vec4_step);
  (glmc_vec4_smoothstep_uni, glm_vec4_smoothstep_uni);
  (glmc_vec4_smoothstep, glm_vec4_smoothstep);
  (glmc_vec4_smoothinterp, glm_vec4_smoothinterp);
  (glmc_vec4_smoothinterpc, glm_vec4_smoothinterpc);
  (glmc_vec4_cubic, glm_vec4_cubic);
  (glmc_vec4_swizzle, glm_vec4_swizzle);
  (glmc_vec4_mulv, glm_vec4_mul);
  (glmc_vec4_broadcast, glm_vec4_broadcast);
  (glmc_vec4_fill, glm_vec4_fill);
  (glmc_vec4_eq, glm_vec4_eq);
  (glmc_vec4_eq_eps, glm_vec4_eq_eps);
  (glmc_vec4_eq_all, glm_vec4_eq_all);
  (glmc_vec4_eqv, glm_vec4_eqv);
  (glmc_vec4_eqv_eps, glm_vec4_eqv_eps);
  (glmc_vec4_max, glm_vec4_max);
  (glmc_vec4_min, glm_vec4_min);
  (glmc_vec4_isnan, glm_vec4_isnan);
  (glmc_vec4_isinf, glm_vec4_isinf);
  (glmc_vec4_isvalid, glm_vec4_isvalid);
  (glmc_vec4_sign, glm_vec4_sign);
  (glmc_vec4_abs, glm_vec4_abs);
  (glmc_vec4_fract, glm_vec4_fract);
  (glmc_vec4_floor, glm_vec4_floor);
  (glmc_vec4_mods, glm_vec4_mods);
  (glmc_vec4_steps, glm_vec4_steps);
  (glmc_vec4_stepr, glm_vec4_stepr);
  (glmc_vec4_hadd, glm_vec4_hadd);
  (glmc_vec4_sqrt, glm_vec4_sqrt);
  (glmc_vec4_make, glm_vec4_make);
  (glmc_vec4_reflect, glm_vec4_reflect);
  (glmc_vec4_refract, glm_vec4_refract)].
