(** * The declared parameters of the array and struct functions

    Written by tools/sigs.py from the parameter lists and the comments of the headers.
    Where the comment gives no direction, dest is written and the others are read, except those in tools/sigs.py; the comments
    that give the wrong direction are those of
    glm_ivec2_addadd(dest), glm_ivec2_addadds(dest), glm_ivec2_subadd(dest),
    glm_ivec2_subadds(dest), glm_ivec2_muladd(dest), glm_ivec2_muladds(dest),
    glm_ivec2_maxadd(dest), glm_ivec2_minadd(dest), glm_ivec2_subsub(dest),
    glm_ivec2_subsubs(dest), glm_ivec2_addsub(dest), glm_ivec2_addsubs(dest),
    glm_ivec2_mulsub(dest), glm_ivec2_mulsubs(dest), glm_ivec2_maxsub(dest),
    glm_ivec2_minsub(dest), glm_ivec3_addadd(dest), glm_ivec3_addadds(dest),
    glm_ivec3_subadd(dest), glm_ivec3_subadds(dest), glm_ivec3_muladd(dest),
    glm_ivec3_muladds(dest), glm_ivec3_maxadd(dest), glm_ivec3_minadd(dest),
    glm_ivec3_subsub(dest), glm_ivec3_subsubs(dest), glm_ivec3_addsub(dest),
    glm_ivec3_addsubs(dest), glm_ivec3_mulsub(dest), glm_ivec3_mulsubs(dest),
    glm_ivec3_maxsub(dest), glm_ivec3_minsub(dest), glm_ivec4_addadd(dest),
    glm_ivec4_addadds(dest), glm_ivec4_subadd(dest), glm_ivec4_subadds(dest),
    glm_ivec4_muladd(dest), glm_ivec4_muladds(dest), glm_ivec4_maxadd(dest),
    glm_ivec4_minadd(dest), glm_ivec4_subsub(dest), glm_ivec4_subsubs(dest),
    glm_ivec4_addsub(dest), glm_ivec4_addsubs(dest), glm_ivec4_mulsub(dest),
    glm_ivec4_mulsubs(dest), glm_ivec4_maxsub(dest), glm_ivec4_minsub(dest),
    glm_quat_rotate_at(pivot), glm_ray_sphere(dir), glm_ray_sphere(t1), glm_ray_sphere(t2),
    glms_ray_sphere(t1), glms_ray_sphere(t2), glm_vec2_addadd(dest), glm_vec2_subadd(dest),
    glm_vec2_muladd(dest), glm_vec2_muladds(dest), glm_vec2_maxadd(dest),
    glm_vec2_minadd(dest), glm_vec2_subsub(dest), glm_vec2_addsub(dest), glm_vec2_mulsub(dest),
    glm_vec2_mulsubs(dest), glm_vec2_maxsub(dest), glm_vec2_minsub(dest),
    glm_vec3_addadd(dest), glm_vec3_subadd(dest), glm_vec3_muladd(dest),
    glm_vec3_muladds(dest), glm_vec3_maxadd(dest), glm_vec3_minadd(dest),
    glm_vec3_subsub(dest), glm_vec3_addsub(dest), glm_vec3_mulsub(dest),
    glm_vec3_mulsubs(dest), glm_vec3_maxsub(dest), glm_vec3_minsub(dest),
    glm_vec4_addadd(dest), glm_vec4_subadd(dest), glm_vec4_muladd(dest),
    glm_vec4_muladds(dest), glm_vec4_maxadd(dest), glm_vec4_minadd(dest),
    glm_vec4_subsub(dest), glm_vec4_addsub(dest), glm_vec4_mulsub(dest),
    glm_vec4_mulsubs(dest), glm_vec4_maxsub(dest), glm_vec4_minsub(dest). *)

From Coq Require Import String List ZArith.
From Verif Require Import MiniC Cglm.
From Verif.Gen Require Export struct_affine struct_affine2d struct_affine_mat struct_affine_post struct_affine_pre struct_box struct_cam struct_clipspace_ortho_lh_no struct_clipspace_ortho_lh_zo struct_clipspace_ortho_rh_no struct_clipspace_ortho_rh_zo struct_clipspace_persp_lh_no struct_clipspace_persp_lh_zo struct_clipspace_persp_rh_no struct_clipspace_persp_rh_zo struct_clipspace_project_no struct_clipspace_project_zo struct_clipspace_view_lh_no struct_clipspace_view_lh_zo struct_clipspace_view_rh_no struct_clipspace_view_rh_zo struct_color struct_curve struct_euler struct_frustum struct_ivec2 struct_ivec3 struct_ivec4 struct_mat2 struct_mat2x3 struct_mat2x4 struct_mat3 struct_mat3x2 struct_mat3x4 struct_mat4 struct_mat4x2 struct_mat4x3 struct_noise struct_plane struct_project struct_quat struct_ray struct_sphere struct_vec2 struct_vec2_ext struct_vec3 struct_vec3_ext struct_vec4 struct_vec4_ext.
From Verif.Spec Require Export Types.
Import ListNotations.
Local Open Scope Z_scope.

Definition sig_aabb2d : list (fundef * list param) := [
  (glm_aabb2d_zero, [Updates Flt 4]);
  (glm_aabb2d_copy, [Reads Flt 4; Writes 4]);
  (glm_aabb2d_transform, [Reads Flt 4; Reads Flt 9; Writes 4]);
  (glm_aabb2d_merge, [Reads Flt 4; Reads Flt 4; Writes 4]);
  (glm_aabb2d_crop, [Reads Flt 4; Reads Flt 4; Writes 4]);
  (glm_aabb2d_crop_until, [Reads Flt 4; Reads Flt 4; Reads Flt 4; Writes 4]);
  (glm_aabb2d_invalidate, [Updates Flt 4]);
  (glm_aabb2d_isvalid, [Reads Flt 4]);
  (glm_aabb2d_diag, [Reads Flt 4]);
  (glm_aabb2d_sizev, [Reads Flt 4; Writes 2]);
  (glm_aabb2d_radius, [Reads Flt 4]);
  (glm_aabb2d_center, [Reads Flt 4; Writes 2]);
  (glm_aabb2d_aabb, [Reads Flt 4; Reads Flt 4]);
  (glm_aabb2d_circle, [Reads Flt 4; Reads Flt 3]);
  (glm_aabb2d_point, [Reads Flt 4; Reads Flt 2]);
  (glm_aabb2d_contains, [Reads Flt 4; Reads Flt 4])].

Definition sig_affine : list (fundef * list param) := [
  (glm_translate_make, [Writes 16; Reads Flt 3]);
  (glm_scale_to, [Reads Flt 16; Reads Flt 3; Writes 16]);
  (glm_scale_make, [Writes 16; Reads Flt 3]);
  (glm_scale, [Updates Flt 16; Reads Flt 3]);
  (glm_scale_uni, [Updates Flt 16; Float]);
  (glm_rotate_make, [Writes 16; Float; Reads Flt 3]);
  (glm_decompose_scalev, [Reads Flt 16; Writes 3]);
  (glm_uniscaled, [Reads Flt 16]);
  (glm_decompose_rs, [Reads Flt 16; Writes 16; Writes 3]);
  (glm_decompose, [Reads Flt 16; Writes 4; Writes 16; Writes 3])].

Definition sig_affine2d : list (fundef * list param) := [
  (glm_translate2d, [Updates Flt 9; Reads Flt 2]);
  (glm_translate2d_to, [Reads Flt 9; Reads Flt 2; Writes 9]);
  (glm_translate2d_x, [Updates Flt 9; Float]);
  (glm_translate2d_y, [Updates Flt 9; Float]);
  (glm_translate2d_make, [Writes 9; Reads Flt 2]);
  (glm_scale2d_to, [Reads Flt 9; Reads Flt 2; Writes 9]);
  (glm_scale2d_make, [Writes 9; Reads Flt 2]);
  (glm_scale2d, [Updates Flt 9; Reads Flt 2]);
  (glm_scale2d_uni, [Updates Flt 9; Float]);
  (glm_rotate2d_make, [Writes 9; Float]);
  (glm_rotate2d, [Updates Flt 9; Float]);
  (glm_rotate2d_to, [Reads Flt 9; Float; Writes 9])].

Definition sig_affine2d_post : list (fundef * list param) := [
  (glm_translated2d, [Updates Flt 9; Reads Flt 2]);
  (glm_translated2d_x, [Updates Flt 9; Float]);
  (glm_translated2d_y, [Updates Flt 9; Float]);
  (glm_rotated2d, [Updates Flt 9; Float]);
  (glm_scaled2d, [Updates Flt 9; Reads Flt 2]);
  (glm_scaled2d_uni, [Updates Flt 9; Float])].

Definition sig_affine_mat : list (fundef * list param) := [
  (glm_mul, [Reads Flt 16; Reads Flt 16; Writes 16]);
  (glm_mul_rot, [Reads Flt 16; Reads Flt 16; Writes 16]);
  (glm_inv_tr, [Updates Flt 16])].

Definition sig_affine_post : list (fundef * list param) := [
  (glm_translated, [Updates Flt 16; Reads Flt 3]);
  (glm_translated_to, [Reads Flt 16; Reads Flt 3; Writes 16]);
  (glm_translated_x, [Updates Flt 16; Float]);
  (glm_translated_y, [Updates Flt 16; Float]);
  (glm_translated_z, [Updates Flt 16; Float]);
  (glm_rotated_x, [Reads Flt 16; Float; Writes 16]);
  (glm_rotated_y, [Reads Flt 16; Float; Writes 16]);
  (glm_rotated_z, [Reads Flt 16; Float; Writes 16]);
  (glm_rotated, [Updates Flt 16; Float; Reads Flt 3]);
  (glm_rotated_at, [Updates Flt 16; Reads Flt 3; Float; Reads Flt 3]);
  (glm_spinned, [Updates Flt 16; Float; Reads Flt 3])].

Definition sig_affine_pre : list (fundef * list param) := [
  (glm_translate, [Updates Flt 16; Reads Flt 3]);
  (glm_translate_to, [Reads Flt 16; Reads Flt 3; Writes 16]);
  (glm_translate_x, [Updates Flt 16; Float]);
  (glm_translate_y, [Updates Flt 16; Float]);
  (glm_translate_z, [Updates Flt 16; Float]);
  (glm_rotate_x, [Reads Flt 16; Float; Writes 16]);
  (glm_rotate_y, [Reads Flt 16; Float; Writes 16]);
  (glm_rotate_z, [Reads Flt 16; Float; Writes 16]);
  (glm_rotate, [Updates Flt 16; Float; Reads Flt 3]);
  (glm_rotate_at, [Updates Flt 16; Reads Flt 3; Float; Reads Flt 3]);
  (glm_rotate_atm, [Writes 16; Reads Flt 3; Float; Reads Flt 3]);
  (glm_spin, [Updates Flt 16; Float; Reads Flt 3])].

Definition sig_bezier : list (fundef * list param) := [
  (glm_bezier, [Float; Float; Float; Float; Float]);
  (glm_hermite, [Float; Float; Float; Float; Float])].

Definition sig_box : list (fundef * list param) := [
  (glm_aabb_transform, [Reads Flt 6; Reads Flt 16; Writes 6]);
  (glm_aabb_merge, [Reads Flt 6; Reads Flt 6; Writes 6]);
  (glm_aabb_crop, [Reads Flt 6; Reads Flt 6; Writes 6]);
  (glm_aabb_crop_until, [Reads Flt 6; Reads Flt 6; Reads Flt 6; Writes 6]);
  (glm_aabb_frustum, [Reads Flt 6; Reads Flt 24]);
  (glm_aabb_invalidate, [Updates Flt 6]);
  (glm_aabb_isvalid, [Reads Flt 6]);
  (glm_aabb_size, [Reads Flt 6]);
  (glm_aabb_radius, [Reads Flt 6]);
  (glm_aabb_center, [Reads Flt 6; Writes 3]);
  (glm_aabb_aabb, [Reads Flt 6; Reads Flt 6]);
  (glm_aabb_sphere, [Reads Flt 6; Reads Flt 4]);
  (glm_aabb_point, [Reads Flt 6; Reads Flt 3]);
  (glm_aabb_contains, [Reads Flt 6; Reads Flt 6])].

Definition sig_cam : list (fundef * list param) := [
  (glm_frustum, [Float; Float; Float; Float; Float; Float; Writes 16]);
  (glm_ortho, [Float; Float; Float; Float; Float; Float; Writes 16]);
  (glm_ortho_aabb, [Reads Flt 6; Writes 16]);
  (glm_ortho_aabb_p, [Reads Flt 6; Float; Writes 16]);
  (glm_ortho_aabb_pz, [Reads Flt 6; Float; Writes 16]);
  (glm_ortho_default, [Float; Writes 16]);
  (glm_ortho_default_s, [Float; Float; Writes 16]);
  (glm_perspective, [Float; Float; Float; Float; Writes 16]);
  (glm_persp_move_far, [Updates Flt 16; Float]);
  (glm_perspective_default, [Float; Writes 16]);
  (glm_perspective_resize, [Float; Updates Flt 16]);
  (glm_lookat, [Reads Flt 3; Reads Flt 3; Reads Flt 3; Writes 16]);
  (glm_look, [Reads Flt 3; Reads Flt 3; Reads Flt 3; Writes 16]);
  (glm_look_anyup, [Reads Flt 3; Reads Flt 3; Writes 16]);
  (glm_persp_decomp, [Reads Flt 16; Writes 1; Writes 1; Writes 1; Writes 1; Writes 1; Writes 1]);
  (glm_persp_decompv, [Reads Flt 16; Writes 6]);
  (glm_persp_decomp_x, [Reads Flt 16; Writes 1; Writes 1]);
  (glm_persp_decomp_y, [Reads Flt 16; Writes 1; Writes 1]);
  (glm_persp_decomp_z, [Reads Flt 16; Writes 1; Writes 1]);
  (glm_persp_decomp_far, [Reads Flt 16; Writes 1]);
  (glm_persp_decomp_near, [Reads Flt 16; Writes 1]);
  (glm_persp_sizes, [Reads Flt 16; Float; Writes 4])].

Definition sig_clipspace_ortho_lh_no : list (fundef * list param) := [
  (glm_ortho_lh_no, [Float; Float; Float; Float; Float; Float; Writes 16]);
  (glm_ortho_aabb_lh_no, [Reads Flt 6; Writes 16]);
  (glm_ortho_aabb_p_lh_no, [Reads Flt 6; Float; Writes 16]);
  (glm_ortho_aabb_pz_lh_no, [Reads Flt 6; Float; Writes 16]);
  (glm_ortho_default_lh_no, [Float; Writes 16]);
  (glm_ortho_default_s_lh_no, [Float; Float; Writes 16])].

Definition sig_clipspace_ortho_lh_zo : list (fundef * list param) := [
  (glm_ortho_lh_zo, [Float; Float; Float; Float; Float; Float; Writes 16]);
  (glm_ortho_aabb_lh_zo, [Reads Flt 6; Writes 16]);
  (glm_ortho_aabb_p_lh_zo, [Reads Flt 6; Float; Writes 16]);
  (glm_ortho_aabb_pz_lh_zo, [Reads Flt 6; Float; Writes 16]);
  (glm_ortho_default_lh_zo, [Float; Writes 16]);
  (glm_ortho_default_s_lh_zo, [Float; Float; Writes 16])].

Definition sig_clipspace_ortho_rh_no : list (fundef * list param) := [
  (glm_ortho_rh_no, [Float; Float; Float; Float; Float; Float; Writes 16]);
  (glm_ortho_aabb_rh_no, [Reads Flt 6; Writes 16]);
  (glm_ortho_aabb_p_rh_no, [Reads Flt 6; Float; Writes 16]);
  (glm_ortho_aabb_pz_rh_no, [Reads Flt 6; Float; Writes 16]);
  (glm_ortho_default_rh_no, [Float; Writes 16]);
  (glm_ortho_default_s_rh_no, [Float; Float; Writes 16])].

Definition sig_clipspace_ortho_rh_zo : list (fundef * list param) := [
  (glm_ortho_rh_zo, [Float; Float; Float; Float; Float; Float; Writes 16]);
  (glm_ortho_aabb_rh_zo, [Reads Flt 6; Writes 16]);
  (glm_ortho_aabb_p_rh_zo, [Reads Flt 6; Float; Writes 16]);
  (glm_ortho_aabb_pz_rh_zo, [Reads Flt 6; Float; Writes 16]);
  (glm_ortho_default_rh_zo, [Float; Writes 16]);
  (glm_ortho_default_s_rh_zo, [Float; Float; Writes 16])].

Definition sig_clipspace_persp : list (fundef * list param) := [
  (glm_persp_fovy, [Reads Flt 16]);
  (glm_persp_aspect, [Reads Flt 16])].

Definition sig_clipspace_persp_lh_no : list (fundef * list param) := [
  (glm_frustum_lh_no, [Float; Float; Float; Float; Float; Float; Writes 16]);
  (glm_perspective_lh_no, [Float; Float; Float; Float; Writes 16]);
  (glm_perspective_default_lh_no, [Float; Writes 16]);
  (glm_perspective_resize_lh_no, [Float; Updates Flt 16]);
  (glm_persp_move_far_lh_no, [Updates Flt 16; Float]);
  (glm_persp_decomp_lh_no, [Reads Flt 16; Writes 1; Writes 1; Writes 1; Writes 1; Writes 1; Writes 1]);
  (glm_persp_decompv_lh_no, [Reads Flt 16; Writes 6]);
  (glm_persp_decomp_x_lh_no, [Reads Flt 16; Writes 1; Writes 1]);
  (glm_persp_decomp_y_lh_no, [Reads Flt 16; Writes 1; Writes 1]);
  (glm_persp_decomp_z_lh_no, [Reads Flt 16; Writes 1; Writes 1]);
  (glm_persp_decomp_far_lh_no, [Reads Flt 16; Writes 1]);
  (glm_persp_decomp_near_lh_no, [Reads Flt 16; Writes 1]);
  (glm_persp_sizes_lh_no, [Reads Flt 16; Float; Writes 4]);
  (glm_persp_fovy_lh_no, [Reads Flt 16]);
  (glm_persp_aspect_lh_no, [Reads Flt 16])].

Definition sig_clipspace_persp_lh_zo : list (fundef * list param) := [
  (glm_frustum_lh_zo, [Float; Float; Float; Float; Float; Float; Writes 16]);
  (glm_perspective_lh_zo, [Float; Float; Float; Float; Writes 16]);
  (glm_persp_move_far_lh_zo, [Updates Flt 16; Float]);
  (glm_perspective_default_lh_zo, [Float; Writes 16]);
  (glm_perspective_resize_lh_zo, [Float; Updates Flt 16]);
  (glm_persp_decomp_lh_zo, [Reads Flt 16; Writes 1; Writes 1; Writes 1; Writes 1; Writes 1; Writes 1]);
  (glm_persp_decompv_lh_zo, [Reads Flt 16; Writes 6]);
  (glm_persp_decomp_x_lh_zo, [Reads Flt 16; Writes 1; Writes 1]);
  (glm_persp_decomp_y_lh_zo, [Reads Flt 16; Writes 1; Writes 1]);
  (glm_persp_decomp_z_lh_zo, [Reads Flt 16; Writes 1; Writes 1]);
  (glm_persp_decomp_far_lh_zo, [Reads Flt 16; Writes 1]);
  (glm_persp_decomp_near_lh_zo, [Reads Flt 16; Writes 1]);
  (glm_persp_sizes_lh_zo, [Reads Flt 16; Float; Writes 4]);
  (glm_persp_fovy_lh_zo, [Reads Flt 16]);
  (glm_persp_aspect_lh_zo, [Reads Flt 16])].

Definition sig_clipspace_persp_rh_no : list (fundef * list param) := [
  (glm_frustum_rh_no, [Float; Float; Float; Float; Float; Float; Writes 16]);
  (glm_perspective_rh_no, [Float; Float; Float; Float; Writes 16]);
  (glm_perspective_default_rh_no, [Float; Writes 16]);
  (glm_perspective_resize_rh_no, [Float; Updates Flt 16]);
  (glm_persp_move_far_rh_no, [Updates Flt 16; Float]);
  (glm_persp_decomp_rh_no, [Reads Flt 16; Writes 1; Writes 1; Writes 1; Writes 1; Writes 1; Writes 1]);
  (glm_persp_decompv_rh_no, [Reads Flt 16; Writes 6]);
  (glm_persp_decomp_x_rh_no, [Reads Flt 16; Writes 1; Writes 1]);
  (glm_persp_decomp_y_rh_no, [Reads Flt 16; Writes 1; Writes 1]);
  (glm_persp_decomp_z_rh_no, [Reads Flt 16; Writes 1; Writes 1]);
  (glm_persp_decomp_far_rh_no, [Reads Flt 16; Writes 1]);
  (glm_persp_decomp_near_rh_no, [Reads Flt 16; Writes 1]);
  (glm_persp_sizes_rh_no, [Reads Flt 16; Float; Writes 4]);
  (glm_persp_fovy_rh_no, [Reads Flt 16]);
  (glm_persp_aspect_rh_no, [Reads Flt 16])].

Definition sig_clipspace_persp_rh_zo : list (fundef * list param) := [
  (glm_frustum_rh_zo, [Float; Float; Float; Float; Float; Float; Writes 16]);
  (glm_perspective_rh_zo, [Float; Float; Float; Float; Writes 16]);
  (glm_perspective_default_rh_zo, [Float; Writes 16]);
  (glm_perspective_resize_rh_zo, [Float; Updates Flt 16]);
  (glm_persp_move_far_rh_zo, [Updates Flt 16; Float]);
  (glm_persp_decomp_rh_zo, [Reads Flt 16; Writes 1; Writes 1; Writes 1; Writes 1; Writes 1; Writes 1]);
  (glm_persp_decompv_rh_zo, [Reads Flt 16; Writes 6]);
  (glm_persp_decomp_x_rh_zo, [Reads Flt 16; Writes 1; Writes 1]);
  (glm_persp_decomp_y_rh_zo, [Reads Flt 16; Writes 1; Writes 1]);
  (glm_persp_decomp_z_rh_zo, [Reads Flt 16; Writes 1; Writes 1]);
  (glm_persp_decomp_far_rh_zo, [Reads Flt 16; Writes 1]);
  (glm_persp_decomp_near_rh_zo, [Reads Flt 16; Writes 1]);
  (glm_persp_sizes_rh_zo, [Reads Flt 16; Float; Writes 4]);
  (glm_persp_fovy_rh_zo, [Reads Flt 16]);
  (glm_persp_aspect_rh_zo, [Reads Flt 16])].

Definition sig_clipspace_project_no : list (fundef * list param) := [
  (glm_unprojecti_no, [Reads Flt 3; Reads Flt 16; Reads Flt 4; Writes 3]);
  (glm_project_no, [Reads Flt 3; Reads Flt 16; Reads Flt 4; Writes 3]);
  (glm_project_z_no, [Reads Flt 3; Reads Flt 16])].

Definition sig_clipspace_project_zo : list (fundef * list param) := [
  (glm_unprojecti_zo, [Reads Flt 3; Reads Flt 16; Reads Flt 4; Writes 3]);
  (glm_project_zo, [Reads Flt 3; Reads Flt 16; Reads Flt 4; Writes 3]);
  (glm_project_z_zo, [Reads Flt 3; Reads Flt 16])].

Definition sig_clipspace_view_lh : list (fundef * list param) := [
  (glm_lookat_lh, [Reads Flt 3; Reads Flt 3; Reads Flt 3; Writes 16]);
  (glm_look_lh, [Reads Flt 3; Reads Flt 3; Reads Flt 3; Writes 16]);
  (glm_look_anyup_lh, [Reads Flt 3; Reads Flt 3; Writes 16])].

Definition sig_clipspace_view_lh_no : list (fundef * list param) := [
  (glm_lookat_lh_no, [Reads Flt 3; Reads Flt 3; Reads Flt 3; Writes 16]);
  (glm_look_lh_no, [Reads Flt 3; Reads Flt 3; Reads Flt 3; Writes 16]);
  (glm_look_anyup_lh_no, [Reads Flt 3; Reads Flt 3; Writes 16])].

Definition sig_clipspace_view_lh_zo : list (fundef * list param) := [
  (glm_lookat_lh_zo, [Reads Flt 3; Reads Flt 3; Reads Flt 3; Writes 16]);
  (glm_look_lh_zo, [Reads Flt 3; Reads Flt 3; Reads Flt 3; Writes 16]);
  (glm_look_anyup_lh_zo, [Reads Flt 3; Reads Flt 3; Writes 16])].

Definition sig_clipspace_view_rh : list (fundef * list param) := [
  (glm_lookat_rh, [Reads Flt 3; Reads Flt 3; Reads Flt 3; Writes 16]);
  (glm_look_rh, [Reads Flt 3; Reads Flt 3; Reads Flt 3; Writes 16]);
  (glm_look_anyup_rh, [Reads Flt 3; Reads Flt 3; Writes 16])].

Definition sig_clipspace_view_rh_no : list (fundef * list param) := [
  (glm_lookat_rh_no, [Reads Flt 3; Reads Flt 3; Reads Flt 3; Writes 16]);
  (glm_look_rh_no, [Reads Flt 3; Reads Flt 3; Reads Flt 3; Writes 16]);
  (glm_look_anyup_rh_no, [Reads Flt 3; Reads Flt 3; Writes 16])].

Definition sig_clipspace_view_rh_zo : list (fundef * list param) := [
  (glm_lookat_rh_zo, [Reads Flt 3; Reads Flt 3; Reads Flt 3; Writes 16]);
  (glm_look_rh_zo, [Reads Flt 3; Reads Flt 3; Reads Flt 3; Writes 16]);
  (glm_look_anyup_rh_zo, [Reads Flt 3; Reads Flt 3; Writes 16])].

Definition sig_color : list (fundef * list param) := [
  (glm_luminance, [Reads Flt 3])].

Definition sig_curve : list (fundef * list param) := [
  (glm_smc, [Float; Reads Flt 16; Reads Flt 4])].

Definition sig_ease : list (fundef * list param) := [
  (glm_ease_linear, [Float]);
  (glm_ease_sine_in, [Float]);
  (glm_ease_sine_out, [Float]);
  (glm_ease_sine_inout, [Float]);
  (glm_ease_quad_in, [Float]);
  (glm_ease_quad_out, [Float]);
  (glm_ease_quad_inout, [Float]);
  (glm_ease_cubic_in, [Float]);
  (glm_ease_cubic_out, [Float]);
  (glm_ease_cubic_inout, [Float]);
  (glm_ease_quart_in, [Float]);
  (glm_ease_quart_out, [Float]);
  (glm_ease_quart_inout, [Float]);
  (glm_ease_quint_in, [Float]);
  (glm_ease_quint_out, [Float]);
  (glm_ease_quint_inout, [Float]);
  (glm_ease_exp_in, [Float]);
  (glm_ease_exp_out, [Float]);
  (glm_ease_exp_inout, [Float]);
  (glm_ease_circ_in, [Float]);
  (glm_ease_circ_out, [Float]);
  (glm_ease_circ_inout, [Float]);
  (glm_ease_back_in, [Float]);
  (glm_ease_back_out, [Float]);
  (glm_ease_back_inout, [Float]);
  (glm_ease_elast_in, [Float]);
  (glm_ease_elast_out, [Float]);
  (glm_ease_elast_inout, [Float]);
  (glm_ease_bounce_out, [Float]);
  (glm_ease_bounce_in, [Float]);
  (glm_ease_bounce_inout, [Float])].

Definition sig_euler : list (fundef * list param) := [
  (glm_euler_order, [Reads Int 3]);
  (glm_euler_angles, [Reads Flt 16; Writes 3]);
  (glm_euler_xyz, [Reads Flt 3; Writes 16]);
  (glm_euler, [Reads Flt 3; Writes 16]);
  (glm_euler_xzy, [Reads Flt 3; Writes 16]);
  (glm_euler_yxz, [Reads Flt 3; Writes 16]);
  (glm_euler_yzx, [Reads Flt 3; Writes 16]);
  (glm_euler_zxy, [Reads Flt 3; Writes 16]);
  (glm_euler_zyx, [Reads Flt 3; Writes 16]);
  (glm_euler_by_order, [Reads Flt 3; Integer; Writes 16]);
  (glm_euler_xyz_quat, [Reads Flt 3; Writes 4]);
  (glm_euler_xzy_quat, [Reads Flt 3; Writes 4]);
  (glm_euler_yxz_quat, [Reads Flt 3; Writes 4]);
  (glm_euler_yzx_quat, [Reads Flt 3; Writes 4]);
  (glm_euler_zxy_quat, [Reads Flt 3; Writes 4]);
  (glm_euler_zyx_quat, [Reads Flt 3; Writes 4])].

Definition sig_frustum : list (fundef * list param) := [
  (glm_frustum_planes, [Reads Flt 16; Writes 24]);
  (glm_frustum_corners, [Reads Flt 16; Writes 32]);
  (glm_frustum_center, [Reads Flt 32; Writes 4]);
  (glm_frustum_box, [Reads Flt 32; Reads Flt 16; Writes 6]);
  (glm_frustum_corners_at, [Reads Flt 32; Float; Float; Writes 16])].

Definition sig_handed_euler_to_quat_lh : list (fundef * list param) := [
  (glm_euler_xyz_quat_lh, [Reads Flt 3; Writes 4]);
  (glm_euler_xzy_quat_lh, [Reads Flt 3; Writes 4]);
  (glm_euler_yxz_quat_lh, [Reads Flt 3; Writes 4]);
  (glm_euler_yzx_quat_lh, [Reads Flt 3; Writes 4]);
  (glm_euler_zxy_quat_lh, [Reads Flt 3; Writes 4]);
  (glm_euler_zyx_quat_lh, [Reads Flt 3; Writes 4])].

Definition sig_handed_euler_to_quat_rh : list (fundef * list param) := [
  (glm_euler_xyz_quat_rh, [Reads Flt 3; Writes 4]);
  (glm_euler_xzy_quat_rh, [Reads Flt 3; Writes 4]);
  (glm_euler_yxz_quat_rh, [Reads Flt 3; Writes 4]);
  (glm_euler_yzx_quat_rh, [Reads Flt 3; Writes 4]);
  (glm_euler_zxy_quat_rh, [Reads Flt 3; Writes 4]);
  (glm_euler_zyx_quat_rh, [Reads Flt 3; Writes 4])].

Definition sig_ivec2 : list (fundef * list param) := [
  (glm_ivec2, [Reads Int 2; Writes 2]);
  (glm_ivec2_copy, [Reads Int 2; Writes 2]);
  (glm_ivec2_zero, [Writes 2]);
  (glm_ivec2_one, [Writes 2]);
  (glm_ivec2_dot, [Reads Int 2; Reads Int 2]);
  (glm_ivec2_cross, [Reads Int 2; Reads Int 2]);
  (glm_ivec2_add, [Reads Int 2; Reads Int 2; Writes 2]);
  (glm_ivec2_adds, [Reads Int 2; Integer; Writes 2]);
  (glm_ivec2_sub, [Reads Int 2; Reads Int 2; Writes 2]);
  (glm_ivec2_subs, [Reads Int 2; Integer; Writes 2]);
  (glm_ivec2_mul, [Reads Int 2; Reads Int 2; Writes 2]);
  (glm_ivec2_scale, [Reads Int 2; Integer; Writes 2]);
  (glm_ivec2_div, [Reads Int 2; Reads Int 2; Writes 2]);
  (glm_ivec2_divs, [Reads Int 2; Integer; Writes 2]);
  (glm_ivec2_mod, [Reads Int 2; Reads Int 2; Writes 2]);
  (glm_ivec2_addadd, [Reads Int 2; Reads Int 2; Updates Int 2]);
  (glm_ivec2_addadds, [Reads Int 2; Integer; Updates Int 2]);
  (glm_ivec2_subadd, [Reads Int 2; Reads Int 2; Updates Int 2]);
  (glm_ivec2_subadds, [Reads Int 2; Integer; Updates Int 2]);
  (glm_ivec2_muladd, [Reads Int 2; Reads Int 2; Updates Int 2]);
  (glm_ivec2_muladds, [Reads Int 2; Integer; Updates Int 2]);
  (glm_ivec2_maxadd, [Reads Int 2; Reads Int 2; Updates Int 2]);
  (glm_ivec2_minadd, [Reads Int 2; Reads Int 2; Updates Int 2]);
  (glm_ivec2_subsub, [Reads Int 2; Reads Int 2; Updates Int 2]);
  (glm_ivec2_subsubs, [Reads Int 2; Integer; Updates Int 2]);
  (glm_ivec2_addsub, [Reads Int 2; Reads Int 2; Updates Int 2]);
  (glm_ivec2_addsubs, [Reads Int 2; Integer; Updates Int 2]);
  (glm_ivec2_mulsub, [Reads Int 2; Reads Int 2; Updates Int 2]);
  (glm_ivec2_mulsubs, [Reads Int 2; Integer; Updates Int 2]);
  (glm_ivec2_maxsub, [Reads Int 2; Reads Int 2; Updates Int 2]);
  (glm_ivec2_minsub, [Reads Int 2; Reads Int 2; Updates Int 2]);
  (glm_ivec2_distance2, [Reads Int 2; Reads Int 2]);
  (glm_ivec2_distance, [Reads Int 2; Reads Int 2]);
  (glm_ivec2_fill, [Writes 2; Integer]);
  (glm_ivec2_eq, [Reads Int 2; Integer]);
  (glm_ivec2_eqv, [Reads Int 2; Reads Int 2]);
  (glm_ivec2_maxv, [Reads Int 2; Reads Int 2; Writes 2]);
  (glm_ivec2_minv, [Reads Int 2; Reads Int 2; Writes 2]);
  (glm_ivec2_clamp, [Updates Int 2; Integer; Integer]);
  (glm_ivec2_abs, [Reads Int 2; Writes 2])].

Definition sig_ivec3 : list (fundef * list param) := [
  (glm_ivec3, [Reads Int 4; Writes 3]);
  (glm_ivec3_copy, [Reads Int 3; Writes 3]);
  (glm_ivec3_zero, [Writes 3]);
  (glm_ivec3_one, [Writes 3]);
  (glm_ivec3_dot, [Reads Int 3; Reads Int 3]);
  (glm_ivec3_norm2, [Reads Int 3]);
  (glm_ivec3_add, [Reads Int 3; Reads Int 3; Writes 3]);
  (glm_ivec3_adds, [Reads Int 3; Integer; Writes 3]);
  (glm_ivec3_sub, [Reads Int 3; Reads Int 3; Writes 3]);
  (glm_ivec3_subs, [Reads Int 3; Integer; Writes 3]);
  (glm_ivec3_mul, [Reads Int 3; Reads Int 3; Writes 3]);
  (glm_ivec3_scale, [Reads Int 3; Integer; Writes 3]);
  (glm_ivec3_div, [Reads Int 3; Reads Int 3; Writes 3]);
  (glm_ivec3_divs, [Reads Int 3; Integer; Writes 3]);
  (glm_ivec3_mod, [Reads Int 3; Reads Int 3; Writes 3]);
  (glm_ivec3_addadd, [Reads Int 3; Reads Int 3; Updates Int 3]);
  (glm_ivec3_addadds, [Reads Int 3; Integer; Updates Int 3]);
  (glm_ivec3_subadd, [Reads Int 3; Reads Int 3; Updates Int 3]);
  (glm_ivec3_subadds, [Reads Int 3; Integer; Updates Int 3]);
  (glm_ivec3_muladd, [Reads Int 3; Reads Int 3; Updates Int 3]);
  (glm_ivec3_muladds, [Reads Int 3; Integer; Updates Int 3]);
  (glm_ivec3_maxadd, [Reads Int 3; Reads Int 3; Updates Int 3]);
  (glm_ivec3_minadd, [Reads Int 3; Reads Int 3; Updates Int 3]);
  (glm_ivec3_subsub, [Reads Int 3; Reads Int 3; Updates Int 3]);
  (glm_ivec3_subsubs, [Reads Int 3; Integer; Updates Int 3]);
  (glm_ivec3_addsub, [Reads Int 3; Reads Int 3; Updates Int 3]);
  (glm_ivec3_addsubs, [Reads Int 3; Integer; Updates Int 3]);
  (glm_ivec3_mulsub, [Reads Int 3; Reads Int 3; Updates Int 3]);
  (glm_ivec3_mulsubs, [Reads Int 3; Integer; Updates Int 3]);
  (glm_ivec3_maxsub, [Reads Int 3; Reads Int 3; Updates Int 3]);
  (glm_ivec3_minsub, [Reads Int 3; Reads Int 3; Updates Int 3]);
  (glm_ivec3_distance2, [Reads Int 3; Reads Int 3]);
  (glm_ivec3_distance, [Reads Int 3; Reads Int 3]);
  (glm_ivec3_fill, [Writes 3; Integer]);
  (glm_ivec3_eq, [Reads Int 3; Integer]);
  (glm_ivec3_eqv, [Reads Int 3; Reads Int 3]);
  (glm_ivec3_maxv, [Reads Int 3; Reads Int 3; Writes 3]);
  (glm_ivec3_minv, [Reads Int 3; Reads Int 3; Writes 3]);
  (glm_ivec3_clamp, [Updates Int 3; Integer; Integer]);
  (glm_ivec3_abs, [Reads Int 3; Writes 3])].

Definition sig_ivec4 : list (fundef * list param) := [
  (glm_ivec4, [Reads Int 3; Integer; Writes 4]);
  (glm_ivec4_copy, [Reads Int 4; Writes 4]);
  (glm_ivec4_zero, [Writes 4]);
  (glm_ivec4_one, [Writes 4]);
  (glm_ivec4_add, [Reads Int 4; Reads Int 4; Writes 4]);
  (glm_ivec4_adds, [Reads Int 4; Integer; Writes 4]);
  (glm_ivec4_sub, [Reads Int 4; Reads Int 4; Writes 4]);
  (glm_ivec4_subs, [Reads Int 4; Integer; Writes 4]);
  (glm_ivec4_mul, [Reads Int 4; Reads Int 4; Writes 4]);
  (glm_ivec4_scale, [Reads Int 4; Integer; Writes 4]);
  (glm_ivec4_addadd, [Reads Int 4; Reads Int 4; Updates Int 4]);
  (glm_ivec4_addadds, [Reads Int 4; Integer; Updates Int 4]);
  (glm_ivec4_subadd, [Reads Int 4; Reads Int 4; Updates Int 4]);
  (glm_ivec4_subadds, [Reads Int 4; Integer; Updates Int 4]);
  (glm_ivec4_muladd, [Reads Int 4; Reads Int 4; Updates Int 4]);
  (glm_ivec4_muladds, [Reads Int 4; Integer; Updates Int 4]);
  (glm_ivec4_maxadd, [Reads Int 4; Reads Int 4; Updates Int 4]);
  (glm_ivec4_minadd, [Reads Int 4; Reads Int 4; Updates Int 4]);
  (glm_ivec4_subsub, [Reads Int 4; Reads Int 4; Updates Int 4]);
  (glm_ivec4_subsubs, [Reads Int 4; Integer; Updates Int 4]);
  (glm_ivec4_addsub, [Reads Int 4; Reads Int 4; Updates Int 4]);
  (glm_ivec4_addsubs, [Reads Int 4; Integer; Updates Int 4]);
  (glm_ivec4_mulsub, [Reads Int 4; Reads Int 4; Updates Int 4]);
  (glm_ivec4_mulsubs, [Reads Int 4; Integer; Updates Int 4]);
  (glm_ivec4_maxsub, [Reads Int 4; Reads Int 4; Updates Int 4]);
  (glm_ivec4_minsub, [Reads Int 4; Reads Int 4; Updates Int 4]);
  (glm_ivec4_distance2, [Reads Int 4; Reads Int 4]);
  (glm_ivec4_distance, [Reads Int 4; Reads Int 4]);
  (glm_ivec4_maxv, [Reads Int 4; Reads Int 4; Writes 4]);
  (glm_ivec4_minv, [Reads Int 4; Reads Int 4; Writes 4]);
  (glm_ivec4_clamp, [Updates Int 4; Integer; Integer]);
  (glm_ivec4_abs, [Reads Int 4; Writes 4])].

Definition sig_mat2 : list (fundef * list param) := [
  (glm_mat2_make, [Reads Flt 4; Writes 4]);
  (glm_mat2_copy, [Reads Flt 4; Writes 4]);
  (glm_mat2_identity, [Updates Flt 4]);
  (glm_mat2_zero, [Updates Flt 4]);
  (glm_mat2_mul, [Reads Flt 4; Reads Flt 4; Writes 4]);
  (glm_mat2_mulv, [Reads Flt 4; Reads Flt 2; Writes 2]);
  (glm_mat2_transpose_to, [Reads Flt 4; Writes 4]);
  (glm_mat2_transpose, [Updates Flt 4]);
  (glm_mat2_scale, [Updates Flt 4; Float]);
  (glm_mat2_inv, [Reads Flt 4; Writes 4]);
  (glm_mat2_swap_col, [Updates Flt 4; Index 2; Index 2]);
  (glm_mat2_swap_row, [Updates Flt 4; Index 2; Index 2]);
  (glm_mat2_det, [Reads Flt 4]);
  (glm_mat2_trace, [Reads Flt 4]);
  (glm_mat2_rmc, [Reads Flt 2; Reads Flt 4; Reads Flt 2])].

Definition sig_mat2x3 : list (fundef * list param) := [
  (glm_mat2x3_copy, [Reads Flt 6; Writes 6]);
  (glm_mat2x3_zero, [Writes 6]);
  (glm_mat2x3_make, [Reads Flt 6; Writes 6]);
  (glm_mat2x3_mul, [Reads Flt 6; Reads Flt 6; Writes 9]);
  (glm_mat2x3_mulv, [Reads Flt 6; Reads Flt 2; Writes 3]);
  (glm_mat2x3_transpose, [Reads Flt 6; Writes 6]);
  (glm_mat2x3_scale, [Updates Flt 6; Float])].

Definition sig_mat2x4 : list (fundef * list param) := [
  (glm_mat2x4_copy, [Reads Flt 8; Writes 8]);
  (glm_mat2x4_zero, [Writes 8]);
  (glm_mat2x4_make, [Reads Flt 8; Writes 8]);
  (glm_mat2x4_mul, [Reads Flt 8; Reads Flt 8; Writes 16]);
  (glm_mat2x4_mulv, [Reads Flt 8; Reads Flt 2; Writes 4]);
  (glm_mat2x4_transpose, [Reads Flt 8; Writes 8]);
  (glm_mat2x4_scale, [Updates Flt 8; Float])].

Definition sig_mat3 : list (fundef * list param) := [
  (glm_mat3_copy, [Reads Flt 9; Writes 9]);
  (glm_mat3_identity, [Updates Flt 9]);
  (glm_mat3_zero, [Updates Flt 9]);
  (glm_mat3_mul, [Reads Flt 9; Reads Flt 9; Writes 9]);
  (glm_mat3_transpose_to, [Reads Flt 9; Writes 9]);
  (glm_mat3_transpose, [Updates Flt 9]);
  (glm_mat3_mulv, [Reads Flt 9; Reads Flt 3; Writes 3]);
  (glm_mat3_trace, [Reads Flt 9]);
  (glm_mat3_quat, [Reads Flt 9; Writes 4]);
  (glm_mat3_scale, [Updates Flt 9; Float]);
  (glm_mat3_det, [Reads Flt 9]);
  (glm_mat3_inv, [Reads Flt 9; Writes 9]);
  (glm_mat3_swap_col, [Updates Flt 9; Index 3; Index 3]);
  (glm_mat3_swap_row, [Updates Flt 9; Index 3; Index 3]);
  (glm_mat3_rmc, [Reads Flt 3; Reads Flt 9; Reads Flt 3]);
  (glm_mat3_make, [Reads Flt 9; Writes 9]);
  (glm_mat3_textrans, [Float; Float; Float; Float; Float; Writes 9])].

Definition sig_mat3x2 : list (fundef * list param) := [
  (glm_mat3x2_copy, [Reads Flt 6; Writes 6]);
  (glm_mat3x2_zero, [Writes 6]);
  (glm_mat3x2_make, [Reads Flt 6; Writes 6]);
  (glm_mat3x2_mul, [Reads Flt 6; Reads Flt 6; Writes 4]);
  (glm_mat3x2_mulv, [Reads Flt 6; Reads Flt 3; Writes 2]);
  (glm_mat3x2_transpose, [Reads Flt 6; Writes 6]);
  (glm_mat3x2_scale, [Updates Flt 6; Float])].

Definition sig_mat3x4 : list (fundef * list param) := [
  (glm_mat3x4_copy, [Reads Flt 12; Writes 12]);
  (glm_mat3x4_zero, [Writes 12]);
  (glm_mat3x4_make, [Reads Flt 12; Writes 12]);
  (glm_mat3x4_mul, [Reads Flt 12; Reads Flt 12; Writes 16]);
  (glm_mat3x4_mulv, [Reads Flt 12; Reads Flt 3; Writes 4]);
  (glm_mat3x4_transpose, [Reads Flt 12; Writes 12]);
  (glm_mat3x4_scale, [Updates Flt 12; Float])].

Definition sig_mat4 : list (fundef * list param) := [
  (glm_mat4_ucopy, [Reads Flt 16; Writes 16]);
  (glm_mat4_copy, [Reads Flt 16; Writes 16]);
  (glm_mat4_identity, [Updates Flt 16]);
  (glm_mat4_zero, [Updates Flt 16]);
  (glm_mat4_pick3, [Reads Flt 16; Writes 9]);
  (glm_mat4_pick3t, [Reads Flt 16; Writes 9]);
  (glm_mat4_ins3, [Reads Flt 9; Writes 16]);
  (glm_mat4_mul, [Reads Flt 16; Reads Flt 16; Writes 16]);
  (glm_mat4_mulv, [Reads Flt 16; Reads Flt 4; Writes 4]);
  (glm_mat4_trace, [Reads Flt 16]);
  (glm_mat4_trace3, [Reads Flt 16]);
  (glm_mat4_quat, [Reads Flt 16; Writes 4]);
  (glm_mat4_mulv3, [Reads Flt 16; Reads Flt 3; Float; Writes 3]);
  (glm_mat4_transpose_to, [Reads Flt 16; Writes 16]);
  (glm_mat4_transpose, [Updates Flt 16]);
  (glm_mat4_scale_p, [Updates Flt 16; Float]);
  (glm_mat4_scale, [Updates Flt 16; Float]);
  (glm_mat4_det, [Reads Flt 16]);
  (glm_mat4_inv, [Reads Flt 16; Writes 16]);
  (glm_mat4_inv_fast, [Reads Flt 16; Writes 16]);
  (glm_mat4_swap_col, [Updates Flt 16; Index 4; Index 4]);
  (glm_mat4_swap_row, [Updates Flt 16; Index 4; Index 4]);
  (glm_mat4_rmc, [Reads Flt 4; Reads Flt 16; Reads Flt 4]);
  (glm_mat4_make, [Reads Flt 16; Writes 16]);
  (glm_mat4_textrans, [Float; Float; Float; Float; Float; Writes 16])].

Definition sig_mat4x2 : list (fundef * list param) := [
  (glm_mat4x2_copy, [Reads Flt 8; Writes 8]);
  (glm_mat4x2_zero, [Writes 8]);
  (glm_mat4x2_make, [Reads Flt 8; Writes 8]);
  (glm_mat4x2_mul, [Reads Flt 8; Reads Flt 8; Writes 4]);
  (glm_mat4x2_mulv, [Reads Flt 8; Reads Flt 4; Writes 2]);
  (glm_mat4x2_transpose, [Reads Flt 8; Writes 8]);
  (glm_mat4x2_scale, [Updates Flt 8; Float])].

Definition sig_mat4x3 : list (fundef * list param) := [
  (glm_mat4x3_copy, [Reads Flt 12; Writes 12]);
  (glm_mat4x3_zero, [Writes 12]);
  (glm_mat4x3_make, [Reads Flt 12; Writes 12]);
  (glm_mat4x3_mul, [Reads Flt 12; Reads Flt 12; Writes 9]);
  (glm_mat4x3_mulv, [Reads Flt 12; Reads Flt 4; Writes 3]);
  (glm_mat4x3_transpose, [Reads Flt 12; Writes 12]);
  (glm_mat4x3_scale, [Updates Flt 12; Float])].

Definition sig_noise : list (fundef * list param) := [
  (glm_perlin_vec4, [Reads Flt 4]);
  (glm_perlin_vec3, [Reads Flt 3]);
  (glm_perlin_vec2, [Reads Flt 2])].

Definition sig_plane : list (fundef * list param) := [
  (glm_plane_normalize, [Updates Flt 4])].

Definition sig_project : list (fundef * list param) := [
  (glm_unprojecti, [Reads Flt 3; Reads Flt 16; Reads Flt 4; Writes 3]);
  (glm_unproject, [Reads Flt 3; Reads Flt 16; Reads Flt 4; Writes 3]);
  (glm_project, [Reads Flt 3; Reads Flt 16; Reads Flt 4; Writes 3]);
  (glm_project_z, [Reads Flt 3; Reads Flt 16]);
  (glm_pickmatrix, [Reads Flt 2; Reads Flt 2; Reads Flt 4; Writes 16])].

Definition sig_quat : list (fundef * list param) := [
  (glm_quat_identity, [Updates Flt 4]);
  (glm_quat_init, [Writes 4; Float; Float; Float; Float]);
  (glm_quatv, [Writes 4; Float; Reads Flt 3]);
  (glm_quat, [Writes 4; Float; Float; Float; Float]);
  (glm_quat_copy, [Reads Flt 4; Writes 4]);
  (glm_quat_normalize_to, [Reads Flt 4; Writes 4]);
  (glm_quat_normalize, [Updates Flt 4]);
  (glm_quat_from_vecs, [Reads Flt 3; Reads Flt 3; Writes 4]);
  (glm_quat_norm, [Reads Flt 4]);
  (glm_quat_dot, [Reads Flt 4; Reads Flt 4]);
  (glm_quat_conjugate, [Reads Flt 4; Writes 4]);
  (glm_quat_inv, [Reads Flt 4; Writes 4]);
  (glm_quat_add, [Reads Flt 4; Reads Flt 4; Writes 4]);
  (glm_quat_sub, [Reads Flt 4; Reads Flt 4; Writes 4]);
  (glm_quat_real, [Reads Flt 4]);
  (glm_quat_imag, [Reads Flt 4; Writes 3]);
  (glm_quat_imagn, [Reads Flt 4; Writes 3]);
  (glm_quat_imaglen, [Reads Flt 4]);
  (glm_quat_angle, [Reads Flt 4]);
  (glm_quat_axis, [Reads Flt 4; Writes 3]);
  (glm_quat_mul, [Reads Flt 4; Reads Flt 4; Writes 4]);
  (glm_quat_mat4, [Reads Flt 4; Writes 16]);
  (glm_quat_mat4t, [Reads Flt 4; Writes 16]);
  (glm_quat_mat3, [Reads Flt 4; Writes 9]);
  (glm_quat_mat3t, [Reads Flt 4; Writes 9]);
  (glm_quat_lerp, [Reads Flt 4; Reads Flt 4; Float; Writes 4]);
  (glm_quat_lerpc, [Reads Flt 4; Reads Flt 4; Float; Writes 4]);
  (glm_quat_nlerp, [Reads Flt 4; Reads Flt 4; Float; Writes 4]);
  (glm_quat_slerp, [Reads Flt 4; Reads Flt 4; Float; Writes 4]);
  (glm_quat_slerp_longest, [Reads Flt 4; Reads Flt 4; Float; Writes 4]);
  (glm_quat_look, [Reads Flt 3; Reads Flt 4; Writes 16]);
  (glm_quat_for, [Reads Flt 3; Reads Flt 3; Writes 4]);
  (glm_quat_forp, [Reads Flt 3; Reads Flt 3; Reads Flt 3; Writes 4]);
  (glm_quat_rotatev, [Reads Flt 4; Reads Flt 3; Writes 3]);
  (glm_quat_rotate, [Reads Flt 16; Reads Flt 4; Writes 16]);
  (glm_quat_rotate_at, [Updates Flt 16; Reads Flt 4; Reads Flt 3]);
  (glm_quat_rotate_atm, [Writes 16; Reads Flt 4; Reads Flt 3]);
  (glm_quat_make, [Reads Flt 4; Writes 4])].

Definition sig_ray : list (fundef * list param) := [
  (glm_ray_triangle, [Reads Flt 3; Reads Flt 3; Reads Flt 3; Reads Flt 3; Reads Flt 3; Updates Flt 1]);
  (glm_ray_sphere, [Reads Flt 3; Reads Flt 3; Reads Flt 4; Writes 1; Writes 1]);
  (glm_ray_at, [Reads Flt 3; Reads Flt 3; Float; Writes 3])].

Definition sig_sphere : list (fundef * list param) := [
  (glm_sphere_radii, [Reads Flt 4]);
  (glm_sphere_transform, [Reads Flt 4; Reads Flt 16; Writes 4]);
  (glm_sphere_merge, [Reads Flt 4; Reads Flt 4; Writes 4]);
  (glm_sphere_sphere, [Reads Flt 4; Reads Flt 4]);
  (glm_sphere_point, [Reads Flt 4; Reads Flt 3])].

Definition sig_struct_affine : list (fundef * list param) := [
  (glms_translate_make, [Struct Flt 3]);
  (glms_scale_make, [Struct Flt 3]);
  (glms_scale, [Struct Flt 16; Struct Flt 3]);
  (glms_scale_uni, [Struct Flt 16; Float]);
  (glms_rotate_make, [Float; Struct Flt 3]);
  (glms_rotate_atm, [Struct Flt 3; Float; Struct Flt 3]);
  (glms_decompose_scalev, [Struct Flt 16]);
  (glms_uniscaled, [Struct Flt 16]);
  (glms_decompose_rs, [Struct Flt 16; Writes 16; Writes 3]);
  (glms_decompose, [Struct Flt 16; Writes 4; Writes 16; Writes 3])].

Definition sig_struct_affine2d : list (fundef * list param) := [
  (glms_translate2d, [Struct Flt 9; Struct Flt 2]);
  (glms_translate2d_x, [Struct Flt 9; Float]);
  (glms_translate2d_y, [Struct Flt 9; Float]);
  (glms_translate2d_make, [Struct Flt 2]);
  (glms_scale2d_make, [Struct Flt 2]);
  (glms_scale2d, [Struct Flt 9; Struct Flt 2]);
  (glms_scale2d_uni, [Struct Flt 9; Float]);
  (glms_rotate2d_make, [Float]);
  (glms_rotate2d, [Struct Flt 9; Float]);
  (glms_rotate2d_to, [Struct Flt 9; Float])].

Definition sig_struct_affine_mat : list (fundef * list param) := [
  (glms_mul, [Struct Flt 16; Struct Flt 16]);
  (glms_mul_rot, [Struct Flt 16; Struct Flt 16]);
  (glms_inv_tr, [Struct Flt 16])].

Definition sig_struct_affine_post : list (fundef * list param) := [
  (glms_translated, [Struct Flt 16; Struct Flt 3]);
  (glms_translated_x, [Struct Flt 16; Float]);
  (glms_translated_y, [Struct Flt 16; Float]);
  (glms_translated_z, [Struct Flt 16; Float]);
  (glms_rotated_x, [Struct Flt 16; Float]);
  (glms_rotated_y, [Struct Flt 16; Float]);
  (glms_rotated_z, [Struct Flt 16; Float]);
  (glms_rotated, [Struct Flt 16; Float; Struct Flt 3]);
  (glms_rotated_at, [Struct Flt 16; Struct Flt 3; Float; Struct Flt 3]);
  (glms_spinned, [Struct Flt 16; Float; Struct Flt 3])].

Definition sig_struct_affine_pre : list (fundef * list param) := [
  (glms_translate, [Struct Flt 16; Struct Flt 3]);
  (glms_translate_x, [Struct Flt 16; Float]);
  (glms_translate_y, [Struct Flt 16; Float]);
  (glms_translate_z, [Struct Flt 16; Float]);
  (glms_rotate_x, [Struct Flt 16; Float]);
  (glms_rotate_y, [Struct Flt 16; Float]);
  (glms_rotate_z, [Struct Flt 16; Float]);
  (glms_rotate, [Struct Flt 16; Float; Struct Flt 3]);
  (glms_rotate_at, [Struct Flt 16; Struct Flt 3; Float; Struct Flt 3]);
  (glms_spin, [Struct Flt 16; Float; Struct Flt 3])].

Definition sig_struct_box : list (fundef * list param) := [
  (glms_aabb_transform, [Reads Flt 6; Struct Flt 16; Writes 6]);
  (glms_aabb_merge, [Reads Flt 6; Reads Flt 6; Writes 6]);
  (glms_aabb_crop, [Reads Flt 6; Reads Flt 6; Writes 6]);
  (glms_aabb_crop_until, [Reads Flt 6; Reads Flt 6; Reads Flt 6; Writes 6]);
  (glms_aabb_frustum, [Reads Flt 6; Reads Flt 24]);
  (glms_aabb_invalidate, [Updates Flt 6]);
  (glms_aabb_isvalid, [Reads Flt 6]);
  (glms_aabb_size, [Reads Flt 6]);
  (glms_aabb_radius, [Reads Flt 6]);
  (glms_aabb_center, [Reads Flt 6]);
  (glms_aabb_aabb, [Reads Flt 6; Reads Flt 6]);
  (glms_aabb_sphere, [Reads Flt 6; Struct Flt 4]);
  (glms_aabb_point, [Reads Flt 6; Struct Flt 3]);
  (glms_aabb_contains, [Reads Flt 6; Reads Flt 6])].

Definition sig_struct_cam : list (fundef * list param) := [
  (glms_frustum, [Float; Float; Float; Float; Float; Float]);
  (glms_ortho, [Float; Float; Float; Float; Float; Float]);
  (glms_ortho_aabb, [Reads Flt 6]);
  (glms_ortho_aabb_p, [Reads Flt 6; Float]);
  (glms_ortho_aabb_pz, [Reads Flt 6; Float]);
  (glms_ortho_default, [Float]);
  (glms_ortho_default_s, [Float; Float]);
  (glms_perspective, [Float; Float; Float; Float]);
  (glms_persp_move_far, [Struct Flt 16; Float]);
  (glms_perspective_default, [Float]);
  (glms_perspective_resize, [Struct Flt 16; Float]);
  (glms_lookat, [Struct Flt 3; Struct Flt 3; Struct Flt 3]);
  (glms_look, [Struct Flt 3; Struct Flt 3; Struct Flt 3]);
  (glms_look_anyup, [Struct Flt 3; Struct Flt 3]);
  (glms_persp_decomp, [Struct Flt 16; Writes 1; Writes 1; Writes 1; Writes 1; Writes 1; Writes 1]);
  (glms_persp_decompv, [Struct Flt 16; Writes 6]);
  (glms_persp_decomp_x, [Struct Flt 16; Writes 1; Writes 1]);
  (glms_persp_decomp_y, [Struct Flt 16; Writes 1; Writes 1]);
  (glms_persp_decomp_z, [Struct Flt 16; Writes 1; Writes 1]);
  (glms_persp_decomp_far, [Struct Flt 16; Writes 1]);
  (glms_persp_decomp_near, [Struct Flt 16; Writes 1]);
  (glms_persp_fovy, [Struct Flt 16]);
  (glms_persp_aspect, [Struct Flt 16]);
  (glms_persp_sizes, [Struct Flt 16; Float])].

Definition sig_struct_clipspace_ortho_lh_no : list (fundef * list param) := [
  (glms_ortho_lh_no, [Float; Float; Float; Float; Float; Float]);
  (glms_ortho_aabb_lh_no, [Reads Flt 6]);
  (glms_ortho_aabb_p_lh_no, [Reads Flt 6; Float]);
  (glms_ortho_aabb_pz_lh_no, [Reads Flt 6; Float]);
  (glms_ortho_default_lh_no, [Float]);
  (glms_ortho_default_s_lh_no, [Float; Float])].

Definition sig_struct_clipspace_ortho_lh_zo : list (fundef * list param) := [
  (glms_ortho_lh_zo, [Float; Float; Float; Float; Float; Float]);
  (glms_ortho_aabb_lh_zo, [Reads Flt 6]);
  (glms_ortho_aabb_p_lh_zo, [Reads Flt 6; Float]);
  (glms_ortho_aabb_pz_lh_zo, [Reads Flt 6; Float]);
  (glms_ortho_default_lh_zo, [Float]);
  (glms_ortho_default_s_lh_zo, [Float; Float])].

Definition sig_struct_clipspace_ortho_rh_no : list (fundef * list param) := [
  (glms_ortho_rh_no, [Float; Float; Float; Float; Float; Float]);
  (glms_ortho_aabb_rh_no, [Reads Flt 6]);
  (glms_ortho_aabb_p_rh_no, [Reads Flt 6; Float]);
  (glms_ortho_aabb_pz_rh_no, [Reads Flt 6; Float]);
  (glms_ortho_default_rh_no, [Float]);
  (glms_ortho_default_s_rh_no, [Float; Float])].

Definition sig_struct_clipspace_ortho_rh_zo : list (fundef * list param) := [
  (glms_ortho_rh_zo, [Float; Float; Float; Float; Float; Float]);
  (glms_ortho_aabb_rh_zo, [Reads Flt 6]);
  (glms_ortho_aabb_p_rh_zo, [Reads Flt 6; Float]);
  (glms_ortho_aabb_pz_rh_zo, [Reads Flt 6; Float]);
  (glms_ortho_default_rh_zo, [Float]);
  (glms_ortho_default_s_rh_zo, [Float; Float])].

Definition sig_struct_clipspace_persp_lh_no : list (fundef * list param) := [
  (glms_frustum_lh_no, [Float; Float; Float; Float; Float; Float]);
  (glms_perspective_lh_no, [Float; Float; Float; Float]);
  (glms_persp_move_far_lh_no, [Struct Flt 16; Float]);
  (glms_perspective_default_lh_no, [Float]);
  (glms_perspective_resize_lh_no, [Struct Flt 16; Float]);
  (glms_persp_decomp_lh_no, [Struct Flt 16; Writes 1; Writes 1; Writes 1; Writes 1; Writes 1; Writes 1]);
  (glms_persp_decompv_lh_no, [Struct Flt 16; Writes 6]);
  (glms_persp_decomp_x_lh_no, [Struct Flt 16; Writes 1; Writes 1]);
  (glms_persp_decomp_y_lh_no, [Struct Flt 16; Writes 1; Writes 1]);
  (glms_persp_decomp_z_lh_no, [Struct Flt 16; Writes 1; Writes 1]);
  (glms_persp_decomp_far_lh_no, [Struct Flt 16; Writes 1]);
  (glms_persp_decomp_near_lh_no, [Struct Flt 16; Writes 1]);
  (glms_persp_fovy_lh_no, [Struct Flt 16]);
  (glms_persp_aspect_lh_no, [Struct Flt 16]);
  (glms_persp_sizes_lh_no, [Struct Flt 16; Float])].

Definition sig_struct_clipspace_persp_lh_zo : list (fundef * list param) := [
  (glms_frustum_lh_zo, [Float; Float; Float; Float; Float; Float]);
  (glms_perspective_lh_zo, [Float; Float; Float; Float]);
  (glms_persp_move_far_lh_zo, [Struct Flt 16; Float]);
  (glms_perspective_default_lh_zo, [Float]);
  (glms_perspective_resize_lh_zo, [Struct Flt 16; Float]);
  (glms_persp_decomp_lh_zo, [Struct Flt 16; Writes 1; Writes 1; Writes 1; Writes 1; Writes 1; Writes 1]);
  (glms_persp_decompv_lh_zo, [Struct Flt 16; Writes 6]);
  (glms_persp_decomp_x_lh_zo, [Struct Flt 16; Writes 1; Writes 1]);
  (glms_persp_decomp_y_lh_zo, [Struct Flt 16; Writes 1; Writes 1]);
  (glms_persp_decomp_z_lh_zo, [Struct Flt 16; Writes 1; Writes 1]);
  (glms_persp_decomp_far_lh_zo, [Struct Flt 16; Writes 1]);
  (glms_persp_decomp_near_lh_zo, [Struct Flt 16; Writes 1]);
  (glms_persp_fovy_lh_zo, [Struct Flt 16]);
  (glms_persp_aspect_lh_zo, [Struct Flt 16]);
  (glms_persp_sizes_lh_zo, [Struct Flt 16; Float])].

Definition sig_struct_clipspace_persp_rh_no : list (fundef * list param) := [
  (glms_frustum_rh_no, [Float; Float; Float; Float; Float; Float]);
  (glms_perspective_rh_no, [Float; Float; Float; Float]);
  (glms_persp_move_far_rh_no, [Struct Flt 16; Float]);
  (glms_perspective_default_rh_no, [Float]);
  (glms_perspective_resize_rh_no, [Struct Flt 16; Float]);
  (glms_persp_decomp_rh_no, [Struct Flt 16; Writes 1; Writes 1; Writes 1; Writes 1; Writes 1; Writes 1]);
  (glms_persp_decompv_rh_no, [Struct Flt 16; Writes 6]);
  (glms_persp_decomp_x_rh_no, [Struct Flt 16; Writes 1; Writes 1]);
  (glms_persp_decomp_y_rh_no, [Struct Flt 16; Writes 1; Writes 1]);
  (glms_persp_decomp_z_rh_no, [Struct Flt 16; Writes 1; Writes 1]);
  (glms_persp_decomp_far_rh_no, [Struct Flt 16; Writes 1]);
  (glms_persp_decomp_near_rh_no, [Struct Flt 16; Writes 1]);
  (glms_persp_fovy_rh_no, [Struct Flt 16]);
  (glms_persp_aspect_rh_no, [Struct Flt 16]);
  (glms_persp_sizes_rh_no, [Struct Flt 16; Float])].

Definition sig_struct_clipspace_persp_rh_zo : list (fundef * list param) := [
  (glms_frustum_rh_zo, [Float; Float; Float; Float; Float; Float]);
  (glms_perspective_rh_zo, [Float; Float; Float; Float]);
  (glms_persp_move_far_rh_zo, [Struct Flt 16; Float]);
  (glms_perspective_default_rh_zo, [Float]);
  (glms_perspective_resize_rh_zo, [Struct Flt 16; Float]);
  (glms_persp_decomp_rh_zo, [Struct Flt 16; Writes 1; Writes 1; Writes 1; Writes 1; Writes 1; Writes 1]);
  (glms_persp_decompv_rh_zo, [Struct Flt 16; Writes 6]);
  (glms_persp_decomp_x_rh_zo, [Struct Flt 16; Writes 1; Writes 1]);
  (glms_persp_decomp_y_rh_zo, [Struct Flt 16; Writes 1; Writes 1]);
  (glms_persp_decomp_z_rh_zo, [Struct Flt 16; Writes 1; Writes 1]);
  (glms_persp_decomp_far_rh_zo, [Struct Flt 16; Writes 1]);
  (glms_persp_decomp_near_rh_zo, [Struct Flt 16; Writes 1]);
  (glms_persp_fovy_rh_zo, [Struct Flt 16]);
  (glms_persp_aspect_rh_zo, [Struct Flt 16]);
  (glms_persp_sizes_rh_zo, [Struct Flt 16; Float])].

Definition sig_struct_clipspace_project_no : list (fundef * list param) := [
  (glms_unprojecti_no, [Struct Flt 3; Struct Flt 16; Struct Flt 4]);
  (glms_project_no, [Struct Flt 3; Struct Flt 16; Struct Flt 4]);
  (glms_project_z_no, [Struct Flt 3; Struct Flt 16])].

Definition sig_struct_clipspace_project_zo : list (fundef * list param) := [
  (glms_unprojecti_zo, [Struct Flt 3; Struct Flt 16; Struct Flt 4]);
  (glms_project_zo, [Struct Flt 3; Struct Flt 16; Struct Flt 4]);
  (glms_project_z_zo, [Struct Flt 3; Struct Flt 16])].

Definition sig_struct_clipspace_view_lh_no : list (fundef * list param) := [
  (glms_lookat_lh_no, [Struct Flt 3; Struct Flt 3; Struct Flt 3]);
  (glms_look_lh_no, [Struct Flt 3; Struct Flt 3; Struct Flt 3]);
  (glms_look_anyup_lh_no, [Struct Flt 3; Struct Flt 3])].

Definition sig_struct_clipspace_view_lh_zo : list (fundef * list param) := [
  (glms_lookat_lh_zo, [Struct Flt 3; Struct Flt 3; Struct Flt 3]);
  (glms_look_lh_zo, [Struct Flt 3; Struct Flt 3; Struct Flt 3]);
  (glms_look_anyup_lh_zo, [Struct Flt 3; Struct Flt 3])].

Definition sig_struct_clipspace_view_rh_no : list (fundef * list param) := [
  (glms_lookat_rh_no, [Struct Flt 3; Struct Flt 3; Struct Flt 3]);
  (glms_look_rh_no, [Struct Flt 3; Struct Flt 3; Struct Flt 3]);
  (glms_look_anyup_rh_no, [Struct Flt 3; Struct Flt 3])].

Definition sig_struct_clipspace_view_rh_zo : list (fundef * list param) := [
  (glms_lookat_rh_zo, [Struct Flt 3; Struct Flt 3; Struct Flt 3]);
  (glms_look_rh_zo, [Struct Flt 3; Struct Flt 3; Struct Flt 3]);
  (glms_look_anyup_rh_zo, [Struct Flt 3; Struct Flt 3])].

Definition sig_struct_color : list (fundef * list param) := [
  (glms_luminance, [Struct Flt 3])].

Definition sig_struct_curve : list (fundef * list param) := [
  (glms_smc, [Float; Struct Flt 16; Struct Flt 4])].

Definition sig_struct_euler : list (fundef * list param) := [
  (glms_euler_angles, [Struct Flt 16]);
  (glms_euler_xyz, [Struct Flt 3]);
  (glms_euler_xzy, [Struct Flt 3]);
  (glms_euler_yxz, [Struct Flt 3]);
  (glms_euler_yzx, [Struct Flt 3]);
  (glms_euler_zxy, [Struct Flt 3]);
  (glms_euler_zyx, [Struct Flt 3]);
  (glms_euler_by_order, [Struct Flt 3; Integer]);
  (glms_euler_xyz_quat, [Struct Flt 3]);
  (glms_euler_xzy_quat, [Struct Flt 3]);
  (glms_euler_yxz_quat, [Struct Flt 3]);
  (glms_euler_yzx_quat, [Struct Flt 3]);
  (glms_euler_zxy_quat, [Struct Flt 3]);
  (glms_euler_zyx_quat, [Struct Flt 3])].

Definition sig_struct_frustum : list (fundef * list param) := [
  (glms_frustum_planes, [Struct Flt 16; Writes 24]);
  (glms_frustum_corners, [Struct Flt 16; Writes 32]);
  (glms_frustum_center, [Reads Flt 32]);
  (glms_frustum_box, [Reads Flt 32; Struct Flt 16; Writes 6])].

Definition sig_struct_ivec2 : list (fundef * list param) := [
  (glms_ivec2, [Reads Int 2]);
  (glms_ivec2_zero, []);
  (glms_ivec2_one, []);
  (glms_ivec2_dot, [Struct Int 2; Struct Int 2]);
  (glms_ivec2_cross, [Struct Int 2; Struct Int 2]);
  (glms_ivec2_add, [Struct Int 2; Struct Int 2]);
  (glms_ivec2_adds, [Struct Int 2; Integer]);
  (glms_ivec2_sub, [Struct Int 2; Struct Int 2]);
  (glms_ivec2_subs, [Struct Int 2; Integer]);
  (glms_ivec2_mul, [Struct Int 2; Struct Int 2]);
  (glms_ivec2_scale, [Struct Int 2; Integer]);
  (glms_ivec2_div, [Struct Int 2; Struct Int 2]);
  (glms_ivec2_divs, [Struct Int 2; Integer]);
  (glms_ivec2_mod, [Struct Int 2; Struct Int 2]);
  (glms_ivec2_addadd, [Struct Int 2; Struct Int 2; Struct Int 2]);
  (glms_ivec2_addadds, [Struct Int 2; Integer; Struct Int 2]);
  (glms_ivec2_subadd, [Struct Int 2; Struct Int 2; Struct Int 2]);
  (glms_ivec2_subadds, [Struct Int 2; Integer; Struct Int 2]);
  (glms_ivec2_muladd, [Struct Int 2; Struct Int 2; Struct Int 2]);
  (glms_ivec2_muladds, [Struct Int 2; Integer; Struct Int 2]);
  (glms_ivec2_maxadd, [Struct Int 2; Struct Int 2; Struct Int 2]);
  (glms_ivec2_minadd, [Struct Int 2; Struct Int 2; Struct Int 2]);
  (glms_ivec2_subsub, [Struct Int 2; Struct Int 2; Struct Int 2]);
  (glms_ivec2_subsubs, [Struct Int 2; Integer; Struct Int 2]);
  (glms_ivec2_addsub, [Struct Int 2; Struct Int 2; Struct Int 2]);
  (glms_ivec2_addsubs, [Struct Int 2; Integer; Struct Int 2]);
  (glms_ivec2_mulsub, [Struct Int 2; Struct Int 2; Struct Int 2]);
  (glms_ivec2_mulsubs, [Struct Int 2; Integer; Struct Int 2]);
  (glms_ivec2_maxsub, [Struct Int 2; Struct Int 2; Struct Int 2]);
  (glms_ivec2_minsub, [Struct Int 2; Struct Int 2; Struct Int 2]);
  (glms_ivec2_distance2, [Struct Int 2; Struct Int 2]);
  (glms_ivec2_distance, [Struct Int 2; Struct Int 2]);
  (glms_ivec2_fill, [Integer]);
  (glms_ivec2_eq, [Struct Int 2; Integer]);
  (glms_ivec2_eqv, [Struct Int 2; Struct Int 2]);
  (glms_ivec2_maxv, [Struct Int 2; Struct Int 2]);
  (glms_ivec2_minv, [Struct Int 2; Struct Int 2]);
  (glms_ivec2_clamp, [Struct Int 2; Integer; Integer]);
  (glms_ivec2_abs, [Struct Int 2])].

Definition sig_struct_ivec3 : list (fundef * list param) := [
  (glms_ivec3, [Struct Int 4]);
  (glms_ivec3_zero, []);
  (glms_ivec3_one, []);
  (glms_ivec3_dot, [Struct Int 3; Struct Int 3]);
  (glms_ivec3_norm2, [Struct Int 3]);
  (glms_ivec3_add, [Struct Int 3; Struct Int 3]);
  (glms_ivec3_adds, [Struct Int 3; Integer]);
  (glms_ivec3_sub, [Struct Int 3; Struct Int 3]);
  (glms_ivec3_subs, [Struct Int 3; Integer]);
  (glms_ivec3_mul, [Struct Int 3; Struct Int 3]);
  (glms_ivec3_scale, [Struct Int 3; Integer]);
  (glms_ivec3_div, [Struct Int 3; Struct Int 3]);
  (glms_ivec3_divs, [Struct Int 3; Integer]);
  (glms_ivec3_mod, [Struct Int 3; Struct Int 3]);
  (glms_ivec3_addadd, [Struct Int 3; Struct Int 3; Struct Int 3]);
  (glms_ivec3_addadds, [Struct Int 3; Integer; Struct Int 3]);
  (glms_ivec3_subadd, [Struct Int 3; Struct Int 3; Struct Int 3]);
  (glms_ivec3_subadds, [Struct Int 3; Integer; Struct Int 3]);
  (glms_ivec3_muladd, [Struct Int 3; Struct Int 3; Struct Int 3]);
  (glms_ivec3_muladds, [Struct Int 3; Integer; Struct Int 3]);
  (glms_ivec3_maxadd, [Struct Int 3; Struct Int 3; Struct Int 3]);
  (glms_ivec3_minadd, [Struct Int 3; Struct Int 3; Struct Int 3]);
  (glms_ivec3_subsub, [Struct Int 3; Struct Int 3; Struct Int 3]);
  (glms_ivec3_subsubs, [Struct Int 3; Integer; Struct Int 3]);
  (glms_ivec3_addsub, [Struct Int 3; Struct Int 3; Struct Int 3]);
  (glms_ivec3_addsubs, [Struct Int 3; Integer; Struct Int 3]);
  (glms_ivec3_mulsub, [Struct Int 3; Struct Int 3; Struct Int 3]);
  (glms_ivec3_mulsubs, [Struct Int 3; Integer; Struct Int 3]);
  (glms_ivec3_maxsub, [Struct Int 3; Struct Int 3; Struct Int 3]);
  (glms_ivec3_minsub, [Struct Int 3; Struct Int 3; Struct Int 3]);
  (glms_ivec3_distance2, [Struct Int 3; Struct Int 3]);
  (glms_ivec3_distance, [Struct Int 3; Struct Int 3]);
  (glms_ivec3_fill, [Integer]);
  (glms_ivec3_eq, [Struct Int 3; Integer]);
  (glms_ivec3_eqv, [Struct Int 3; Struct Int 3]);
  (glms_ivec3_maxv, [Struct Int 3; Struct Int 3]);
  (glms_ivec3_minv, [Struct Int 3; Struct Int 3]);
  (glms_ivec3_clamp, [Struct Int 3; Integer; Integer]);
  (glms_ivec3_abs, [Struct Int 3])].

Definition sig_struct_ivec4 : list (fundef * list param) := [
  (glms_ivec4, [Struct Int 3; Integer]);
  (glms_ivec4_zero, []);
  (glms_ivec4_one, []);
  (glms_ivec4_add, [Struct Int 4; Struct Int 4]);
  (glms_ivec4_adds, [Struct Int 4; Integer]);
  (glms_ivec4_sub, [Struct Int 4; Struct Int 4]);
  (glms_ivec4_subs, [Struct Int 4; Integer]);
  (glms_ivec4_mul, [Struct Int 4; Struct Int 4]);
  (glms_ivec4_scale, [Struct Int 4; Integer]);
  (glms_ivec4_addadd, [Struct Int 4; Struct Int 4; Struct Int 4]);
  (glms_ivec4_addadds, [Struct Int 4; Integer; Struct Int 4]);
  (glms_ivec4_subadd, [Struct Int 4; Struct Int 4; Struct Int 4]);
  (glms_ivec4_subadds, [Struct Int 4; Integer; Struct Int 4]);
  (glms_ivec4_muladd, [Struct Int 4; Struct Int 4; Struct Int 4]);
  (glms_ivec4_muladds, [Struct Int 4; Integer; Struct Int 4]);
  (glms_ivec4_maxadd, [Struct Int 4; Struct Int 4; Struct Int 4]);
  (glms_ivec4_minadd, [Struct Int 4; Struct Int 4; Struct Int 4]);
  (glms_ivec4_subsub, [Struct Int 4; Struct Int 4; Struct Int 4]);
  (glms_ivec4_subsubs, [Struct Int 4; Integer; Struct Int 4]);
  (glms_ivec4_addsub, [Struct Int 4; Struct Int 4; Struct Int 4]);
  (glms_ivec4_addsubs, [Struct Int 4; Integer; Struct Int 4]);
  (glms_ivec4_mulsub, [Struct Int 4; Struct Int 4; Struct Int 4]);
  (glms_ivec4_mulsubs, [Struct Int 4; Integer; Struct Int 4]);
  (glms_ivec4_maxsub, [Struct Int 4; Struct Int 4; Struct Int 4]);
  (glms_ivec4_minsub, [Struct Int 4; Struct Int 4; Struct Int 4]);
  (glms_ivec4_distance2, [Struct Int 4; Struct Int 4]);
  (glms_ivec4_distance, [Struct Int 4; Struct Int 4]);
  (glms_ivec4_maxv, [Struct Int 4; Struct Int 4]);
  (glms_ivec4_minv, [Struct Int 4; Struct Int 4]);
  (glms_ivec4_clamp, [Struct Int 4; Integer; Integer]);
  (glms_ivec4_abs, [Struct Int 4])].

Definition sig_struct_mat2 : list (fundef * list param) := [
  (glms_mat2_make, [Reads Flt 4]);
  (glms_mat2_identity, []);
  (glms_mat2_zero, []);
  (glms_mat2_mul, [Struct Flt 4; Struct Flt 4]);
  (glms_mat2_mulv, [Struct Flt 4; Struct Flt 2]);
  (glms_mat2_transpose, [Struct Flt 4]);
  (glms_mat2_scale, [Struct Flt 4; Float]);
  (glms_mat2_inv, [Struct Flt 4]);
  (glms_mat2_swap_col, [Struct Flt 4; Index 2; Index 2]);
  (glms_mat2_swap_row, [Struct Flt 4; Index 2; Index 2]);
  (glms_mat2_det, [Struct Flt 4]);
  (glms_mat2_trace, [Struct Flt 4]);
  (glms_mat2_rmc, [Struct Flt 2; Struct Flt 4; Struct Flt 2])].

Definition sig_struct_mat2x3 : list (fundef * list param) := [
  (glms_mat2x3_zero, []);
  (glms_mat2x3_make, [Reads Flt 6]);
  (glms_mat2x3_mul, [Struct Flt 6; Struct Flt 6]);
  (glms_mat2x3_mulv, [Struct Flt 6; Struct Flt 2]);
  (glms_mat2x3_transpose, [Struct Flt 6]);
  (glms_mat2x3_scale, [Struct Flt 6; Float])].

Definition sig_struct_mat2x4 : list (fundef * list param) := [
  (glms_mat2x4_zero, []);
  (glms_mat2x4_make, [Reads Flt 8]);
  (glms_mat2x4_mul, [Struct Flt 8; Struct Flt 8]);
  (glms_mat2x4_mulv, [Struct Flt 8; Struct Flt 2]);
  (glms_mat2x4_transpose, [Struct Flt 8]);
  (glms_mat2x4_scale, [Struct Flt 8; Float])].

Definition sig_struct_mat3 : list (fundef * list param) := [
  (glms_mat3_copy, [Struct Flt 9]);
  (glms_mat3_identity, []);
  (glms_mat3_zero, []);
  (glms_mat3_mul, [Struct Flt 9; Struct Flt 9]);
  (glms_mat3_transpose, [Struct Flt 9]);
  (glms_mat3_mulv, [Struct Flt 9; Struct Flt 3]);
  (glms_mat3_trace, [Struct Flt 9]);
  (glms_mat3_quat, [Struct Flt 9]);
  (glms_mat3_scale, [Struct Flt 9; Float]);
  (glms_mat3_det, [Struct Flt 9]);
  (glms_mat3_inv, [Struct Flt 9]);
  (glms_mat3_swap_col, [Struct Flt 9; Index 3; Index 3]);
  (glms_mat3_swap_row, [Struct Flt 9; Index 3; Index 3]);
  (glms_mat3_rmc, [Struct Flt 3; Struct Flt 9; Struct Flt 3]);
  (glms_mat3_make, [Reads Flt 9]);
  (glms_mat3_textrans, [Float; Float; Float; Float; Float])].

Definition sig_struct_mat3x2 : list (fundef * list param) := [
  (glms_mat3x2_zero, []);
  (glms_mat3x2_make, [Reads Flt 6]);
  (glms_mat3x2_mul, [Struct Flt 6; Struct Flt 6]);
  (glms_mat3x2_mulv, [Struct Flt 6; Struct Flt 3]);
  (glms_mat3x2_transpose, [Struct Flt 6]);
  (glms_mat3x2_scale, [Struct Flt 6; Float])].

Definition sig_struct_mat3x4 : list (fundef * list param) := [
  (glms_mat3x4_zero, []);
  (glms_mat3x4_make, [Reads Flt 12]);
  (glms_mat3x4_mul, [Struct Flt 12; Struct Flt 12]);
  (glms_mat3x4_mulv, [Struct Flt 12; Struct Flt 3]);
  (glms_mat3x4_transpose, [Struct Flt 12]);
  (glms_mat3x4_scale, [Struct Flt 12; Float])].

Definition sig_struct_mat4 : list (fundef * list param) := [
  (glms_mat4_ucopy, [Struct Flt 16]);
  (glms_mat4_copy, [Struct Flt 16]);
  (glms_mat4_identity, []);
  (glms_mat4_zero, []);
  (glms_mat4_pick3, [Struct Flt 16]);
  (glms_mat4_pick3t, [Struct Flt 16]);
  (glms_mat4_ins3, [Struct Flt 9; Struct Flt 16]);
  (glms_mat4_mul, [Struct Flt 16; Struct Flt 16]);
  (glms_mat4_mulv, [Struct Flt 16; Struct Flt 4]);
  (glms_mat4_trace, [Struct Flt 16]);
  (glms_mat4_trace3, [Struct Flt 16]);
  (glms_mat4_quat, [Struct Flt 16]);
  (glms_mat4_mulv3, [Struct Flt 16; Struct Flt 3; Float]);
  (glms_mat4_transpose, [Struct Flt 16]);
  (glms_mat4_scale_p, [Struct Flt 16; Float]);
  (glms_mat4_scale, [Struct Flt 16; Float]);
  (glms_mat4_det, [Struct Flt 16]);
  (glms_mat4_inv, [Struct Flt 16]);
  (glms_mat4_inv_fast, [Struct Flt 16]);
  (glms_mat4_swap_col, [Struct Flt 16; Index 4; Index 4]);
  (glms_mat4_swap_row, [Struct Flt 16; Index 4; Index 4]);
  (glms_mat4_rmc, [Struct Flt 4; Struct Flt 16; Struct Flt 4]);
  (glms_mat4_make, [Reads Flt 16]);
  (glms_mat4_textrans, [Float; Float; Float; Float; Float])].

Definition sig_struct_mat4x2 : list (fundef * list param) := [
  (glms_mat4x2_zero, []);
  (glms_mat4x2_make, [Reads Flt 8]);
  (glms_mat4x2_mul, [Struct Flt 8; Struct Flt 8]);
  (glms_mat4x2_mulv, [Struct Flt 8; Struct Flt 4]);
  (glms_mat4x2_transpose, [Struct Flt 8]);
  (glms_mat4x2_scale, [Struct Flt 8; Float])].

Definition sig_struct_mat4x3 : list (fundef * list param) := [
  (glms_mat4x3_zero, []);
  (glms_mat4x3_make, [Reads Flt 12]);
  (glms_mat4x3_mul, [Struct Flt 12; Struct Flt 12]);
  (glms_mat4x3_mulv, [Struct Flt 12; Struct Flt 4]);
  (glms_mat4x3_transpose, [Struct Flt 12]);
  (glms_mat4x3_scale, [Struct Flt 12; Float])].

Definition sig_struct_noise : list (fundef * list param) := [
  (glms_perlin_vec4, [Struct Flt 4]);
  (glms_perlin_vec3, [Struct Flt 3]);
  (glms_perlin_vec2, [Struct Flt 2])].

Definition sig_struct_plane : list (fundef * list param) := [
  (glms_plane_normalize, [Struct Flt 4])].

Definition sig_struct_project : list (fundef * list param) := [
  (glms_unprojecti, [Struct Flt 3; Struct Flt 16; Struct Flt 4]);
  (glms_unproject, [Struct Flt 3; Struct Flt 16; Struct Flt 4]);
  (glms_project, [Struct Flt 3; Struct Flt 16; Struct Flt 4]);
  (glms_project_z, [Struct Flt 3; Struct Flt 16]);
  (glms_pickmatrix, [Struct Flt 2; Struct Flt 2; Struct Flt 4])].

Definition sig_struct_quat : list (fundef * list param) := [
  (glms_quat_identity, []);
  (glms_quat_init, [Float; Float; Float; Float]);
  (glms_quatv, [Float; Struct Flt 3]);
  (glms_quat, [Float; Float; Float; Float]);
  (glms_quat_from_vecs, [Struct Flt 3; Struct Flt 3]);
  (glms_quat_norm, [Struct Flt 4]);
  (glms_quat_normalize, [Struct Flt 4]);
  (glms_quat_dot, [Struct Flt 4; Struct Flt 4]);
  (glms_quat_conjugate, [Struct Flt 4]);
  (glms_quat_inv, [Struct Flt 4]);
  (glms_quat_add, [Struct Flt 4; Struct Flt 4]);
  (glms_quat_sub, [Struct Flt 4; Struct Flt 4]);
  (glms_quat_imagn, [Struct Flt 4]);
  (glms_quat_imaglen, [Struct Flt 4]);
  (glms_quat_angle, [Struct Flt 4]);
  (glms_quat_axis, [Struct Flt 4]);
  (glms_quat_mul, [Struct Flt 4; Struct Flt 4]);
  (glms_quat_mat4, [Struct Flt 4]);
  (glms_quat_mat4t, [Struct Flt 4]);
  (glms_quat_mat3, [Struct Flt 4]);
  (glms_quat_mat3t, [Struct Flt 4]);
  (glms_quat_lerp, [Struct Flt 4; Struct Flt 4; Float]);
  (glms_quat_lerpc, [Struct Flt 4; Struct Flt 4; Float]);
  (glms_quat_nlerp, [Struct Flt 4; Struct Flt 4; Float]);
  (glms_quat_slerp, [Struct Flt 4; Struct Flt 4; Float]);
  (glms_quat_slerp_longest, [Struct Flt 4; Struct Flt 4; Float]);
  (glms_quat_look, [Struct Flt 3; Struct Flt 4]);
  (glms_quat_for, [Struct Flt 3; Struct Flt 3]);
  (glms_quat_forp, [Struct Flt 3; Struct Flt 3; Struct Flt 3]);
  (glms_quat_rotatev, [Struct Flt 4; Struct Flt 3]);
  (glms_quat_rotate, [Struct Flt 16; Struct Flt 4]);
  (glms_quat_rotate_at, [Struct Flt 16; Struct Flt 4; Struct Flt 3]);
  (glms_quat_rotate_atm, [Struct Flt 4; Struct Flt 3]);
  (glms_quat_make, [Reads Flt 4])].

Definition sig_struct_ray : list (fundef * list param) := [
  (glms_ray_triangle, [Struct Flt 3; Struct Flt 3; Struct Flt 3; Struct Flt 3; Struct Flt 3; Updates Flt 1]);
  (glms_ray_sphere, [Struct Flt 3; Struct Flt 3; Struct Flt 4; Writes 1; Writes 1]);
  (glms_ray_at, [Struct Flt 3; Struct Flt 3; Float])].

Definition sig_struct_sphere : list (fundef * list param) := [
  (glms_sphere_radii, [Struct Flt 4]);
  (glms_sphere_transform, [Struct Flt 4; Struct Flt 16]);
  (glms_sphere_merge, [Struct Flt 4; Struct Flt 4]);
  (glms_sphere_sphere, [Struct Flt 4; Struct Flt 4]);
  (glms_sphere_point, [Struct Flt 4; Struct Flt 3])].

Definition sig_struct_vec2 : list (fundef * list param) := [
  (glms_vec2, [Struct Flt 3]);
  (glms_vec2_zero, []);
  (glms_vec2_one, []);
  (glms_vec2_dot, [Struct Flt 2; Struct Flt 2]);
  (glms_vec2_cross, [Struct Flt 2; Struct Flt 2]);
  (glms_vec2_norm2, [Struct Flt 2]);
  (glms_vec2_norm, [Struct Flt 2]);
  (glms_vec2_add, [Struct Flt 2; Struct Flt 2]);
  (glms_vec2_adds, [Struct Flt 2; Float]);
  (glms_vec2_sub, [Struct Flt 2; Struct Flt 2]);
  (glms_vec2_subs, [Struct Flt 2; Float]);
  (glms_vec2_mul, [Struct Flt 2; Struct Flt 2]);
  (glms_vec2_scale, [Struct Flt 2; Float]);
  (glms_vec2_scale_as, [Struct Flt 2; Float]);
  (glms_vec2_div, [Struct Flt 2; Struct Flt 2]);
  (glms_vec2_divs, [Struct Flt 2; Float]);
  (glms_vec2_addadd, [Struct Flt 2; Struct Flt 2; Struct Flt 2]);
  (glms_vec2_subadd, [Struct Flt 2; Struct Flt 2; Struct Flt 2]);
  (glms_vec2_muladd, [Struct Flt 2; Struct Flt 2; Struct Flt 2]);
  (glms_vec2_muladds, [Struct Flt 2; Float; Struct Flt 2]);
  (glms_vec2_maxadd, [Struct Flt 2; Struct Flt 2; Struct Flt 2]);
  (glms_vec2_minadd, [Struct Flt 2; Struct Flt 2; Struct Flt 2]);
  (glms_vec2_subsub, [Struct Flt 2; Struct Flt 2; Struct Flt 2]);
  (glms_vec2_addsub, [Struct Flt 2; Struct Flt 2; Struct Flt 2]);
  (glms_vec2_mulsub, [Struct Flt 2; Struct Flt 2; Struct Flt 2]);
  (glms_vec2_mulsubs, [Struct Flt 2; Float; Struct Flt 2]);
  (glms_vec2_maxsub, [Struct Flt 2; Struct Flt 2; Struct Flt 2]);
  (glms_vec2_minsub, [Struct Flt 2; Struct Flt 2; Struct Flt 2]);
  (glms_vec2_negate, [Struct Flt 2]);
  (glms_vec2_normalize, [Struct Flt 2]);
  (glms_vec2_rotate, [Struct Flt 2; Float]);
  (glms_vec2_center, [Struct Flt 2; Struct Flt 2]);
  (glms_vec2_distance, [Struct Flt 2; Struct Flt 2]);
  (glms_vec2_distance2, [Struct Flt 2; Struct Flt 2]);
  (glms_vec2_maxv, [Struct Flt 2; Struct Flt 2]);
  (glms_vec2_minv, [Struct Flt 2; Struct Flt 2]);
  (glms_vec2_clamp, [Struct Flt 2; Float; Float]);
  (glms_vec2_lerp, [Struct Flt 2; Struct Flt 2; Float]);
  (glms_vec2_step, [Struct Flt 2; Struct Flt 2]);
  (glms_vec2_make, [Reads Flt 2]);
  (glms_vec2_reflect, [Struct Flt 2; Struct Flt 2]);
  (glms_vec2_refract, [Struct Flt 2; Struct Flt 2; Float; Writes 2])].

Definition sig_struct_vec2_ext : list (fundef * list param) := [
  (glms_vec2_fill, [Float]);
  (glms_vec2_eq, [Struct Flt 2; Float]);
  (glms_vec2_eq_eps, [Struct Flt 2; Float]);
  (glms_vec2_eq_all, [Struct Flt 2]);
  (glms_vec2_eqv, [Struct Flt 2; Struct Flt 2]);
  (glms_vec2_eqv_eps, [Struct Flt 2; Struct Flt 2]);
  (glms_vec2_max, [Struct Flt 2]);
  (glms_vec2_min, [Struct Flt 2]);
  (glms_vec2_isnan, [Struct Flt 2]);
  (glms_vec2_isinf, [Struct Flt 2]);
  (glms_vec2_isvalid, [Struct Flt 2]);
  (glms_vec2_sign, [Struct Flt 2]);
  (glms_vec2_abs, [Struct Flt 2]);
  (glms_vec2_fract, [Struct Flt 2]);
  (glms_vec2_floor, [Struct Flt 2]);
  (glms_vec2_mods, [Struct Flt 2; Float]);
  (glms_vec2_steps, [Float; Struct Flt 2]);
  (glms_vec2_stepr, [Struct Flt 2; Float]);
  (glms_vec2_sqrt, [Struct Flt 2]);
  (glms_vec2_complex_mul, [Struct Flt 2; Struct Flt 2; Struct Flt 2]);
  (glms_vec2_complex_div, [Struct Flt 2; Struct Flt 2; Struct Flt 2]);
  (glms_vec2_complex_conjugate, [Struct Flt 2; Struct Flt 2])].

Definition sig_struct_vec3 : list (fundef * list param) := [
  (glms_vec3, [Struct Flt 4]);
  (glms_vec3_zero, []);
  (glms_vec3_one, []);
  (glms_vec3_dot, [Struct Flt 3; Struct Flt 3]);
  (glms_vec3_norm2, [Struct Flt 3]);
  (glms_vec3_norm, [Struct Flt 3]);
  (glms_vec3_norm_one, [Struct Flt 3]);
  (glms_vec3_norm_inf, [Struct Flt 3]);
  (glms_vec3_add, [Struct Flt 3; Struct Flt 3]);
  (glms_vec3_adds, [Struct Flt 3; Float]);
  (glms_vec3_sub, [Struct Flt 3; Struct Flt 3]);
  (glms_vec3_subs, [Struct Flt 3; Float]);
  (glms_vec3_mul, [Struct Flt 3; Struct Flt 3]);
  (glms_vec3_scale, [Struct Flt 3; Float]);
  (glms_vec3_scale_as, [Struct Flt 3; Float]);
  (glms_vec3_div, [Struct Flt 3; Struct Flt 3]);
  (glms_vec3_divs, [Struct Flt 3; Float]);
  (glms_vec3_addadd, [Struct Flt 3; Struct Flt 3; Struct Flt 3]);
  (glms_vec3_subadd, [Struct Flt 3; Struct Flt 3; Struct Flt 3]);
  (glms_vec3_muladd, [Struct Flt 3; Struct Flt 3; Struct Flt 3]);
  (glms_vec3_muladds, [Struct Flt 3; Float; Struct Flt 3]);
  (glms_vec3_maxadd, [Struct Flt 3; Struct Flt 3; Struct Flt 3]);
  (glms_vec3_minadd, [Struct Flt 3; Struct Flt 3; Struct Flt 3]);
  (glms_vec3_subsub, [Struct Flt 3; Struct Flt 3; Struct Flt 3]);
  (glms_vec3_addsub, [Struct Flt 3; Struct Flt 3; Struct Flt 3]);
  (glms_vec3_mulsub, [Struct Flt 3; Struct Flt 3; Struct Flt 3]);
  (glms_vec3_mulsubs, [Struct Flt 3; Float; Struct Flt 3]);
  (glms_vec3_maxsub, [Struct Flt 3; Struct Flt 3; Struct Flt 3]);
  (glms_vec3_minsub, [Struct Flt 3; Struct Flt 3; Struct Flt 3]);
  (glms_vec3_flipsign, [Struct Flt 3]);
  (glms_vec3_negate, [Struct Flt 3]);
  (glms_vec3_normalize, [Struct Flt 3]);
  (glms_vec3_cross, [Struct Flt 3; Struct Flt 3]);
  (glms_vec3_crossn, [Struct Flt 3; Struct Flt 3]);
  (glms_vec3_angle, [Struct Flt 3; Struct Flt 3]);
  (glms_vec3_rotate, [Struct Flt 3; Float; Struct Flt 3]);
  (glms_vec3_rotate_m4, [Struct Flt 16; Struct Flt 3]);
  (glms_vec3_rotate_m3, [Struct Flt 9; Struct Flt 3]);
  (glms_vec3_proj, [Struct Flt 3; Struct Flt 3]);
  (glms_vec3_center, [Struct Flt 3; Struct Flt 3]);
  (glms_vec3_distance, [Struct Flt 3; Struct Flt 3]);
  (glms_vec3_distance2, [Struct Flt 3; Struct Flt 3]);
  (glms_vec3_maxv, [Struct Flt 3; Struct Flt 3]);
  (glms_vec3_minv, [Struct Flt 3; Struct Flt 3]);
  (glms_vec3_ortho, [Struct Flt 3]);
  (glms_vec3_clamp, [Struct Flt 3; Float; Float]);
  (glms_vec3_lerp, [Struct Flt 3; Struct Flt 3; Float]);
  (glms_vec3_lerpc, [Struct Flt 3; Struct Flt 3; Float]);
  (glms_vec3_mix, [Struct Flt 3; Struct Flt 3; Float]);
  (glms_vec3_mixc, [Struct Flt 3; Struct Flt 3; Float]);
  (glms_vec3_step, [Struct Flt 3; Struct Flt 3]);
  (glms_vec3_smoothstep_uni, [Float; Float; Struct Flt 3]);
  (glms_vec3_smoothstep, [Struct Flt 3; Struct Flt 3; Struct Flt 3]);
  (glms_vec3_smoothinterp, [Struct Flt 3; Struct Flt 3; Float]);
  (glms_vec3_smoothinterpc, [Struct Flt 3; Struct Flt 3; Float]);
  (glms_cross, [Struct Flt 3; Struct Flt 3]);
  (glms_dot, [Struct Flt 3; Struct Flt 3]);
  (glms_normalize, [Struct Flt 3]);
  (glms_vec3_swizzle, [Struct Flt 3; OneOf [0; 1; 2; 4; 5; 6; 8; 9; 10; 16; 17; 18; 20; 21; 22; 24; 25; 26; 32; 33; 34; 36; 37; 38; 40; 41; 42]]);
  (glms_vec3_make, [Reads Flt 3]);
  (glms_vec3_faceforward, [Struct Flt 3; Struct Flt 3; Struct Flt 3]);
  (glms_vec3_reflect, [Struct Flt 3; Struct Flt 3]);
  (glms_vec3_refract, [Struct Flt 3; Struct Flt 3; Float; Writes 3])].

Definition sig_struct_vec3_ext : list (fundef * list param) := [
  (glms_vec3_broadcast, [Float]);
  (glms_vec3_fill, [Float]);
  (glms_vec3_eq, [Struct Flt 3; Float]);
  (glms_vec3_eq_eps, [Struct Flt 3; Float]);
  (glms_vec3_eq_all, [Struct Flt 3]);
  (glms_vec3_eqv, [Struct Flt 3; Struct Flt 3]);
  (glms_vec3_eqv_eps, [Struct Flt 3; Struct Flt 3]);
  (glms_vec3_max, [Struct Flt 3]);
  (glms_vec3_min, [Struct Flt 3]);
  (glms_vec3_isnan, [Struct Flt 3]);
  (glms_vec3_isinf, [Struct Flt 3]);
  (glms_vec3_isvalid, [Struct Flt 3]);
  (glms_vec3_sign, [Struct Flt 3]);
  (glms_vec3_abs, [Struct Flt 3]);
  (glms_vec3_fract, [Struct Flt 3]);
  (glms_vec3_floor, [Struct Flt 3]);
  (glms_vec3_mods, [Struct Flt 3; Float]);
  (glms_vec3_steps, [Float; Struct Flt 3]);
  (glms_vec3_stepr, [Struct Flt 3; Float]);
  (glms_vec3_hadd, [Struct Flt 3]);
  (glms_vec3_sqrt, [Struct Flt 3])].

Definition sig_struct_vec4 : list (fundef * list param) := [
  (glms_vec4, [Struct Flt 3; Float]);
  (glms_vec4_copy3, [Struct Flt 4]);
  (glms_vec4_copy, [Struct Flt 4]);
  (glms_vec4_ucopy, [Struct Flt 4]);
  (glms_vec4_zero, []);
  (glms_vec4_one, []);
  (glms_vec4_dot, [Struct Flt 4; Struct Flt 4]);
  (glms_vec4_norm2, [Struct Flt 4]);
  (glms_vec4_norm, [Struct Flt 4]);
  (glms_vec4_norm_one, [Struct Flt 4]);
  (glms_vec4_norm_inf, [Struct Flt 4]);
  (glms_vec4_add, [Struct Flt 4; Struct Flt 4]);
  (glms_vec4_adds, [Struct Flt 4; Float]);
  (glms_vec4_sub, [Struct Flt 4; Struct Flt 4]);
  (glms_vec4_subs, [Struct Flt 4; Float]);
  (glms_vec4_mul, [Struct Flt 4; Struct Flt 4]);
  (glms_vec4_scale, [Struct Flt 4; Float]);
  (glms_vec4_scale_as, [Struct Flt 4; Float]);
  (glms_vec4_div, [Struct Flt 4; Struct Flt 4]);
  (glms_vec4_divs, [Struct Flt 4; Float]);
  (glms_vec4_addadd, [Struct Flt 4; Struct Flt 4; Struct Flt 4]);
  (glms_vec4_subadd, [Struct Flt 4; Struct Flt 4; Struct Flt 4]);
  (glms_vec4_muladd, [Struct Flt 4; Struct Flt 4; Struct Flt 4]);
  (glms_vec4_muladds, [Struct Flt 4; Float; Struct Flt 4]);
  (glms_vec4_maxadd, [Struct Flt 4; Struct Flt 4; Struct Flt 4]);
  (glms_vec4_minadd, [Struct Flt 4; Struct Flt 4; Struct Flt 4]);
  (glms_vec4_subsub, [Struct Flt 4; Struct Flt 4; Struct Flt 4]);
  (glms_vec4_addsub, [Struct Flt 4; Struct Flt 4; Struct Flt 4]);
  (glms_vec4_mulsub, [Struct Flt 4; Struct Flt 4; Struct Flt 4]);
  (glms_vec4_mulsubs, [Struct Flt 4; Float; Struct Flt 4]);
  (glms_vec4_maxsub, [Struct Flt 4; Struct Flt 4; Struct Flt 4]);
  (glms_vec4_minsub, [Struct Flt 4; Struct Flt 4; Struct Flt 4]);
  (glms_vec4_negate, [Struct Flt 4]);
  (glms_vec4_normalize, [Struct Flt 4]);
  (glms_vec4_distance, [Struct Flt 4; Struct Flt 4]);
  (glms_vec4_distance2, [Struct Flt 4; Struct Flt 4]);
  (glms_vec4_maxv, [Struct Flt 4; Struct Flt 4]);
  (glms_vec4_minv, [Struct Flt 4; Struct Flt 4]);
  (glms_vec4_clamp, [Struct Flt 4; Float; Float]);
  (glms_vec4_lerp, [Struct Flt 4; Struct Flt 4; Float]);
  (glms_vec4_lerpc, [Struct Flt 4; Struct Flt 4; Float]);
  (glms_vec4_mix, [Struct Flt 4; Struct Flt 4; Float]);
  (glms_vec4_mixc, [Struct Flt 4; Struct Flt 4; Float]);
  (glms_vec4_step, [Struct Flt 4; Struct Flt 4]);
  (glms_vec4_smoothstep_uni, [Float; Float; Struct Flt 4]);
  (glms_vec4_smoothstep, [Struct Flt 4; Struct Flt 4; Struct Flt 4]);
  (glms_vec4_smoothinterp, [Struct Flt 4; Struct Flt 4; Float]);
  (glms_vec4_smoothinterpc, [Struct Flt 4; Struct Flt 4; Float]);
  (glms_vec4_cubic, [Float]);
  (glms_vec4_swizzle, [Struct Flt 4; Index 256]);
  (glms_vec4_make, [Reads Flt 4]);
  (glms_vec4_reflect, [Struct Flt 4; Struct Flt 4]);
  (glms_vec4_refract, [Struct Flt 4; Struct Flt 4; Float; Writes 4])].

Definition sig_struct_vec4_ext : list (fundef * list param) := [
  (glms_vec4_broadcast, [Float]);
  (glms_vec4_fill, [Float]);
  (glms_vec4_eq, [Struct Flt 4; Float]);
  (glms_vec4_eq_eps, [Struct Flt 4; Float]);
  (glms_vec4_eq_all, [Struct Flt 4]);
  (glms_vec4_eqv, [Struct Flt 4; Struct Flt 4]);
  (glms_vec4_eqv_eps, [Struct Flt 4; Struct Flt 4]);
  (glms_vec4_max, [Struct Flt 4]);
  (glms_vec4_min, [Struct Flt 4]);
  (glms_vec4_isnan, [Struct Flt 4]);
  (glms_vec4_isinf, [Struct Flt 4]);
  (glms_vec4_isvalid, [Struct Flt 4]);
  (glms_vec4_sign, [Struct Flt 4]);
  (glms_vec4_abs, [Struct Flt 4]);
  (glms_vec4_fract, [Struct Flt 4]);
  (glms_vec4_floor, [Struct Flt 4]);
  (glms_vec4_mods, [Struct Flt 4; Float]);
  (glms_vec4_steps, [Float; Struct Flt 4]);
  (glms_vec4_stepr, [Struct Flt 4; Float]);
  (glms_vec4_hadd, [Struct Flt 4]);
  (glms_vec4_sqrt, [Struct Flt 4])].

Definition sig_util : list (fundef * list param) := [
  (glm_sign, [Integer]);
  (glm_signf, [Float]);
  (glm_rad, [Float]);
  (glm_deg, [Float]);
  (glm_make_rad, [Updates Flt 1]);
  (glm_make_deg, [Updates Flt 1]);
  (glm_pow2, [Float]);
  (glm_min, [Float; Float]);
  (glm_max, [Float; Float]);
  (glm_imin, [Integer; Integer]);
  (glm_imax, [Integer; Integer]);
  (glm_clamp, [Float; Float; Float]);
  (glm_clamp_zo, [Float]);
  (glm_lerp, [Float; Float; Float]);
  (glm_lerpc, [Float; Float; Float]);
  (glm_step, [Float; Float]);
  (glm_smooth, [Float]);
  (glm_smoothstep, [Float; Float; Float]);
  (glm_smoothinterp, [Float; Float; Float]);
  (glm_smoothinterpc, [Float; Float; Float]);
  (glm_eq, [Float; Float]);
  (glm_percent, [Float; Float; Float]);
  (glm_percentc, [Float; Float; Float]);
  (glm_swapf, [Updates Flt 1; Updates Flt 1])].

Definition sig_vec2 : list (fundef * list param) := [
  (glm_vec2, [Reads Flt 2; Writes 2]);
  (glm_vec2_copy, [Reads Flt 2; Writes 2]);
  (glm_vec2_zero, [Updates Flt 2]);
  (glm_vec2_one, [Updates Flt 2]);
  (glm_vec2_dot, [Reads Flt 2; Reads Flt 2]);
  (glm_vec2_cross, [Reads Flt 2; Reads Flt 2]);
  (glm_vec2_norm2, [Reads Flt 2]);
  (glm_vec2_norm, [Reads Flt 2]);
  (glm_vec2_add, [Reads Flt 2; Reads Flt 2; Writes 2]);
  (glm_vec2_adds, [Reads Flt 2; Float; Writes 2]);
  (glm_vec2_sub, [Reads Flt 2; Reads Flt 2; Writes 2]);
  (glm_vec2_subs, [Reads Flt 2; Float; Writes 2]);
  (glm_vec2_mul, [Reads Flt 2; Reads Flt 2; Writes 2]);
  (glm_vec2_scale, [Reads Flt 2; Float; Writes 2]);
  (glm_vec2_scale_as, [Reads Flt 2; Float; Writes 2]);
  (glm_vec2_div, [Reads Flt 2; Reads Flt 2; Writes 2]);
  (glm_vec2_divs, [Reads Flt 2; Float; Writes 2]);
  (glm_vec2_addadd, [Reads Flt 2; Reads Flt 2; Updates Flt 2]);
  (glm_vec2_subadd, [Reads Flt 2; Reads Flt 2; Updates Flt 2]);
  (glm_vec2_muladd, [Reads Flt 2; Reads Flt 2; Updates Flt 2]);
  (glm_vec2_muladds, [Reads Flt 2; Float; Updates Flt 2]);
  (glm_vec2_maxadd, [Reads Flt 2; Reads Flt 2; Updates Flt 2]);
  (glm_vec2_minadd, [Reads Flt 2; Reads Flt 2; Updates Flt 2]);
  (glm_vec2_subsub, [Reads Flt 2; Reads Flt 2; Updates Flt 2]);
  (glm_vec2_addsub, [Reads Flt 2; Reads Flt 2; Updates Flt 2]);
  (glm_vec2_mulsub, [Reads Flt 2; Reads Flt 2; Updates Flt 2]);
  (glm_vec2_mulsubs, [Reads Flt 2; Float; Updates Flt 2]);
  (glm_vec2_maxsub, [Reads Flt 2; Reads Flt 2; Updates Flt 2]);
  (glm_vec2_minsub, [Reads Flt 2; Reads Flt 2; Updates Flt 2]);
  (glm_vec2_negate_to, [Reads Flt 2; Writes 2]);
  (glm_vec2_negate, [Updates Flt 2]);
  (glm_vec2_normalize, [Updates Flt 2]);
  (glm_vec2_normalize_to, [Reads Flt 2; Writes 2]);
  (glm_vec2_rotate, [Reads Flt 2; Float; Writes 2]);
  (glm_vec2_center, [Reads Flt 2; Reads Flt 2; Writes 2]);
  (glm_vec2_distance2, [Reads Flt 2; Reads Flt 2]);
  (glm_vec2_distance, [Reads Flt 2; Reads Flt 2]);
  (glm_vec2_maxv, [Reads Flt 2; Reads Flt 2; Writes 2]);
  (glm_vec2_minv, [Reads Flt 2; Reads Flt 2; Writes 2]);
  (glm_vec2_clamp, [Updates Flt 2; Float; Float]);
  (glm_vec2_swizzle, [Reads Flt 2; OneOf [0; 1; 4; 5]; Writes 2]);
  (glm_vec2_lerp, [Reads Flt 2; Reads Flt 2; Float; Writes 2]);
  (glm_vec2_step, [Reads Flt 2; Reads Flt 2; Writes 2]);
  (glm_vec2_make, [Reads Flt 2; Writes 2]);
  (glm_vec2_reflect, [Reads Flt 2; Reads Flt 2; Writes 2]);
  (glm_vec2_refract, [Reads Flt 2; Reads Flt 2; Float; Writes 2])].

Definition sig_vec2_ext : list (fundef * list param) := [
  (glm_vec2_fill, [Writes 2; Float]);
  (glm_vec2_eq, [Reads Flt 2; Float]);
  (glm_vec2_eq_eps, [Reads Flt 2; Float]);
  (glm_vec2_eq_all, [Reads Flt 2]);
  (glm_vec2_eqv, [Reads Flt 2; Reads Flt 2]);
  (glm_vec2_eqv_eps, [Reads Flt 2; Reads Flt 2]);
  (glm_vec2_max, [Reads Flt 2]);
  (glm_vec2_min, [Reads Flt 2]);
  (glm_vec2_isnan, [Reads Flt 2]);
  (glm_vec2_isinf, [Reads Flt 2]);
  (glm_vec2_isvalid, [Reads Flt 2]);
  (glm_vec2_sign, [Reads Flt 2; Writes 2]);
  (glm_vec2_abs, [Reads Flt 2; Writes 2]);
  (glm_vec2_fract, [Reads Flt 2; Writes 2]);
  (glm_vec2_floor, [Reads Flt 2; Writes 2]);
  (glm_vec2_mods, [Reads Flt 2; Float; Writes 2]);
  (glm_vec2_sqrt, [Reads Flt 2; Writes 2]);
  (glm_vec2_complex_mul, [Reads Flt 2; Reads Flt 2; Writes 2]);
  (glm_vec2_steps, [Float; Reads Flt 2; Writes 2]);
  (glm_vec2_stepr, [Reads Flt 2; Float; Writes 2]);
  (glm_vec2_complex_div, [Reads Flt 2; Reads Flt 2; Writes 2]);
  (glm_vec2_complex_conjugate, [Reads Flt 2; Writes 2])].

Definition sig_vec3 : list (fundef * list param) := [
  (glm_vec3, [Reads Flt 4; Writes 3]);
  (glm_vec3_copy, [Reads Flt 3; Writes 3]);
  (glm_vec3_zero, [Updates Flt 3]);
  (glm_vec3_one, [Updates Flt 3]);
  (glm_vec3_dot, [Reads Flt 3; Reads Flt 3]);
  (glm_vec3_norm2, [Reads Flt 3]);
  (glm_vec3_norm, [Reads Flt 3]);
  (glm_vec3_norm_one, [Reads Flt 3]);
  (glm_vec3_norm_inf, [Reads Flt 3]);
  (glm_vec3_add, [Reads Flt 3; Reads Flt 3; Writes 3]);
  (glm_vec3_adds, [Reads Flt 3; Float; Writes 3]);
  (glm_vec3_sub, [Reads Flt 3; Reads Flt 3; Writes 3]);
  (glm_vec3_subs, [Reads Flt 3; Float; Writes 3]);
  (glm_vec3_mul, [Reads Flt 3; Reads Flt 3; Writes 3]);
  (glm_vec3_scale, [Reads Flt 3; Float; Writes 3]);
  (glm_vec3_scale_as, [Reads Flt 3; Float; Writes 3]);
  (glm_vec3_div, [Reads Flt 3; Reads Flt 3; Writes 3]);
  (glm_vec3_divs, [Reads Flt 3; Float; Writes 3]);
  (glm_vec3_addadd, [Reads Flt 3; Reads Flt 3; Updates Flt 3]);
  (glm_vec3_subadd, [Reads Flt 3; Reads Flt 3; Updates Flt 3]);
  (glm_vec3_muladd, [Reads Flt 3; Reads Flt 3; Updates Flt 3]);
  (glm_vec3_muladds, [Reads Flt 3; Float; Updates Flt 3]);
  (glm_vec3_maxadd, [Reads Flt 3; Reads Flt 3; Updates Flt 3]);
  (glm_vec3_minadd, [Reads Flt 3; Reads Flt 3; Updates Flt 3]);
  (glm_vec3_subsub, [Reads Flt 3; Reads Flt 3; Updates Flt 3]);
  (glm_vec3_addsub, [Reads Flt 3; Reads Flt 3; Updates Flt 3]);
  (glm_vec3_mulsub, [Reads Flt 3; Reads Flt 3; Updates Flt 3]);
  (glm_vec3_mulsubs, [Reads Flt 3; Float; Updates Flt 3]);
  (glm_vec3_maxsub, [Reads Flt 3; Reads Flt 3; Updates Flt 3]);
  (glm_vec3_minsub, [Reads Flt 3; Reads Flt 3; Updates Flt 3]);
  (glm_vec3_negate_to, [Reads Flt 3; Writes 3]);
  (glm_vec3_negate, [Updates Flt 3]);
  (glm_vec3_normalize, [Updates Flt 3]);
  (glm_vec3_normalize_to, [Reads Flt 3; Writes 3]);
  (glm_vec3_cross, [Reads Flt 3; Reads Flt 3; Writes 3]);
  (glm_vec3_crossn, [Reads Flt 3; Reads Flt 3; Writes 3]);
  (glm_vec3_angle, [Reads Flt 3; Reads Flt 3]);
  (glm_vec3_rotate, [Updates Flt 3; Float; Reads Flt 3]);
  (glm_vec3_rotate_m4, [Reads Flt 16; Reads Flt 3; Writes 3]);
  (glm_vec3_rotate_m3, [Reads Flt 9; Reads Flt 3; Writes 3]);
  (glm_vec3_proj, [Reads Flt 3; Reads Flt 3; Writes 3]);
  (glm_vec3_center, [Reads Flt 3; Reads Flt 3; Writes 3]);
  (glm_vec3_distance2, [Reads Flt 3; Reads Flt 3]);
  (glm_vec3_distance, [Reads Flt 3; Reads Flt 3]);
  (glm_vec3_maxv, [Reads Flt 3; Reads Flt 3; Writes 3]);
  (glm_vec3_minv, [Reads Flt 3; Reads Flt 3; Writes 3]);
  (glm_vec3_ortho, [Reads Flt 3; Writes 3]);
  (glm_vec3_clamp, [Updates Flt 3; Float; Float]);
  (glm_vec3_lerp, [Reads Flt 3; Reads Flt 3; Float; Writes 3]);
  (glm_vec3_lerpc, [Reads Flt 3; Reads Flt 3; Float; Writes 3]);
  (glm_vec3_mix, [Reads Flt 3; Reads Flt 3; Float; Writes 3]);
  (glm_vec3_mixc, [Reads Flt 3; Reads Flt 3; Float; Writes 3]);
  (glm_vec3_step, [Reads Flt 3; Reads Flt 3; Writes 3]);
  (glm_vec3_smoothstep_uni, [Float; Float; Reads Flt 3; Writes 3]);
  (glm_vec3_smoothstep, [Reads Flt 3; Reads Flt 3; Reads Flt 3; Writes 3]);
  (glm_vec3_smoothinterp, [Reads Flt 3; Reads Flt 3; Float; Writes 3]);
  (glm_vec3_smoothinterpc, [Reads Flt 3; Reads Flt 3; Float; Writes 3]);
  (glm_vec3_swizzle, [Reads Flt 3; OneOf [0; 1; 2; 4; 5; 6; 8; 9; 10; 16; 17; 18; 20; 21; 22; 24; 25; 26; 32; 33; 34; 36; 37; 38; 40; 41; 42]; Writes 3]);
  (glm_cross, [Reads Flt 3; Reads Flt 3; Writes 3]);
  (glm_dot, [Reads Flt 3; Reads Flt 3]);
  (glm_normalize, [Updates Flt 3]);
  (glm_normalize_to, [Reads Flt 3; Writes 3]);
  (glm_vec3_make, [Reads Flt 3; Writes 3]);
  (glm_vec3_faceforward, [Reads Flt 3; Reads Flt 3; Reads Flt 3; Writes 3]);
  (glm_vec3_reflect, [Reads Flt 3; Reads Flt 3; Writes 3]);
  (glm_vec3_refract, [Reads Flt 3; Reads Flt 3; Float; Writes 3])].

Definition sig_vec3_ext : list (fundef * list param) := [
  (glm_vec3_broadcast, [Float; Writes 3]);
  (glm_vec3_fill, [Writes 3; Float]);
  (glm_vec3_eq, [Reads Flt 3; Float]);
  (glm_vec3_eq_eps, [Reads Flt 3; Float]);
  (glm_vec3_eq_all, [Reads Flt 3]);
  (glm_vec3_eqv, [Reads Flt 3; Reads Flt 3]);
  (glm_vec3_eqv_eps, [Reads Flt 3; Reads Flt 3]);
  (glm_vec3_max, [Reads Flt 3]);
  (glm_vec3_min, [Reads Flt 3]);
  (glm_vec3_isnan, [Reads Flt 3]);
  (glm_vec3_isinf, [Reads Flt 3]);
  (glm_vec3_isvalid, [Reads Flt 3]);
  (glm_vec3_sign, [Reads Flt 3; Writes 3]);
  (glm_vec3_abs, [Reads Flt 3; Writes 3]);
  (glm_vec3_fract, [Reads Flt 3; Writes 3]);
  (glm_vec3_floor, [Reads Flt 3; Writes 3]);
  (glm_vec3_mods, [Reads Flt 3; Float; Writes 3]);
  (glm_vec3_steps, [Float; Reads Flt 3; Writes 3]);
  (glm_vec3_stepr, [Reads Flt 3; Float; Writes 3]);
  (glm_vec3_hadd, [Reads Flt 3]);
  (glm_vec3_sqrt, [Reads Flt 3; Writes 3])].

Definition sig_vec4 : list (fundef * list param) := [
  (glm_vec4, [Reads Flt 3; Float; Writes 4]);
  (glm_vec4_copy3, [Reads Flt 4; Writes 3]);
  (glm_vec4_copy, [Reads Flt 4; Writes 4]);
  (glm_vec4_ucopy, [Reads Flt 4; Writes 4]);
  (glm_vec4_zero, [Updates Flt 4]);
  (glm_vec4_one, [Updates Flt 4]);
  (glm_vec4_dot, [Reads Flt 4; Reads Flt 4]);
  (glm_vec4_norm2, [Reads Flt 4]);
  (glm_vec4_norm, [Reads Flt 4]);
  (glm_vec4_norm_one, [Reads Flt 4]);
  (glm_vec4_norm_inf, [Reads Flt 4]);
  (glm_vec4_add, [Reads Flt 4; Reads Flt 4; Writes 4]);
  (glm_vec4_adds, [Reads Flt 4; Float; Writes 4]);
  (glm_vec4_sub, [Reads Flt 4; Reads Flt 4; Writes 4]);
  (glm_vec4_subs, [Reads Flt 4; Float; Writes 4]);
  (glm_vec4_mul, [Reads Flt 4; Reads Flt 4; Writes 4]);
  (glm_vec4_scale, [Reads Flt 4; Float; Writes 4]);
  (glm_vec4_scale_as, [Reads Flt 4; Float; Writes 4]);
  (glm_vec4_div, [Reads Flt 4; Reads Flt 4; Writes 4]);
  (glm_vec4_divs, [Reads Flt 4; Float; Writes 4]);
  (glm_vec4_addadd, [Reads Flt 4; Reads Flt 4; Updates Flt 4]);
  (glm_vec4_subadd, [Reads Flt 4; Reads Flt 4; Updates Flt 4]);
  (glm_vec4_muladd, [Reads Flt 4; Reads Flt 4; Updates Flt 4]);
  (glm_vec4_muladds, [Reads Flt 4; Float; Updates Flt 4]);
  (glm_vec4_maxadd, [Reads Flt 4; Reads Flt 4; Updates Flt 4]);
  (glm_vec4_minadd, [Reads Flt 4; Reads Flt 4; Updates Flt 4]);
  (glm_vec4_subsub, [Reads Flt 4; Reads Flt 4; Updates Flt 4]);
  (glm_vec4_addsub, [Reads Flt 4; Reads Flt 4; Updates Flt 4]);
  (glm_vec4_mulsub, [Reads Flt 4; Reads Flt 4; Updates Flt 4]);
  (glm_vec4_mulsubs, [Reads Flt 4; Float; Updates Flt 4]);
  (glm_vec4_maxsub, [Reads Flt 4; Reads Flt 4; Updates Flt 4]);
  (glm_vec4_minsub, [Reads Flt 4; Reads Flt 4; Updates Flt 4]);
  (glm_vec4_negate_to, [Reads Flt 4; Writes 4]);
  (glm_vec4_negate, [Updates Flt 4]);
  (glm_vec4_normalize_to, [Reads Flt 4; Writes 4]);
  (glm_vec4_normalize, [Updates Flt 4]);
  (glm_vec4_distance, [Reads Flt 4; Reads Flt 4]);
  (glm_vec4_distance2, [Reads Flt 4; Reads Flt 4]);
  (glm_vec4_maxv, [Reads Flt 4; Reads Flt 4; Writes 4]);
  (glm_vec4_minv, [Reads Flt 4; Reads Flt 4; Writes 4]);
  (glm_vec4_clamp, [Updates Flt 4; Float; Float]);
  (glm_vec4_lerp, [Reads Flt 4; Reads Flt 4; Float; Writes 4]);
  (glm_vec4_lerpc, [Reads Flt 4; Reads Flt 4; Float; Writes 4]);
  (glm_vec4_mix, [Reads Flt 4; Reads Flt 4; Float; Writes 4]);
  (glm_vec4_mixc, [Reads Flt 4; Reads Flt 4; Float; Writes 4]);
  (glm_vec4_step, [Reads Flt 4; Reads Flt 4; Writes 4]);
  (glm_vec4_smoothstep_uni, [Float; Float; Reads Flt 4; Writes 4]);
  (glm_vec4_smoothstep, [Reads Flt 4; Reads Flt 4; Reads Flt 4; Writes 4]);
  (glm_vec4_smoothinterp, [Reads Flt 4; Reads Flt 4; Float; Writes 4]);
  (glm_vec4_smoothinterpc, [Reads Flt 4; Reads Flt 4; Float; Writes 4]);
  (glm_vec4_cubic, [Float; Writes 4]);
  (glm_vec4_swizzle, [Reads Flt 4; Index 256; Writes 4]);
  (glm_vec4_make, [Reads Flt 4; Writes 4]);
  (glm_vec4_reflect, [Reads Flt 4; Reads Flt 4; Writes 4]);
  (glm_vec4_refract, [Reads Flt 4; Reads Flt 4; Float; Writes 4])].

Definition sig_vec4_ext : list (fundef * list param) := [
  (glm_vec4_broadcast, [Float; Writes 4]);
  (glm_vec4_fill, [Writes 4; Float]);
  (glm_vec4_eq, [Reads Flt 4; Float]);
  (glm_vec4_eq_eps, [Reads Flt 4; Float]);
  (glm_vec4_eq_all, [Reads Flt 4]);
  (glm_vec4_eqv, [Reads Flt 4; Reads Flt 4]);
  (glm_vec4_eqv_eps, [Reads Flt 4; Reads Flt 4]);
  (glm_vec4_max, [Reads Flt 4]);
  (glm_vec4_min, [Reads Flt 4]);
  (glm_vec4_isnan, [Reads Flt 4]);
  (glm_vec4_isinf, [Reads Flt 4]);
  (glm_vec4_isvalid, [Reads Flt 4]);
  (glm_vec4_sign, [Reads Flt 4; Writes 4]);
  (glm_vec4_abs, [Reads Flt 4; Writes 4]);
  (glm_vec4_fract, [Reads Flt 4; Writes 4]);
  (glm_vec4_floor, [Reads Flt 4; Writes 4]);
  (glm_vec4_mods, [Reads Flt 4; Float; Writes 4]);
  (glm_vec4_steps, [Float; Reads Flt 4; Writes 4]);
  (glm_vec4_stepr, [Reads Flt 4; Float; Writes 4]);
  (glm_vec4_hadd, [Reads Flt 4]);
  (glm_vec4_sqrt, [Reads Flt 4; Writes 4])].

Definition signatures : list (fundef * list param) :=
  sig_aabb2d
  ++ sig_affine
  ++ sig_affine2d
  ++ sig_affine2d_post
  ++ sig_affine_mat
  ++ sig_affine_post
  ++ sig_affine_pre
  ++ sig_bezier
  ++ sig_box
  ++ sig_cam
  ++ sig_clipspace_ortho_lh_no
  ++ sig_clipspace_ortho_lh_zo
  ++ sig_clipspace_ortho_rh_no
  ++ sig_clipspace_ortho_rh_zo
  ++ sig_clipspace_persp
  ++ sig_clipspace_persp_lh_no
  ++ sig_clipspace_persp_lh_zo
  ++ sig_clipspace_persp_rh_no
  ++ sig_clipspace_persp_rh_zo
  ++ sig_clipspace_project_no
  ++ sig_clipspace_project_zo
  ++ sig_clipspace_view_lh
  ++ sig_clipspace_view_lh_no
  ++ sig_clipspace_view_lh_zo
  ++ sig_clipspace_view_rh
  ++ sig_clipspace_view_rh_no
  ++ sig_clipspace_view_rh_zo
  ++ sig_color
  ++ sig_curve
  ++ sig_ease
  ++ sig_euler
  ++ sig_frustum
  ++ sig_handed_euler_to_quat_lh
  ++ sig_handed_euler_to_quat_rh
  ++ sig_ivec2
  ++ sig_ivec3
  ++ sig_ivec4
  ++ sig_mat2
  ++ sig_mat2x3
  ++ sig_mat2x4
  ++ sig_mat3
  ++ sig_mat3x2
  ++ sig_mat3x4
  ++ sig_mat4
  ++ sig_mat4x2
  ++ sig_mat4x3
  ++ sig_noise
  ++ sig_plane
  ++ sig_project
  ++ sig_quat
  ++ sig_ray
  ++ sig_sphere
  ++ sig_struct_affine
  ++ sig_struct_affine2d
  ++ sig_struct_affine_mat
  ++ sig_struct_affine_post
  ++ sig_struct_affine_pre
  ++ sig_struct_box
  ++ sig_struct_cam
  ++ sig_struct_clipspace_ortho_lh_no
  ++ sig_struct_clipspace_ortho_lh_zo
  ++ sig_struct_clipspace_ortho_rh_no
  ++ sig_struct_clipspace_ortho_rh_zo
  ++ sig_struct_clipspace_persp_lh_no
  ++ sig_struct_clipspace_persp_lh_zo
  ++ sig_struct_clipspace_persp_rh_no
  ++ sig_struct_clipspace_persp_rh_zo
  ++ sig_struct_clipspace_project_no
  ++ sig_struct_clipspace_project_zo
  ++ sig_struct_clipspace_view_lh_no
  ++ sig_struct_clipspace_view_lh_zo
  ++ sig_struct_clipspace_view_rh_no
  ++ sig_struct_clipspace_view_rh_zo
  ++ sig_struct_color
  ++ sig_struct_curve
  ++ sig_struct_euler
  ++ sig_struct_frustum
  ++ sig_struct_ivec2
  ++ sig_struct_ivec3
  ++ sig_struct_ivec4
  ++ sig_struct_mat2
  ++ sig_struct_mat2x3
  ++ sig_struct_mat2x4
  ++ sig_struct_mat3
  ++ sig_struct_mat3x2
  ++ sig_struct_mat3x4
  ++ sig_struct_mat4
  ++ sig_struct_mat4x2
  ++ sig_struct_mat4x3
  ++ sig_struct_noise
  ++ sig_struct_plane
  ++ sig_struct_project
  ++ sig_struct_quat
  ++ sig_struct_ray
  ++ sig_struct_sphere
  ++ sig_struct_vec2
  ++ sig_struct_vec2_ext
  ++ sig_struct_vec3
  ++ sig_struct_vec3_ext
  ++ sig_struct_vec4
  ++ sig_struct_vec4_ext
  ++ sig_util
  ++ sig_vec2
  ++ sig_vec2_ext
  ++ sig_vec3
  ++ sig_vec3_ext
  ++ sig_vec4
  ++ sig_vec4_ext.
