(** * The four clip-space builds

    CGLM_FORCE_LEFT_HANDED selects a left-handed view space and CGLM_FORCE_DEPTH_ZERO_TO_ONE a
    clip depth from 0 to w (common.h:79-100).  In each build the functions without a suffix
    stand for those of the same name with the suffix of the convention (_lh/_rh, _zo/_no or
    both).  Written by tools/clipapi.py from the function names alone. *)

From Coq Require Import String List.
From Verif Require Import MiniC Cglm.
From Verif.Config Require Export rh_zo lh_no lh_zo.
From Verif.Spec Require Export CallApi StructApi.
Import ListNotations.

(** array functions *)
Definition clip_config (lh zo : bool) : list (fundef * fundef) :=
  match lh, zo with
  | false, false => [
    (glm_frustum, glm_frustum_rh_no);
    (glm_ortho, glm_ortho_rh_no);
    (glm_ortho_aabb, glm_ortho_aabb_rh_no);
    (glm_ortho_aabb_p, glm_ortho_aabb_p_rh_no);
    (glm_ortho_aabb_pz, glm_ortho_aabb_pz_rh_no);
    (glm_ortho_default, glm_ortho_default_rh_no);
    (glm_ortho_default_s, glm_ortho_default_s_rh_no);
    (glm_perspective, glm_perspective_rh_no);
    (glm_persp_move_far, glm_persp_move_far_rh_no);
    (glm_perspective_default, glm_perspective_default_rh_no);
    (glm_perspective_resize, glm_perspective_resize_rh_no);
    (glm_lookat, glm_lookat_rh_no);
    (glm_look, glm_look_rh_no);
    (glm_look_anyup, glm_look_anyup_rh_no);
    (glm_persp_decomp, glm_persp_decomp_rh_no);
    (glm_persp_decompv, glm_persp_decompv_rh_no);
    (glm_persp_decomp_x, glm_persp_decomp_x_rh_no);
    (glm_persp_decomp_y, glm_persp_decomp_y_rh_no);
    (glm_persp_decomp_z, glm_persp_decomp_z_rh_no);
    (glm_persp_decomp_far, glm_persp_decomp_far_rh_no);
    (glm_persp_decomp_near, glm_persp_decomp_near_rh_no);
    (glm_persp_sizes, glm_persp_sizes_rh_no);
    (glm_unprojecti, glm_unprojecti_no);
    (glm_project, glm_project_no);
    (glm_project_z, glm_project_z_no);
    (glm_euler_xyz_quat, glm_euler_xyz_quat_rh);
    (glm_euler_xzy_quat, glm_euler_xzy_quat_rh);
    (glm_euler_yxz_quat, glm_euler_yxz_quat_rh);
    (glm_euler_yzx_quat, glm_euler_yzx_quat_rh);
    (glm_euler_zxy_quat, glm_euler_zxy_quat_rh);
    (glm_euler_zyx_quat, glm_euler_zyx_quat_rh)]
  | false, true => [
    (rh_zo_glm_frustum, glm_frustum_rh_zo);
    (rh_zo_glm_ortho, glm_ortho_rh_zo);
    (rh_zo_glm_ortho_aabb, glm_ortho_aabb_rh_zo);
    (rh_zo_glm_ortho_aabb_p, glm_ortho_aabb_p_rh_zo);
    (rh_zo_glm_ortho_aabb_pz, glm_ortho_aabb_pz_rh_zo);
    (rh_zo_glm_ortho_default, glm_ortho_default_rh_zo);
    (rh_zo_glm_ortho_default_s, glm_ortho_default_s_rh_zo);
    (rh_zo_glm_perspective, glm_perspective_rh_zo);
    (rh_zo_glm_persp_move_far, glm_persp_move_far_rh_zo);
    (rh_zo_glm_perspective_default, glm_perspective_default_rh_zo);
    (glm_perspective_resize, glm_perspective_resize_rh_zo);
    (glm_lookat, glm_lookat_rh_zo);
    (glm_look, glm_look_rh_zo);
    (glm_look_anyup, glm_look_anyup_rh_zo);
    (rh_zo_glm_persp_decomp, glm_persp_decomp_rh_zo);
    (rh_zo_glm_persp_decompv, glm_persp_decompv_rh_zo);
    (rh_zo_glm_persp_decomp_x, glm_persp_decomp_x_rh_zo);
    (rh_zo_glm_persp_decomp_y, glm_persp_decomp_y_rh_zo);
    (rh_zo_glm_persp_decomp_z, glm_persp_decomp_z_rh_zo);
    (rh_zo_glm_persp_decomp_far, glm_persp_decomp_far_rh_zo);
    (rh_zo_glm_persp_decomp_near, glm_persp_decomp_near_rh_zo);
    (rh_zo_glm_persp_sizes, glm_persp_sizes_rh_zo);
    (rh_zo_glm_unprojecti, glm_unprojecti_zo);
    (rh_zo_glm_project, glm_project_zo);
    (rh_zo_glm_project_z, glm_project_z_zo);
    (glm_euler_xyz_quat, glm_euler_xyz_quat_rh);
    (glm_euler_xzy_quat, glm_euler_xzy_quat_rh);
    (glm_euler_yxz_quat, glm_euler_yxz_quat_rh);
    (glm_euler_yzx_quat, glm_euler_yzx_quat_rh);
    (glm_euler_zxy_quat, glm_euler_zxy_quat_rh);
    (glm_euler_zyx_quat, glm_euler_zyx_quat_rh)]
  | true, false => [
    (lh_no_glm_frustum, glm_frustum_lh_no);
    (lh_no_glm_ortho, glm_ortho_lh_no);
    (lh_no_glm_ortho_aabb, glm_ortho_aabb_lh_no);
    (lh_no_glm_ortho_aabb_p, glm_ortho_aabb_p_lh_no);
    (lh_no_glm_ortho_aabb_pz, glm_ortho_aabb_pz_lh_no);
    (lh_no_glm_ortho_default, glm_ortho_default_lh_no);
    (lh_no_glm_ortho_default_s, glm_ortho_default_s_lh_no);
    (lh_no_glm_perspective, glm_perspective_lh_no);
    (lh_no_glm_persp_move_far, glm_persp_move_far_lh_no);
    (lh_no_glm_perspective_default, glm_perspective_default_lh_no);
    (glm_perspective_resize, glm_perspective_resize_lh_no);
    (lh_no_glm_lookat, glm_lookat_lh_no);
    (lh_no_glm_look, glm_look_lh_no);
    (lh_no_glm_look_anyup, glm_look_anyup_lh_no);
    (lh_no_glm_persp_decomp, glm_persp_decomp_lh_no);
    (lh_no_glm_persp_decompv, glm_persp_decompv_lh_no);
    (lh_no_glm_persp_decomp_x, glm_persp_decomp_x_lh_no);
    (lh_no_glm_persp_decomp_y, glm_persp_decomp_y_lh_no);
    (lh_no_glm_persp_decomp_z, glm_persp_decomp_z_lh_no);
    (lh_no_glm_persp_decomp_far, glm_persp_decomp_far_lh_no);
    (lh_no_glm_persp_decomp_near, glm_persp_decomp_near_lh_no);
    (lh_no_glm_persp_sizes, glm_persp_sizes_lh_no);
    (glm_unprojecti, glm_unprojecti_no);
    (glm_project, glm_project_no);
    (glm_project_z, glm_project_z_no);
    (lh_no_glm_euler_xyz_quat, glm_euler_xyz_quat_lh);
    (lh_no_glm_euler_xzy_quat, glm_euler_xzy_quat_lh);
    (lh_no_glm_euler_yxz_quat, glm_euler_yxz_quat_lh);
    (lh_no_glm_euler_yzx_quat, glm_euler_yzx_quat_lh);
    (lh_no_glm_euler_zxy_quat, glm_euler_zxy_quat_lh);
    (lh_no_glm_euler_zyx_quat, glm_euler_zyx_quat_lh)]
  | true, true => [
    (lh_zo_glm_frustum, glm_frustum_lh_zo);
    (lh_zo_glm_ortho, glm_ortho_lh_zo);
    (lh_zo_glm_ortho_aabb, glm_ortho_aabb_lh_zo);
    (lh_zo_glm_ortho_aabb_p, glm_ortho_aabb_p_lh_zo);
    (lh_zo_glm_ortho_aabb_pz, glm_ortho_aabb_pz_lh_zo);
    (lh_zo_glm_ortho_default, glm_ortho_default_lh_zo);
    (lh_zo_glm_ortho_default_s, glm_ortho_default_s_lh_zo);
    (lh_zo_glm_perspective, glm_perspective_lh_zo);
    (lh_zo_glm_persp_move_far, glm_persp_move_far_lh_zo);
    (lh_zo_glm_perspective_default, glm_perspective_default_lh_zo);
    (glm_perspective_resize, glm_perspective_resize_lh_zo);
    (lh_zo_glm_lookat, glm_lookat_lh_zo);
    (lh_zo_glm_look, glm_look_lh_zo);
    (lh_zo_glm_look_anyup, glm_look_anyup_lh_zo);
    (lh_zo_glm_persp_decomp, glm_persp_decomp_lh_zo);
    (lh_zo_glm_persp_decompv, glm_persp_decompv_lh_zo);
    (lh_zo_glm_persp_decomp_x, glm_persp_decomp_x_lh_zo);
    (lh_zo_glm_persp_decomp_y, glm_persp_decomp_y_lh_zo);
    (lh_zo_glm_persp_decomp_z, glm_persp_decomp_z_lh_zo);
    (lh_zo_glm_persp_decomp_far, glm_persp_decomp_far_lh_zo);
    (lh_zo_glm_persp_decomp_near, glm_persp_decomp_near_lh_zo);
    (lh_zo_glm_persp_sizes, glm_persp_sizes_lh_zo);
    (lh_zo_glm_unprojecti, glm_unprojecti_zo);
    (lh_zo_glm_project, glm_project_zo);
    (lh_zo_glm_project_z, glm_project_z_zo);
    (lh_zo_glm_euler_xyz_quat, glm_euler_xyz_quat_lh);
    (lh_zo_glm_euler_xzy_quat, glm_euler_xzy_quat_lh);
    (lh_zo_glm_euler_yxz_quat, glm_euler_yxz_quat_lh);
    (lh_zo_glm_euler_yzx_quat, glm_euler_yzx_quat_lh);
    (lh_zo_glm_euler_zxy_quat, glm_euler_zxy_quat_lh);
    (lh_zo_glm_euler_zyx_quat, glm_euler_zyx_quat_lh)]
  end.

(** struct functions that call a struct function *)
Definition struct_config (lh zo : bool) : list (fundef * fundef) :=
  match lh, zo with
  | false, false => [
    (glms_frustum, glms_frustum_rh_no);
    (glms_ortho, glms_ortho_rh_no);
    (glms_ortho_aabb, glms_ortho_aabb_rh_no);
    (glms_ortho_aabb_p, glms_ortho_aabb_p_rh_no);
    (glms_ortho_aabb_pz, glms_ortho_aabb_pz_rh_no);
    (glms_ortho_default, glms_ortho_default_rh_no);
    (glms_ortho_default_s, glms_ortho_default_s_rh_no);
    (glms_perspective, glms_perspective_rh_no);
    (glms_persp_move_far, glms_persp_move_far_rh_no);
    (glms_perspective_default, glms_perspective_default_rh_no);
    (glms_perspective_resize, glms_perspective_resize_rh_no);
    (glms_lookat, glms_lookat_rh_no);
    (glms_look, glms_look_rh_no);
    (glms_look_anyup, glms_look_anyup_rh_no);
    (glms_persp_decomp, glms_persp_decomp_rh_no);
    (glms_persp_decompv, glms_persp_decompv_rh_no);
    (glms_persp_decomp_x, glms_persp_decomp_x_rh_no);
    (glms_persp_decomp_y, glms_persp_decomp_y_rh_no);
    (glms_persp_decomp_z, glms_persp_decomp_z_rh_no);
    (glms_persp_decomp_far, glms_persp_decomp_far_rh_no);
    (glms_persp_decomp_near, glms_persp_decomp_near_rh_no);
    (glms_persp_fovy, glms_persp_fovy_rh_no);
    (glms_persp_aspect, glms_persp_aspect_rh_no);
    (glms_persp_sizes, glms_persp_sizes_rh_no);
    (glms_project_z, glms_project_z_no)]
  | false, true => [
    (rh_zo_glms_frustum, glms_frustum_rh_zo);
    (rh_zo_glms_ortho, glms_ortho_rh_zo);
    (rh_zo_glms_ortho_aabb, glms_ortho_aabb_rh_zo);
    (rh_zo_glms_ortho_aabb_p, glms_ortho_aabb_p_rh_zo);
    (rh_zo_glms_ortho_aabb_pz, glms_ortho_aabb_pz_rh_zo);
    (rh_zo_glms_ortho_default, glms_ortho_default_rh_zo);
    (rh_zo_glms_ortho_default_s, glms_ortho_default_s_rh_zo);
    (rh_zo_glms_perspective, glms_perspective_rh_zo);
    (rh_zo_glms_persp_move_far, glms_persp_move_far_rh_zo);
    (rh_zo_glms_perspective_default, glms_perspective_default_rh_zo);
    (rh_zo_glms_perspective_resize, glms_perspective_resize_rh_zo);
    (rh_zo_glms_lookat, glms_lookat_rh_zo);
    (rh_zo_glms_look, glms_look_rh_zo);
    (rh_zo_glms_look_anyup, glms_look_anyup_rh_zo);
    (rh_zo_glms_persp_decomp, glms_persp_decomp_rh_zo);
    (rh_zo_glms_persp_decompv, glms_persp_decompv_rh_zo);
    (rh_zo_glms_persp_decomp_x, glms_persp_decomp_x_rh_zo);
    (rh_zo_glms_persp_decomp_y, glms_persp_decomp_y_rh_zo);
    (rh_zo_glms_persp_decomp_z, glms_persp_decomp_z_rh_zo);
    (rh_zo_glms_persp_decomp_far, glms_persp_decomp_far_rh_zo);
    (rh_zo_glms_persp_decomp_near, glms_persp_decomp_near_rh_zo);
    (rh_zo_glms_persp_fovy, glms_persp_fovy_rh_zo);
    (rh_zo_glms_persp_aspect, glms_persp_aspect_rh_zo);
    (rh_zo_glms_persp_sizes, glms_persp_sizes_rh_zo);
    (rh_zo_glms_project_z, glms_project_z_zo)]
  | true, false => [
    (lh_no_glms_frustum, glms_frustum_lh_no);
    (lh_no_glms_ortho, glms_ortho_lh_no);
    (lh_no_glms_ortho_aabb, glms_ortho_aabb_lh_no);
    (lh_no_glms_ortho_aabb_p, glms_ortho_aabb_p_lh_no);
    (lh_no_glms_ortho_aabb_pz, glms_ortho_aabb_pz_lh_no);
    (lh_no_glms_ortho_default, glms_ortho_default_lh_no);
    (lh_no_glms_ortho_default_s, glms_ortho_default_s_lh_no);
    (lh_no_glms_perspective, glms_perspective_lh_no);
    (lh_no_glms_persp_move_far, glms_persp_move_far_lh_no);
    (lh_no_glms_perspective_default, glms_perspective_default_lh_no);
    (lh_no_glms_perspective_resize, glms_perspective_resize_lh_no);
    (lh_no_glms_lookat, glms_lookat_lh_no);
    (lh_no_glms_look, glms_look_lh_no);
    (lh_no_glms_look_anyup, glms_look_anyup_lh_no);
    (lh_no_glms_persp_decomp, glms_persp_decomp_lh_no);
    (lh_no_glms_persp_decompv, glms_persp_decompv_lh_no);
    (lh_no_glms_persp_decomp_x, glms_persp_decomp_x_lh_no);
    (lh_no_glms_persp_decomp_y, glms_persp_decomp_y_lh_no);
    (lh_no_glms_persp_decomp_z, glms_persp_decomp_z_lh_no);
    (lh_no_glms_persp_decomp_far, glms_persp_decomp_far_lh_no);
    (lh_no_glms_persp_decomp_near, glms_persp_decomp_near_lh_no);
    (lh_no_glms_persp_fovy, glms_persp_fovy_lh_no);
    (lh_no_glms_persp_aspect, glms_persp_aspect_lh_no);
    (lh_no_glms_persp_sizes, glms_persp_sizes_lh_no);
    (glms_project_z, glms_project_z_no)]
  | true, true => [
    (lh_zo_glms_frustum, glms_frustum_lh_zo);
    (lh_zo_glms_ortho, glms_ortho_lh_zo);
    (lh_zo_glms_ortho_aabb, glms_ortho_aabb_lh_zo);
    (lh_zo_glms_ortho_aabb_p, glms_ortho_aabb_p_lh_zo);
    (lh_zo_glms_ortho_aabb_pz, glms_ortho_aabb_pz_lh_zo);
    (lh_zo_glms_ortho_default, glms_ortho_default_lh_zo);
    (lh_zo_glms_ortho_default_s, glms_ortho_default_s_lh_zo);
    (lh_zo_glms_perspective, glms_perspective_lh_zo);
    (lh_zo_glms_persp_move_far, glms_persp_move_far_lh_zo);
    (lh_zo_glms_perspective_default, glms_perspective_default_lh_zo);
    (lh_zo_glms_perspective_resize, glms_perspective_resize_lh_zo);
    (lh_zo_glms_lookat, glms_lookat_lh_zo);
    (lh_zo_glms_look, glms_look_lh_zo);
    (lh_zo_glms_look_anyup, glms_look_anyup_lh_zo);
    (lh_zo_glms_persp_decomp, glms_persp_decomp_lh_zo);
    (lh_zo_glms_persp_decompv, glms_persp_decompv_lh_zo);
    (lh_zo_glms_persp_decomp_x, glms_persp_decomp_x_lh_zo);
    (lh_zo_glms_persp_decomp_y, glms_persp_decomp_y_lh_zo);
    (lh_zo_glms_persp_decomp_z, glms_persp_decomp_z_lh_zo);
    (lh_zo_glms_persp_decomp_far, glms_persp_decomp_far_lh_zo);
    (lh_zo_glms_persp_decomp_near, glms_persp_decomp_near_lh_zo);
    (lh_zo_glms_persp_fovy, glms_persp_fovy_lh_zo);
    (lh_zo_glms_persp_aspect, glms_persp_aspect_lh_zo);
    (lh_zo_glms_persp_sizes, glms_persp_sizes_lh_zo);
    (lh_zo_glms_project_z, glms_project_z_zo)]
  end.

(** struct functions that call an array function reading differently in this build *)
Definition struct_through (lh zo : bool) : list (fundef * fundef * result) :=
  match lh, zo with
  | false, false => [
]
  | false, true => [
    (rh_zo_glms_unprojecti, rh_zo_glm_unprojecti, Dest 3);
    (rh_zo_glms_unproject, rh_zo_glm_unproject, Dest 3);
    (rh_zo_glms_project, rh_zo_glm_project, Dest 3)]
  | true, false => [
    (lh_no_glms_euler_xyz_quat, lh_no_glm_euler_xyz_quat, Dest 4);
    (lh_no_glms_euler_xzy_quat, lh_no_glm_euler_xzy_quat, Dest 4);
    (lh_no_glms_euler_yxz_quat, lh_no_glm_euler_yxz_quat, Dest 4);
    (lh_no_glms_euler_yzx_quat, lh_no_glm_euler_yzx_quat, Dest 4);
    (lh_no_glms_euler_zxy_quat, lh_no_glm_euler_zxy_quat, Dest 4);
    (lh_no_glms_euler_zyx_quat, lh_no_glm_euler_zyx_quat, Dest 4)]
  | true, true => [
    (lh_zo_glms_unprojecti, lh_zo_glm_unprojecti, Dest 3);
    (lh_zo_glms_unproject, lh_zo_glm_unproject, Dest 3);
    (lh_zo_glms_project, lh_zo_glm_project, Dest 3);
    (lh_zo_glms_euler_xyz_quat, lh_zo_glm_euler_xyz_quat, Dest 4);
    (lh_zo_glms_euler_xzy_quat, lh_zo_glm_euler_xzy_quat, Dest 4);
    (lh_zo_glms_euler_yxz_quat, lh_zo_glm_euler_yxz_quat, Dest 4);
    (lh_zo_glms_euler_yzx_quat, lh_zo_glm_euler_yzx_quat, Dest 4);
    (lh_zo_glms_euler_zxy_quat, lh_zo_glm_euler_zxy_quat, Dest 4);
    (lh_zo_glms_euler_zyx_quat, lh_zo_glm_euler_zyx_quat, Dest 4)]
  end.

(** glm_project and glm_unproject of each build; they depend on the depth range only *)
Definition project_in (lh zo : bool) : fundef :=
  match lh, zo with false, true => rh_zo_glm_project | true, true => lh_zo_glm_project | _, false => glm_project end.
Definition unproject_in (lh zo : bool) : fundef :=
  match lh, zo with false, true => rh_zo_glm_unproject | true, true => lh_zo_glm_unproject | _, false => glm_unproject end.
