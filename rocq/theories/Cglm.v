(** All array functions of the scalar build. *)
From Verif.Gen Require Export
  aabb2d affine affine2d affine2d_post affine_mat affine_post affine_pre bezier box cam 
  clipspace_ortho_lh_no clipspace_ortho_lh_zo clipspace_ortho_rh_no clipspace_ortho_rh_zo 
  clipspace_persp clipspace_persp_lh_no clipspace_persp_lh_zo clipspace_persp_rh_no 
  clipspace_persp_rh_zo clipspace_project_no clipspace_project_zo clipspace_view_lh 
  clipspace_view_lh_no clipspace_view_lh_zo clipspace_view_rh clipspace_view_rh_no 
  clipspace_view_rh_zo color curve ease euler frustum handed_euler_to_quat_lh handed_euler_to_quat_rh 
  ivec2 ivec3 ivec4 mat2 mat2x3 mat2x4 mat3 mat3x2 mat3x4 mat4 mat4x2 mat4x3 noise plane project quat 
  ray sphere util vec2 vec2_ext vec3 vec3_ext vec4 vec4_ext .
