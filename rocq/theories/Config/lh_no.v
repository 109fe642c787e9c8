(** The functions of include/cglm whose text differs in the lh_no build, or that call one,
    written by tools/gensimd.py.  Functions not listed read as in the scalar build (Gen/).
    The comment above each definition gives file and lines in /repo/include/cglm. *)
From Coq Require Import String List ZArith.
From Verif Require Import MiniC Cglm.
From Verif.Gen Require Import struct_clipspace_ortho_lh_no struct_clipspace_persp_lh_no struct_clipspace_view_lh_no.
Import ListNotations.
Open Scope string_scope.
Open Scope Z_scope.
Open Scope mc_scope.

(* cam.h:102-115 *)
Definition lh_no_glm_frustum : fundef := Fun
  [("left", None); ("right", None); ("bottom", None); ("top", None); ("nearZ", None); ("farZ", None); ("dest", None)]
  [] (
    SExp glm_frustum_lh_no$("left", "right", "bottom", "top", "nearZ", "farZ", "dest")
  ).

(* cam.h:130-143 *)
Definition lh_no_glm_ortho : fundef := Fun
  [("left", None); ("right", None); ("bottom", None); ("top", None); ("nearZ", None); ("farZ", None); ("dest", None)]
  [] (
    SExp glm_ortho_lh_no$("left", "right", "bottom", "top", "nearZ", "farZ", "dest")
  ).

(* cam.h:155-165 *)
Definition lh_no_glm_ortho_aabb : fundef := Fun
  [("box", None); ("dest", None)]
  [] (
    SExp glm_ortho_aabb_lh_no$("box", "dest")
  ).

(* cam.h:178-188 *)
Definition lh_no_glm_ortho_aabb_p : fundef := Fun
  [("box", None); ("padding", None); ("dest", None)]
  [] (
    SExp glm_ortho_aabb_p_lh_no$("box", "padding", "dest")
  ).

(* cam.h:201-211 *)
Definition lh_no_glm_ortho_aabb_pz : fundef := Fun
  [("box", None); ("padding", None); ("dest", None)]
  [] (
    SExp glm_ortho_aabb_pz_lh_no$("box", "padding", "dest")
  ).

(* cam.h:221-231 *)
Definition lh_no_glm_ortho_default : fundef := Fun
  [("aspect", None); ("dest", None)]
  [] (
    SExp glm_ortho_default_lh_no$("aspect", "dest")
  ).

(* cam.h:242-252 *)
Definition lh_no_glm_ortho_default_s : fundef := Fun
  [("aspect", None); ("size", None); ("dest", None)]
  [] (
    SExp glm_ortho_default_s_lh_no$("aspect", "size", "dest")
  ).

(* cam.h:265-275 *)
Definition lh_no_glm_perspective : fundef := Fun
  [("fovy", None); ("aspect", None); ("nearZ", None); ("farZ", None); ("dest", None)]
  [] (
    SExp glm_perspective_lh_no$("fovy", "aspect", "nearZ", "farZ", "dest")
  ).

(* cam.h:287-297 *)
Definition lh_no_glm_persp_move_far : fundef := Fun
  [("proj", None); ("deltaFar", None)]
  [] (
    SExp glm_persp_move_far_lh_no$("proj", "deltaFar")
  ).

(* cam.h:308-318 *)
Definition lh_no_glm_perspective_default : fundef := Fun
  [("aspect", None); ("dest", None)]
  [] (
    SExp glm_perspective_default_lh_no$("aspect", "dest")
  ).

(* cam.h:350-356 *)
Definition lh_no_glm_lookat : fundef := Fun
  [("eye", None); ("center", None); ("up", None); ("dest", None)]
  [] (
    SExp glm_lookat_lh$("eye", "center", "up", "dest")
  ).

(* cam.h:374-380 *)
Definition lh_no_glm_look : fundef := Fun
  [("eye", None); ("dir", None); ("up", None); ("dest", None)]
  [] (
    SExp glm_look_lh$("eye", "dir", "up", "dest")
  ).

(* cam.h:394-400 *)
Definition lh_no_glm_look_anyup : fundef := Fun
  [("eye", None); ("dir", None); ("dest", None)]
  [] (
    SExp glm_look_anyup_lh$("eye", "dir", "dest")
  ).

(* cam.h:415-428 *)
Definition lh_no_glm_persp_decomp : fundef := Fun
  [("proj", None); ("nearZ", None); ("farZ", None); ("top", None); ("bottom", None); ("left", None); ("right", None)]
  [] (
    SExp glm_persp_decomp_lh_no$("proj", "nearZ", "farZ", "top", "bottom", "left", "right")
  ).

(* cam.h:439-449 *)
Definition lh_no_glm_persp_decompv : fundef := Fun
  [("proj", None); ("dest", None)]
  [] (
    SExp glm_persp_decompv_lh_no$("proj", "dest")
  ).

(* cam.h:461-473 *)
Definition lh_no_glm_persp_decomp_x : fundef := Fun
  [("proj", None); ("left", None); ("right", None)]
  [] (
    SExp glm_persp_decomp_x_lh_no$("proj", "left", "right")
  ).

(* cam.h:485-497 *)
Definition lh_no_glm_persp_decomp_y : fundef := Fun
  [("proj", None); ("top", None); ("bottom", None)]
  [] (
    SExp glm_persp_decomp_y_lh_no$("proj", "top", "bottom")
  ).

(* cam.h:509-519 *)
Definition lh_no_glm_persp_decomp_z : fundef := Fun
  [("proj", None); ("nearZ", None); ("farZ", None)]
  [] (
    SExp glm_persp_decomp_z_lh_no$("proj", "nearZ", "farZ")
  ).

(* cam.h:529-539 *)
Definition lh_no_glm_persp_decomp_far : fundef := Fun
  [("proj", None); ("farZ", None)]
  [] (
    SExp glm_persp_decomp_far_lh_no$("proj", "farZ")
  ).

(* cam.h:549-559 *)
Definition lh_no_glm_persp_decomp_near : fundef := Fun
  [("proj", None); ("nearZ", None)]
  [] (
    SExp glm_persp_decomp_near_lh_no$("proj", "nearZ")
  ).

(* cam.h:570-580 *)
Definition lh_no_glm_persp_sizes : fundef := Fun
  [("proj", None); ("fovy", None); ("dest", None)]
  [] (
    SExp glm_persp_sizes_lh_no$("proj", "fovy", "dest")
  ).

(* euler.h:507-513 *)
Definition lh_no_glm_euler_xyz_quat : fundef := Fun
  [("angles", None); ("dest", None)]
  [] (
    SExp glm_euler_xyz_quat_lh$("angles", "dest")
  ).

(* euler.h:524-530 *)
Definition lh_no_glm_euler_xzy_quat : fundef := Fun
  [("angles", None); ("dest", None)]
  [] (
    SExp glm_euler_xzy_quat_lh$("angles", "dest")
  ).

(* euler.h:541-547 *)
Definition lh_no_glm_euler_yxz_quat : fundef := Fun
  [("angles", None); ("dest", None)]
  [] (
    SExp glm_euler_yxz_quat_lh$("angles", "dest")
  ).

(* euler.h:558-564 *)
Definition lh_no_glm_euler_yzx_quat : fundef := Fun
  [("angles", None); ("dest", None)]
  [] (
    SExp glm_euler_yzx_quat_lh$("angles", "dest")
  ).

(* euler.h:575-581 *)
Definition lh_no_glm_euler_zxy_quat : fundef := Fun
  [("angles", None); ("dest", None)]
  [] (
    SExp glm_euler_zxy_quat_lh$("angles", "dest")
  ).

(* euler.h:592-598 *)
Definition lh_no_glm_euler_zyx_quat : fundef := Fun
  [("angles", None); ("dest", None)]
  [] (
    SExp glm_euler_zyx_quat_lh$("angles", "dest")
  ).

(* struct/cam.h:100-112 *)
Definition lh_no_glms_frustum : fundef := Fun
  [("left", None); ("right", None); ("bottom", None); ("top", None); ("nearZ", None); ("farZ", None)]
  [] (
    SRet glms_frustum_lh_no$("left", "right", "bottom", "top", "nearZ", "farZ")
  ).

(* struct/cam.h:127-139 *)
Definition lh_no_glms_ortho : fundef := Fun
  [("left", None); ("right", None); ("bottom", None); ("top", None); ("nearZ", None); ("farZ", None)]
  [] (
    SRet glms_ortho_lh_no$("left", "right", "bottom", "top", "nearZ", "farZ")
  ).

(* struct/cam.h:151-161 *)
Definition lh_no_glms_ortho_aabb : fundef := Fun
  [("box", None)]
  [] (
    SRet glms_ortho_aabb_lh_no$("box")
  ).

(* struct/cam.h:174-184 *)
Definition lh_no_glms_ortho_aabb_p : fundef := Fun
  [("box", None); ("padding", None)]
  [] (
    SRet glms_ortho_aabb_p_lh_no$("box", "padding")
  ).

(* struct/cam.h:197-207 *)
Definition lh_no_glms_ortho_aabb_pz : fundef := Fun
  [("box", None); ("padding", None)]
  [] (
    SRet glms_ortho_aabb_pz_lh_no$("box", "padding")
  ).

(* struct/cam.h:217-227 *)
Definition lh_no_glms_ortho_default : fundef := Fun
  [("aspect", None)]
  [] (
    SRet glms_ortho_default_lh_no$("aspect")
  ).

(* struct/cam.h:238-248 *)
Definition lh_no_glms_ortho_default_s : fundef := Fun
  [("aspect", None); ("size", None)]
  [] (
    SRet glms_ortho_default_s_lh_no$("aspect", "size")
  ).

(* struct/cam.h:261-271 *)
Definition lh_no_glms_perspective : fundef := Fun
  [("fovy", None); ("aspect", None); ("nearZ", None); ("farZ", None)]
  [] (
    SRet glms_perspective_lh_no$("fovy", "aspect", "nearZ", "farZ")
  ).

(* struct/cam.h:287-297 *)
Definition lh_no_glms_persp_move_far : fundef := Fun
  [("proj", Some 16%nat); ("deltaFar", None)]
  [] (
    SRet glms_persp_move_far_lh_no$((ELdA 16 "proj"), "deltaFar")
  ).

(* struct/cam.h:308-318 *)
Definition lh_no_glms_perspective_default : fundef := Fun
  [("aspect", None)]
  [] (
    SRet glms_perspective_default_lh_no$("aspect")
  ).

(* struct/cam.h:334-344 *)
Definition lh_no_glms_perspective_resize : fundef := Fun
  [("proj", Some 16%nat); ("aspect", None)]
  [] (
    SRet glms_perspective_resize_lh_no$((ELdA 16 "proj"), "aspect")
  ).

(* struct/cam.h:359-369 *)
Definition lh_no_glms_lookat : fundef := Fun
  [("eye", Some 3%nat); ("center", Some 3%nat); ("up", Some 3%nat)]
  [] (
    SRet glms_lookat_lh_no$((ELdA 3 "eye"), (ELdA 3 "center"), (ELdA 3 "up"))
  ).

(* struct/cam.h:387-397 *)
Definition lh_no_glms_look : fundef := Fun
  [("eye", Some 3%nat); ("dir", Some 3%nat); ("up", Some 3%nat)]
  [] (
    SRet glms_look_lh_no$((ELdA 3 "eye"), (ELdA 3 "dir"), (ELdA 3 "up"))
  ).

(* struct/cam.h:411-421 *)
Definition lh_no_glms_look_anyup : fundef := Fun
  [("eye", Some 3%nat); ("dir", Some 3%nat)]
  [] (
    SRet glms_look_anyup_lh_no$((ELdA 3 "eye"), (ELdA 3 "dir"))
  ).

(* struct/cam.h:436-449 *)
Definition lh_no_glms_persp_decomp : fundef := Fun
  [("proj", Some 16%nat); ("nearZ", None); ("farZ", None); ("top", None); ("bottom", None); ("left", None); ("right", None)]
  [] (
    SExp glms_persp_decomp_lh_no$((ELdA 16 "proj"), "nearZ", "farZ", "top", "bottom", "left", "right")
  ).

(* struct/cam.h:460-470 *)
Definition lh_no_glms_persp_decompv : fundef := Fun
  [("proj", Some 16%nat); ("dest", None)]
  [] (
    SExp glms_persp_decompv_lh_no$((ELdA 16 "proj"), "dest")
  ).

(* struct/cam.h:482-494 *)
Definition lh_no_glms_persp_decomp_x : fundef := Fun
  [("proj", Some 16%nat); ("left", None); ("right", None)]
  [] (
    SExp glms_persp_decomp_x_lh_no$((ELdA 16 "proj"), "left", "right")
  ).

(* struct/cam.h:506-518 *)
Definition lh_no_glms_persp_decomp_y : fundef := Fun
  [("proj", Some 16%nat); ("top", None); ("bottom", None)]
  [] (
    SExp glms_persp_decomp_y_lh_no$((ELdA 16 "proj"), "top", "bottom")
  ).

(* struct/cam.h:530-542 *)
Definition lh_no_glms_persp_decomp_z : fundef := Fun
  [("proj", Some 16%nat); ("nearZ", None); ("farZ", None)]
  [] (
    SExp glms_persp_decomp_z_lh_no$((ELdA 16 "proj"), "nearZ", "farZ")
  ).

(* struct/cam.h:552-562 *)
Definition lh_no_glms_persp_decomp_far : fundef := Fun
  [("proj", Some 16%nat); ("farZ", None)]
  [] (
    SExp glms_persp_decomp_far_lh_no$((ELdA 16 "proj"), "farZ")
  ).

(* struct/cam.h:572-582 *)
Definition lh_no_glms_persp_decomp_near : fundef := Fun
  [("proj", Some 16%nat); ("nearZ", None)]
  [] (
    SExp glms_persp_decomp_near_lh_no$((ELdA 16 "proj"), "nearZ")
  ).

(* struct/cam.h:594-604 *)
Definition lh_no_glms_persp_fovy : fundef := Fun
  [("proj", Some 16%nat)]
  [] (
    SRet glms_persp_fovy_lh_no$((ELdA 16 "proj"))
  ).

(* struct/cam.h:613-623 *)
Definition lh_no_glms_persp_aspect : fundef := Fun
  [("proj", Some 16%nat)]
  [] (
    SRet glms_persp_aspect_lh_no$((ELdA 16 "proj"))
  ).

(* struct/cam.h:634-644 *)
Definition lh_no_glms_persp_sizes : fundef := Fun
  [("proj", Some 16%nat); ("fovy", None)]
  [] (
    SRet glms_persp_sizes_lh_no$((ELdA 16 "proj"), "fovy")
  ).

(* struct/euler.h:167-171 *)
Definition lh_no_glms_euler_xyz_quat : fundef := Fun
  [("angles", Some 3%nat)]
  [("dest", Some 4%nat)] (
    SExp lh_no_glm_euler_xyz_quat$("angles", "dest") ;;
    SRet (ELdA 4 "dest")
  ).

(* struct/euler.h:182-186 *)
Definition lh_no_glms_euler_xzy_quat : fundef := Fun
  [("angles", Some 3%nat)]
  [("dest", Some 4%nat)] (
    SExp lh_no_glm_euler_xzy_quat$("angles", "dest") ;;
    SRet (ELdA 4 "dest")
  ).

(* struct/euler.h:197-201 *)
Definition lh_no_glms_euler_yxz_quat : fundef := Fun
  [("angles", Some 3%nat)]
  [("dest", Some 4%nat)] (
    SExp lh_no_glm_euler_yxz_quat$("angles", "dest") ;;
    SRet (ELdA 4 "dest")
  ).

(* struct/euler.h:212-216 *)
Definition lh_no_glms_euler_yzx_quat : fundef := Fun
  [("angles", Some 3%nat)]
  [("dest", Some 4%nat)] (
    SExp lh_no_glm_euler_yzx_quat$("angles", "dest") ;;
    SRet (ELdA 4 "dest")
  ).

(* struct/euler.h:227-231 *)
Definition lh_no_glms_euler_zxy_quat : fundef := Fun
  [("angles", Some 3%nat)]
  [("dest", Some 4%nat)] (
    SExp lh_no_glm_euler_zxy_quat$("angles", "dest") ;;
    SRet (ELdA 4 "dest")
  ).

(* struct/euler.h:242-246 *)
Definition lh_no_glms_euler_zyx_quat : fundef := Fun
  [("angles", Some 3%nat)]
  [("dest", Some 4%nat)] (
    SExp lh_no_glm_euler_zyx_quat$("angles", "dest") ;;
    SRet (ELdA 4 "dest")
  ).

