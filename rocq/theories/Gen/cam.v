(** Functions of include/cglm/cam.h (configuration: scalar), written by tools/gen.py.
    The comment above each definition gives file and lines in /repo/include/cglm. *)
From Coq Require Import String List ZArith.
From Verif Require Import MiniC.
From Verif.Gen Require Import clipspace_ortho_rh_no clipspace_persp_rh_no clipspace_view_rh.
Import ListNotations.
Open Scope string_scope.
Open Scope Z_scope.
Open Scope mc_scope.

(* cam.h:102-115 *)
Definition glm_frustum : fundef := Fun
  [("left", None); ("right", None); ("bottom", None); ("top", None); ("nearZ", None); ("farZ", None); ("dest", None)]
  [] (
    SExp glm_frustum_rh_no$("left", "right", "bottom", "top", "nearZ", "farZ", "dest")
  ).

(* cam.h:130-143 *)
Definition glm_ortho : fundef := Fun
  [("left", None); ("right", None); ("bottom", None); ("top", None); ("nearZ", None); ("farZ", None); ("dest", None)]
  [] (
    SExp glm_ortho_rh_no$("left", "right", "bottom", "top", "nearZ", "farZ", "dest")
  ).

(* cam.h:155-165 *)
Definition glm_ortho_aabb : fundef := Fun
  [("box", None); ("dest", None)]
  [] (
    SExp glm_ortho_aabb_rh_no$("box", "dest")
  ).

(* cam.h:178-188 *)
Definition glm_ortho_aabb_p : fundef := Fun
  [("box", None); ("padding", None); ("dest", None)]
  [] (
    SExp glm_ortho_aabb_p_rh_no$("box", "padding", "dest")
  ).

(* cam.h:201-211 *)
Definition glm_ortho_aabb_pz : fundef := Fun
  [("box", None); ("padding", None); ("dest", None)]
  [] (
    SExp glm_ortho_aabb_pz_rh_no$("box", "padding", "dest")
  ).

(* cam.h:221-231 *)
Definition glm_ortho_default : fundef := Fun
  [("aspect", None); ("dest", None)]
  [] (
    SExp glm_ortho_default_rh_no$("aspect", "dest")
  ).

(* cam.h:242-252 *)
Definition glm_ortho_default_s : fundef := Fun
  [("aspect", None); ("size", None); ("dest", None)]
  [] (
    SExp glm_ortho_default_s_rh_no$("aspect", "size", "dest")
  ).

(* cam.h:265-275 *)
Definition glm_perspective : fundef := Fun
  [("fovy", None); ("aspect", None); ("nearZ", None); ("farZ", None); ("dest", None)]
  [] (
    SExp glm_perspective_rh_no$("fovy", "aspect", "nearZ", "farZ", "dest")
  ).

(* cam.h:287-297 *)
Definition glm_persp_move_far : fundef := Fun
  [("proj", None); ("deltaFar", None)]
  [] (
    SExp glm_persp_move_far_rh_no$("proj", "deltaFar")
  ).

(* cam.h:308-318 *)
Definition glm_perspective_default : fundef := Fun
  [("aspect", None); ("dest", None)]
  [] (
    SExp glm_perspective_default_rh_no$("aspect", "dest")
  ).

(* cam.h:330-335 *)
Definition glm_perspective_resize : fundef := Fun
  [("aspect", None); ("proj", None)]
  [] (
    (SIf (!"proj".[0:4].[0] == (EF 0 1)) (
      SRet0
    ) (
      SSkip
    )) ;;
    "proj".[0:4].[0] ::= (!"proj".[1:4].[1] / "aspect")
  ).

(* cam.h:350-356 *)
Definition glm_lookat : fundef := Fun
  [("eye", None); ("center", None); ("up", None); ("dest", None)]
  [] (
    SExp glm_lookat_rh$("eye", "center", "up", "dest")
  ).

(* cam.h:374-380 *)
Definition glm_look : fundef := Fun
  [("eye", None); ("dir", None); ("up", None); ("dest", None)]
  [] (
    SExp glm_look_rh$("eye", "dir", "up", "dest")
  ).

(* cam.h:394-400 *)
Definition glm_look_anyup : fundef := Fun
  [("eye", None); ("dir", None); ("dest", None)]
  [] (
    SExp glm_look_anyup_rh$("eye", "dir", "dest")
  ).

(* cam.h:415-428 *)
Definition glm_persp_decomp : fundef := Fun
  [("proj", None); ("nearZ", None); ("farZ", None); ("top", None); ("bottom", None); ("left", None); ("right", None)]
  [] (
    SExp glm_persp_decomp_rh_no$("proj", "nearZ", "farZ", "top", "bottom", "left", "right")
  ).

(* cam.h:439-449 *)
Definition glm_persp_decompv : fundef := Fun
  [("proj", None); ("dest", None)]
  [] (
    SExp glm_persp_decompv_rh_no$("proj", "dest")
  ).

(* cam.h:461-473 *)
Definition glm_persp_decomp_x : fundef := Fun
  [("proj", None); ("left", None); ("right", None)]
  [] (
    SExp glm_persp_decomp_x_rh_no$("proj", "left", "right")
  ).

(* cam.h:485-497 *)
Definition glm_persp_decomp_y : fundef := Fun
  [("proj", None); ("top", None); ("bottom", None)]
  [] (
    SExp glm_persp_decomp_y_rh_no$("proj", "top", "bottom")
  ).

(* cam.h:509-519 *)
Definition glm_persp_decomp_z : fundef := Fun
  [("proj", None); ("nearZ", None); ("farZ", None)]
  [] (
    SExp glm_persp_decomp_z_rh_no$("proj", "nearZ", "farZ")
  ).

(* cam.h:529-539 *)
Definition glm_persp_decomp_far : fundef := Fun
  [("proj", None); ("farZ", None)]
  [] (
    SExp glm_persp_decomp_far_rh_no$("proj", "farZ")
  ).

(* cam.h:549-559 *)
Definition glm_persp_decomp_near : fundef := Fun
  [("proj", None); ("nearZ", None)]
  [] (
    SExp glm_persp_decomp_near_rh_no$("proj", "nearZ")
  ).

(* cam.h:570-580 *)
Definition glm_persp_sizes : fundef := Fun
  [("proj", None); ("fovy", None); ("dest", None)]
  [] (
    SExp glm_persp_sizes_rh_no$("proj", "fovy", "dest")
  ).

