(** Functions of include/cglm/struct/cam.h (configuration: scalar), written by tools/gen.py.
    The comment above each definition gives file and lines in /repo/include/cglm. *)
From Coq Require Import String List ZArith.
From Verif Require Import MiniC.
From Verif.Gen Require Import struct_clipspace_ortho_rh_no struct_clipspace_persp_rh_no struct_clipspace_view_rh_no.
Import ListNotations.
Open Scope string_scope.
Open Scope Z_scope.
Open Scope mc_scope.

(* struct/cam.h:100-112 *)
Definition glms_frustum : fundef := Fun
  [("left", None); ("right", None); ("bottom", None); ("top", None); ("nearZ", None); ("farZ", None)]
  [] (
    SRet glms_frustum_rh_no$("left", "right", "bottom", "top", "nearZ", "farZ")
  ).

(* struct/cam.h:127-139 *)
Definition glms_ortho : fundef := Fun
  [("left", None); ("right", None); ("bottom", None); ("top", None); ("nearZ", None); ("farZ", None)]
  [] (
    SRet glms_ortho_rh_no$("left", "right", "bottom", "top", "nearZ", "farZ")
  ).

(* struct/cam.h:151-161 *)
Definition glms_ortho_aabb : fundef := Fun
  [("box", None)]
  [] (
    SRet glms_ortho_aabb_rh_no$("box")
  ).

(* struct/cam.h:174-184 *)
Definition glms_ortho_aabb_p : fundef := Fun
  [("box", None); ("padding", None)]
  [] (
    SRet glms_ortho_aabb_p_rh_no$("box", "padding")
  ).

(* struct/cam.h:197-207 *)
Definition glms_ortho_aabb_pz : fundef := Fun
  [("box", None); ("padding", None)]
  [] (
    SRet glms_ortho_aabb_pz_rh_no$("box", "padding")
  ).

(* struct/cam.h:217-227 *)
Definition glms_ortho_default : fundef := Fun
  [("aspect", None)]
  [] (
    SRet glms_ortho_default_rh_no$("aspect")
  ).

(* struct/cam.h:238-248 *)
Definition glms_ortho_default_s : fundef := Fun
  [("aspect", None); ("size", None)]
  [] (
    SRet glms_ortho_default_s_rh_no$("aspect", "size")
  ).

(* struct/cam.h:261-271 *)
Definition glms_perspective : fundef := Fun
  [("fovy", None); ("aspect", None); ("nearZ", None); ("farZ", None)]
  [] (
    SRet glms_perspective_rh_no$("fovy", "aspect", "nearZ", "farZ")
  ).

(* struct/cam.h:287-297 *)
Definition glms_persp_move_far : fundef := Fun
  [("proj", Some 16%nat); ("deltaFar", None)]
  [] (
    SRet glms_persp_move_far_rh_no$((ELdA 16 "proj"), "deltaFar")
  ).

(* struct/cam.h:308-318 *)
Definition glms_perspective_default : fundef := Fun
  [("aspect", None)]
  [] (
    SRet glms_perspective_default_rh_no$("aspect")
  ).

(* struct/cam.h:334-344 *)
Definition glms_perspective_resize : fundef := Fun
  [("proj", Some 16%nat); ("aspect", None)]
  [] (
    SRet glms_perspective_resize_rh_no$((ELdA 16 "proj"), "aspect")
  ).

(* struct/cam.h:359-369 *)
Definition glms_lookat : fundef := Fun
  [("eye", Some 3%nat); ("center", Some 3%nat); ("up", Some 3%nat)]
  [] (
    SRet glms_lookat_rh_no$((ELdA 3 "eye"), (ELdA 3 "center"), (ELdA 3 "up"))
  ).

(* struct/cam.h:387-397 *)
Definition glms_look : fundef := Fun
  [("eye", Some 3%nat); ("dir", Some 3%nat); ("up", Some 3%nat)]
  [] (
    SRet glms_look_rh_no$((ELdA 3 "eye"), (ELdA 3 "dir"), (ELdA 3 "up"))
  ).

(* struct/cam.h:411-421 *)
Definition glms_look_anyup : fundef := Fun
  [("eye", Some 3%nat); ("dir", Some 3%nat)]
  [] (
    SRet glms_look_anyup_rh_no$((ELdA 3 "eye"), (ELdA 3 "dir"))
  ).

(* struct/cam.h:436-449 *)
Definition glms_persp_decomp : fundef := Fun
  [("proj", Some 16%nat); ("nearZ", None); ("farZ", None); ("top", None); ("bottom", None); ("left", None); ("right", None)]
  [] (
    SExp glms_persp_decomp_rh_no$((ELdA 16 "proj"), "nearZ", "farZ", "top", "bottom", "left", "right")
  ).

(* struct/cam.h:460-470 *)
Definition glms_persp_decompv : fundef := Fun
  [("proj", Some 16%nat); ("dest", None)]
  [] (
    SExp glms_persp_decompv_rh_no$((ELdA 16 "proj"), "dest")
  ).

(* struct/cam.h:482-494 *)
Definition glms_persp_decomp_x : fundef := Fun
  [("proj", Some 16%nat); ("left", None); ("right", None)]
  [] (
    SExp glms_persp_decomp_x_rh_no$((ELdA 16 "proj"), "left", "right")
  ).

(* struct/cam.h:506-518 *)
Definition glms_persp_decomp_y : fundef := Fun
  [("proj", Some 16%nat); ("top", None); ("bottom", None)]
  [] (
    SExp glms_persp_decomp_y_rh_no$((ELdA 16 "proj"), "top", "bottom")
  ).

(* struct/cam.h:530-542 *)
Definition glms_persp_decomp_z : fundef := Fun
  [("proj", Some 16%nat); ("nearZ", None); ("farZ", None)]
  [] (
    SExp glms_persp_decomp_z_rh_no$((ELdA 16 "proj"), "nearZ", "farZ")
  ).

(* struct/cam.h:552-562 *)
Definition glms_persp_decomp_far : fundef := Fun
  [("proj", Some 16%nat); ("farZ", None)]
  [] (
    SExp glms_persp_decomp_far_rh_no$((ELdA 16 "proj"), "farZ")
  ).

(* struct/cam.h:572-582 *)
Definition glms_persp_decomp_near : fundef := Fun
  [("proj", Some 16%nat); ("nearZ", None)]
  [] (
    SExp glms_persp_decomp_near_rh_no$((ELdA 16 "proj"), "nearZ")
  ).

(* struct/cam.h:594-604 *)
Definition glms_persp_fovy : fundef := Fun
  [("proj", Some 16%nat)]
  [] (
    SRet glms_persp_fovy_rh_no$((ELdA 16 "proj"))
  ).

(* struct/cam.h:613-623 *)
Definition glms_persp_aspect : fundef := Fun
  [("proj", Some 16%nat)]
  [] (
    SRet glms_persp_aspect_rh_no$((ELdA 16 "proj"))
  ).

(* struct/cam.h:634-644 *)
Definition glms_persp_sizes : fundef := Fun
  [("proj", Some 16%nat); ("fovy", None)]
  [] (
    SRet glms_persp_sizes_rh_no$((ELdA 16 "proj"), "fovy")
  ).

