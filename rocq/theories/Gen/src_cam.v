(** Functions of src/cam.c (configuration: scalar), written by tools/gen.py.
    The comment above each definition gives file and lines in /repo. *)
From Coq Require Import String List ZArith.
From Verif Require Import MiniC.
From Verif.Gen Require Import cam clipspace_persp.
Import ListNotations.
Open Scope string_scope.
Open Scope Z_scope.
Open Scope mc_scope.

(* src/cam.c:13-18 *)
Definition glmc_frustum : fundef := Fun
  [("left", None); ("right", None); ("bottom", None); ("top", None); ("nearZ", None); ("farZ", None); ("dest", None)]
  [] (
    SExp glm_frustum$("left", "right", "bottom", "top", "nearZ", "farZ", "dest")
  ).

(* src/cam.c:22-27 *)
Definition glmc_ortho : fundef := Fun
  [("left", None); ("right", None); ("bottom", None); ("top", None); ("nearZ", None); ("farZ", None); ("dest", None)]
  [] (
    SExp glm_ortho$("left", "right", "bottom", "top", "nearZ", "farZ", "dest")
  ).

(* src/cam.c:31-33 *)
Definition glmc_ortho_aabb : fundef := Fun
  [("box", None); ("dest", None)]
  [] (
    SExp glm_ortho_aabb$("box", "dest")
  ).

(* src/cam.c:37-39 *)
Definition glmc_ortho_aabb_p : fundef := Fun
  [("box", None); ("padding", None); ("dest", None)]
  [] (
    SExp glm_ortho_aabb_p$("box", "padding", "dest")
  ).

(* src/cam.c:43-45 *)
Definition glmc_ortho_aabb_pz : fundef := Fun
  [("box", None); ("padding", None); ("dest", None)]
  [] (
    SExp glm_ortho_aabb_pz$("box", "padding", "dest")
  ).

(* src/cam.c:49-51 *)
Definition glmc_ortho_default : fundef := Fun
  [("aspect", None); ("dest", None)]
  [] (
    SExp glm_ortho_default$("aspect", "dest")
  ).

(* src/cam.c:55-57 *)
Definition glmc_ortho_default_s : fundef := Fun
  [("aspect", None); ("size", None); ("dest", None)]
  [] (
    SExp glm_ortho_default_s$("aspect", "size", "dest")
  ).

(* src/cam.c:61-63 *)
Definition glmc_perspective : fundef := Fun
  [("fovy", None); ("aspect", None); ("nearZ", None); ("farZ", None); ("dest", None)]
  [] (
    SExp glm_perspective$("fovy", "aspect", "nearZ", "farZ", "dest")
  ).

(* src/cam.c:67-69 *)
Definition glmc_persp_move_far : fundef := Fun
  [("proj", None); ("deltaFar", None)]
  [] (
    SExp glm_persp_move_far$("proj", "deltaFar")
  ).

(* src/cam.c:73-75 *)
Definition glmc_perspective_default : fundef := Fun
  [("aspect", None); ("dest", None)]
  [] (
    SExp glm_perspective_default$("aspect", "dest")
  ).

(* src/cam.c:79-81 *)
Definition glmc_perspective_resize : fundef := Fun
  [("aspect", None); ("proj", None)]
  [] (
    SExp glm_perspective_resize$("aspect", "proj")
  ).

(* src/cam.c:85-87 *)
Definition glmc_lookat : fundef := Fun
  [("eye", None); ("center", None); ("up", None); ("dest", None)]
  [] (
    SExp glm_lookat$("eye", "center", "up", "dest")
  ).

(* src/cam.c:91-93 *)
Definition glmc_look : fundef := Fun
  [("eye", None); ("dir", None); ("up", None); ("dest", None)]
  [] (
    SExp glm_look$("eye", "dir", "up", "dest")
  ).

(* src/cam.c:97-99 *)
Definition glmc_look_anyup : fundef := Fun
  [("eye", None); ("dir", None); ("dest", None)]
  [] (
    SExp glm_look_anyup$("eye", "dir", "dest")
  ).

(* src/cam.c:103-111 *)
Definition glmc_persp_decomp : fundef := Fun
  [("proj", None); ("nearZ", None); ("farZ", None); ("top", None); ("bottom", None); ("left", None); ("right", None)]
  [] (
    SExp glm_persp_decomp$("proj", "nearZ", "farZ", "top", "bottom", "left", "right")
  ).

(* src/cam.c:115-117 *)
Definition glmc_persp_decompv : fundef := Fun
  [("proj", None); ("dest", None)]
  [] (
    SExp glm_persp_decompv$("proj", "dest")
  ).

(* src/cam.c:121-125 *)
Definition glmc_persp_decomp_x : fundef := Fun
  [("proj", None); ("left", None); ("right", None)]
  [] (
    SExp glm_persp_decomp_x$("proj", "left", "right")
  ).

(* src/cam.c:129-133 *)
Definition glmc_persp_decomp_y : fundef := Fun
  [("proj", None); ("top", None); ("bottom", None)]
  [] (
    SExp glm_persp_decomp_y$("proj", "top", "bottom")
  ).

(* src/cam.c:137-141 *)
Definition glmc_persp_decomp_z : fundef := Fun
  [("proj", None); ("nearZ", None); ("farZ", None)]
  [] (
    SExp glm_persp_decomp_z$("proj", "nearZ", "farZ")
  ).

(* src/cam.c:145-147 *)
Definition glmc_persp_decomp_far : fundef := Fun
  [("proj", None); ("farZ", None)]
  [] (
    SExp glm_persp_decomp_far$("proj", "farZ")
  ).

(* src/cam.c:151-153 *)
Definition glmc_persp_decomp_near : fundef := Fun
  [("proj", None); ("nearZ", None)]
  [] (
    SExp glm_persp_decomp_near$("proj", "nearZ")
  ).

(* src/cam.c:157-159 *)
Definition glmc_persp_fovy : fundef := Fun
  [("proj", None)]
  [] (
    SRet glm_persp_fovy$("proj")
  ).

(* src/cam.c:163-165 *)
Definition glmc_persp_aspect : fundef := Fun
  [("proj", None)]
  [] (
    SRet glm_persp_aspect$("proj")
  ).

(* src/cam.c:169-171 *)
Definition glmc_persp_sizes : fundef := Fun
  [("proj", None); ("fovy", None); ("dest", None)]
  [] (
    SExp glm_persp_sizes$("proj", "fovy", "dest")
  ).

