(** Functions of src/clipspace/persp_rh_zo.c (configuration: scalar), written by tools/gen.py.
    The comment above each definition gives file and lines in /repo. *)
From Coq Require Import String List ZArith.
From Verif Require Import MiniC.
From Verif.Gen Require Import clipspace_persp_rh_zo.
Import ListNotations.
Open Scope string_scope.
Open Scope Z_scope.
Open Scope mc_scope.

(* src/clipspace/persp_rh_zo.c:13-21 *)
Definition glmc_frustum_rh_zo : fundef := Fun
  [("left", None); ("right", None); ("bottom", None); ("top", None); ("nearZ", None); ("farZ", None); ("dest", None)]
  [] (
    SExp glm_frustum_rh_zo$("left", "right", "bottom", "top", "nearZ", "farZ", "dest")
  ).

(* src/clipspace/persp_rh_zo.c:25-35 *)
Definition glmc_perspective_rh_zo : fundef := Fun
  [("fovy", None); ("aspect", None); ("nearVal", None); ("farVal", None); ("dest", None)]
  [] (
    SExp glm_perspective_rh_zo$("fovy", "aspect", "nearVal", "farVal", "dest")
  ).

(* src/clipspace/persp_rh_zo.c:39-41 *)
Definition glmc_persp_move_far_rh_zo : fundef := Fun
  [("proj", None); ("deltaFar", None)]
  [] (
    SExp glm_persp_move_far_rh_zo$("proj", "deltaFar")
  ).

(* src/clipspace/persp_rh_zo.c:45-50 *)
Definition glmc_persp_decomp_rh_zo : fundef := Fun
  [("proj", None); ("nearZ", None); ("farZ", None); ("top", None); ("bottom", None); ("left", None); ("right", None)]
  [] (
    SExp glm_persp_decomp_rh_zo$("proj", "nearZ", "farZ", "top", "bottom", "left", "right")
  ).

(* src/clipspace/persp_rh_zo.c:54-56 *)
Definition glmc_persp_decompv_rh_zo : fundef := Fun
  [("proj", None); ("dest", None)]
  [] (
    SExp glm_persp_decompv_rh_zo$("proj", "dest")
  ).

(* src/clipspace/persp_rh_zo.c:60-64 *)
Definition glmc_persp_decomp_x_rh_zo : fundef := Fun
  [("proj", None); ("left", None); ("right", None)]
  [] (
    SExp glm_persp_decomp_x_rh_zo$("proj", "left", "right")
  ).

(* src/clipspace/persp_rh_zo.c:68-72 *)
Definition glmc_persp_decomp_y_rh_zo : fundef := Fun
  [("proj", None); ("top", None); ("bottom", None)]
  [] (
    SExp glm_persp_decomp_y_rh_zo$("proj", "top", "bottom")
  ).

(* src/clipspace/persp_rh_zo.c:76-80 *)
Definition glmc_persp_decomp_z_rh_zo : fundef := Fun
  [("proj", None); ("nearZ", None); ("farZ", None)]
  [] (
    SExp glm_persp_decomp_z_rh_zo$("proj", "nearZ", "farZ")
  ).

(* src/clipspace/persp_rh_zo.c:84-86 *)
Definition glmc_persp_decomp_far_rh_zo : fundef := Fun
  [("proj", None); ("farZ", None)]
  [] (
    SExp glm_persp_decomp_far_rh_zo$("proj", "farZ")
  ).

(* src/clipspace/persp_rh_zo.c:90-92 *)
Definition glmc_persp_decomp_near_rh_zo : fundef := Fun
  [("proj", None); ("nearZ", None)]
  [] (
    SExp glm_persp_decomp_near_rh_zo$("proj", "nearZ")
  ).

(* src/clipspace/persp_rh_zo.c:96-98 *)
Definition glmc_persp_sizes_rh_zo : fundef := Fun
  [("proj", None); ("fovy", None); ("dest", None)]
  [] (
    SExp glm_persp_sizes_rh_zo$("proj", "fovy", "dest")
  ).

(* src/clipspace/persp_rh_zo.c:102-104 *)
Definition glmc_persp_fovy_rh_zo : fundef := Fun
  [("proj", None)]
  [] (
    SRet glm_persp_fovy_rh_zo$("proj")
  ).

(* src/clipspace/persp_rh_zo.c:108-110 *)
Definition glmc_persp_aspect_rh_zo : fundef := Fun
  [("proj", None)]
  [] (
    SRet glm_persp_aspect_rh_zo$("proj")
  ).

