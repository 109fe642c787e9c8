(** Functions of src/clipspace/ortho_rh_zo.c (configuration: scalar), written by tools/gen.py.
    The comment above each definition gives file and lines in /repo. *)
From Coq Require Import String List ZArith.
From Verif Require Import MiniC.
From Verif.Gen Require Import clipspace_ortho_rh_zo.
Import ListNotations.
Open Scope string_scope.
Open Scope Z_scope.
Open Scope mc_scope.

(* src/clipspace/ortho_rh_zo.c:13-21 *)
Definition glmc_ortho_rh_zo : fundef := Fun
  [("left", None); ("right", None); ("bottom", None); ("top", None); ("nearZ", None); ("farZ", None); ("dest", None)]
  [] (
    SExp glm_ortho_rh_zo$("left", "right", "bottom", "top", "nearZ", "farZ", "dest")
  ).

(* src/clipspace/ortho_rh_zo.c:25-27 *)
Definition glmc_ortho_aabb_rh_zo : fundef := Fun
  [("box", None); ("dest", None)]
  [] (
    SExp glm_ortho_aabb_rh_zo$("box", "dest")
  ).

(* src/clipspace/ortho_rh_zo.c:31-33 *)
Definition glmc_ortho_aabb_p_rh_zo : fundef := Fun
  [("box", None); ("padding", None); ("dest", None)]
  [] (
    SExp glm_ortho_aabb_p_rh_zo$("box", "padding", "dest")
  ).

(* src/clipspace/ortho_rh_zo.c:37-39 *)
Definition glmc_ortho_aabb_pz_rh_zo : fundef := Fun
  [("box", None); ("padding", None); ("dest", None)]
  [] (
    SExp glm_ortho_aabb_pz_rh_zo$("box", "padding", "dest")
  ).

(* src/clipspace/ortho_rh_zo.c:43-45 *)
Definition glmc_ortho_default_rh_zo : fundef := Fun
  [("aspect", None); ("dest", None)]
  [] (
    SExp glm_ortho_default_rh_zo$("aspect", "dest")
  ).

(* src/clipspace/ortho_rh_zo.c:49-51 *)
Definition glmc_ortho_default_s_rh_zo : fundef := Fun
  [("aspect", None); ("size", None); ("dest", None)]
  [] (
    SExp glm_ortho_default_s_rh_zo$("aspect", "size", "dest")
  ).

