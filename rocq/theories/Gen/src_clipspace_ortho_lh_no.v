(** Functions of src/clipspace/ortho_lh_no.c (configuration: scalar), written by tools/gen.py.
    The comment above each definition gives file and lines in /repo. *)
From Coq Require Import String List ZArith.
From Verif Require Import MiniC.
From Verif.Gen Require Import clipspace_ortho_lh_no.
Import ListNotations.
Open Scope string_scope.
Open Scope Z_scope.
Open Scope mc_scope.

(* src/clipspace/ortho_lh_no.c:13-21 *)
Definition glmc_ortho_lh_no : fundef := Fun
  [("left", None); ("right", None); ("bottom", None); ("top", None); ("nearZ", None); ("farZ", None); ("dest", None)]
  [] (
    SExp glm_ortho_lh_no$("left", "right", "bottom", "top", "nearZ", "farZ", "dest")
  ).

(* src/clipspace/ortho_lh_no.c:25-27 *)
Definition glmc_ortho_aabb_lh_no : fundef := Fun
  [("box", None); ("dest", None)]
  [] (
    SExp glm_ortho_aabb_lh_no$("box", "dest")
  ).

(* src/clipspace/ortho_lh_no.c:31-33 *)
Definition glmc_ortho_aabb_p_lh_no : fundef := Fun
  [("box", None); ("padding", None); ("dest", None)]
  [] (
    SExp glm_ortho_aabb_p_lh_no$("box", "padding", "dest")
  ).

(* src/clipspace/ortho_lh_no.c:37-39 *)
Definition glmc_ortho_aabb_pz_lh_no : fundef := Fun
  [("box", None); ("padding", None); ("dest", None)]
  [] (
    SExp glm_ortho_aabb_pz_lh_no$("box", "padding", "dest")
  ).

(* src/clipspace/ortho_lh_no.c:43-45 *)
Definition glmc_ortho_default_lh_no : fundef := Fun
  [("aspect", None); ("dest", None)]
  [] (
    SExp glm_ortho_default_lh_no$("aspect", "dest")
  ).

(* src/clipspace/ortho_lh_no.c:49-51 *)
Definition glmc_ortho_default_s_lh_no : fundef := Fun
  [("aspect", None); ("size", None); ("dest", None)]
  [] (
    SExp glm_ortho_default_s_lh_no$("aspect", "size", "dest")
  ).

