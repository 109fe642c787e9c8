(** Functions of src/aabb2d.c (configuration: scalar), written by tools/gen.py.
    The comment above each definition gives file and lines in /repo. *)
From Coq Require Import String List ZArith.
From Verif Require Import MiniC.
From Verif.Gen Require Import aabb2d.
Import ListNotations.
Open Scope string_scope.
Open Scope Z_scope.
Open Scope mc_scope.

(* src/aabb2d.c:13-15 *)
Definition glmc_aabb2d_zero : fundef := Fun
  [("aabb", None)]
  [] (
    SExp glm_aabb2d_zero$("aabb")
  ).

(* src/aabb2d.c:19-21 *)
Definition glmc_aabb2d_copy : fundef := Fun
  [("aabb", None); ("dest", None)]
  [] (
    SExp glm_aabb2d_copy$("aabb", "dest")
  ).

(* src/aabb2d.c:25-27 *)
Definition glmc_aabb2d_transform : fundef := Fun
  [("aabb", None); ("m", None); ("dest", None)]
  [] (
    SExp glm_aabb2d_transform$("aabb", "m", "dest")
  ).

(* src/aabb2d.c:31-33 *)
Definition glmc_aabb2d_merge : fundef := Fun
  [("aabb1", None); ("aabb2", None); ("dest", None)]
  [] (
    SExp glm_aabb2d_merge$("aabb1", "aabb2", "dest")
  ).

(* src/aabb2d.c:37-39 *)
Definition glmc_aabb2d_crop : fundef := Fun
  [("aabb", None); ("cropAabb", None); ("dest", None)]
  [] (
    SExp glm_aabb2d_crop$("aabb", "cropAabb", "dest")
  ).

(* src/aabb2d.c:43-48 *)
Definition glmc_aabb2d_crop_until : fundef := Fun
  [("aabb", None); ("cropAabb", None); ("clampAabb", None); ("dest", None)]
  [] (
    SExp glm_aabb2d_crop_until$("aabb", "cropAabb", "clampAabb", "dest")
  ).

(* src/aabb2d.c:52-54 *)
Definition glmc_aabb2d_invalidate : fundef := Fun
  [("aabb", None)]
  [] (
    SExp glm_aabb2d_invalidate$("aabb")
  ).

(* src/aabb2d.c:58-60 *)
Definition glmc_aabb2d_isvalid : fundef := Fun
  [("aabb", None)]
  [] (
    SRet glm_aabb2d_isvalid$("aabb")
  ).

(* src/aabb2d.c:64-66 *)
Definition glmc_aabb2d_diag : fundef := Fun
  [("aabb", None)]
  [] (
    SRet glm_aabb2d_diag$("aabb")
  ).

(* src/aabb2d.c:70-72 *)
Definition glmc_aabb2d_sizev : fundef := Fun
  [("aabb", None); ("dest", None)]
  [] (
    SExp glm_aabb2d_sizev$("aabb", "dest")
  ).

(* src/aabb2d.c:76-78 *)
Definition glmc_aabb2d_radius : fundef := Fun
  [("aabb", None)]
  [] (
    SRet glm_aabb2d_radius$("aabb")
  ).

(* src/aabb2d.c:82-84 *)
Definition glmc_aabb2d_center : fundef := Fun
  [("aabb", None); ("dest", None)]
  [] (
    SExp glm_aabb2d_center$("aabb", "dest")
  ).

(* src/aabb2d.c:88-90 *)
Definition glmc_aabb2d_aabb : fundef := Fun
  [("aabb", None); ("other", None)]
  [] (
    SRet glm_aabb2d_aabb$("aabb", "other")
  ).

(* src/aabb2d.c:94-96 *)
Definition glmc_aabb2d_point : fundef := Fun
  [("aabb", None); ("point", None)]
  [] (
    SRet glm_aabb2d_point$("aabb", "point")
  ).

(* src/aabb2d.c:100-102 *)
Definition glmc_aabb2d_contains : fundef := Fun
  [("aabb", None); ("other", None)]
  [] (
    SRet glm_aabb2d_contains$("aabb", "other")
  ).

(* src/aabb2d.c:106-108 *)
Definition glmc_aabb2d_circle : fundef := Fun
  [("aabb", None); ("s", None)]
  [] (
    SRet glm_aabb2d_circle$("aabb", "s")
  ).

