(** Functions of src/box.c (configuration: scalar), written by tools/gen.py.
    The comment above each definition gives file and lines in /repo. *)
From Coq Require Import String List ZArith.
From Verif Require Import MiniC.
From Verif.Gen Require Import box.
Import ListNotations.
Open Scope string_scope.
Open Scope Z_scope.
Open Scope mc_scope.

(* src/box.c:13-15 *)
Definition glmc_aabb_transform : fundef := Fun
  [("box", None); ("m", None); ("dest", None)]
  [] (
    SExp glm_aabb_transform$("box", "m", "dest")
  ).

(* src/box.c:19-21 *)
Definition glmc_aabb_merge : fundef := Fun
  [("box1", None); ("box2", None); ("dest", None)]
  [] (
    SExp glm_aabb_merge$("box1", "box2", "dest")
  ).

(* src/box.c:25-27 *)
Definition glmc_aabb_crop : fundef := Fun
  [("box", None); ("cropBox", None); ("dest", None)]
  [] (
    SExp glm_aabb_crop$("box", "cropBox", "dest")
  ).

(* src/box.c:31-36 *)
Definition glmc_aabb_crop_until : fundef := Fun
  [("box", None); ("cropBox", None); ("clampBox", None); ("dest", None)]
  [] (
    SExp glm_aabb_crop_until$("box", "cropBox", "clampBox", "dest")
  ).

(* src/box.c:40-42 *)
Definition glmc_aabb_frustum : fundef := Fun
  [("box", None); ("planes", None)]
  [] (
    SRet glm_aabb_frustum$("box", "planes")
  ).

(* src/box.c:46-48 *)
Definition glmc_aabb_invalidate : fundef := Fun
  [("box", None)]
  [] (
    SExp glm_aabb_invalidate$("box")
  ).

(* src/box.c:52-54 *)
Definition glmc_aabb_isvalid : fundef := Fun
  [("box", None)]
  [] (
    SRet glm_aabb_isvalid$("box")
  ).

(* src/box.c:58-60 *)
Definition glmc_aabb_size : fundef := Fun
  [("box", None)]
  [] (
    SRet glm_aabb_size$("box")
  ).

(* src/box.c:64-66 *)
Definition glmc_aabb_radius : fundef := Fun
  [("box", None)]
  [] (
    SRet glm_aabb_radius$("box")
  ).

(* src/box.c:70-72 *)
Definition glmc_aabb_center : fundef := Fun
  [("box", None); ("dest", None)]
  [] (
    SExp glm_aabb_center$("box", "dest")
  ).

(* src/box.c:76-78 *)
Definition glmc_aabb_aabb : fundef := Fun
  [("box", None); ("other", None)]
  [] (
    SRet glm_aabb_aabb$("box", "other")
  ).

(* src/box.c:82-84 *)
Definition glmc_aabb_point : fundef := Fun
  [("box", None); ("point", None)]
  [] (
    SRet glm_aabb_point$("box", "point")
  ).

(* src/box.c:88-90 *)
Definition glmc_aabb_contains : fundef := Fun
  [("box", None); ("other", None)]
  [] (
    SRet glm_aabb_contains$("box", "other")
  ).

(* src/box.c:94-96 *)
Definition glmc_aabb_sphere : fundef := Fun
  [("box", None); ("s", None)]
  [] (
    SRet glm_aabb_sphere$("box", "s")
  ).

