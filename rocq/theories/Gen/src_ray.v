(** Functions of src/ray.c (configuration: scalar), written by tools/gen.py.
    The comment above each definition gives file and lines in /repo. *)
From Coq Require Import String List ZArith.
From Verif Require Import MiniC.
From Verif.Gen Require Import ray.
Import ListNotations.
Open Scope string_scope.
Open Scope Z_scope.
Open Scope mc_scope.

(* src/ray.c:6-13 *)
Definition glmc_ray_triangle : fundef := Fun
  [("origin", None); ("direction", None); ("v0", None); ("v1", None); ("v2", None); ("d", None)]
  [] (
    SRet glm_ray_triangle$("origin", "direction", "v0", "v1", "v2", "d")
  ).

(* src/ray.c:17-23 *)
Definition glmc_ray_sphere : fundef := Fun
  [("origin", None); ("dir", None); ("s", None); ("t1", None); ("t2", None)]
  [] (
    SRet glm_ray_sphere$("origin", "dir", "s", "t1", "t2")
  ).

(* src/ray.c:27-29 *)
Definition glmc_ray_at : fundef := Fun
  [("orig", None); ("dir", None); ("t", None); ("point", None)]
  [] (
    SExp glm_ray_at$("orig", "dir", "t", "point")
  ).

