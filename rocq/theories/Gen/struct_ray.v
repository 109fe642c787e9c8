(** Functions of include/cglm/struct/ray.h (configuration: scalar), written by tools/gen.py.
    The comment above each definition gives file and lines in /repo/include/cglm. *)
From Coq Require Import String List ZArith.
From Verif Require Import MiniC.
From Verif.Gen Require Import ray.
Import ListNotations.
Open Scope string_scope.
Open Scope Z_scope.
Open Scope mc_scope.

(* struct/ray.h:31-38 *)
Definition glms_ray_triangle : fundef := Fun
  [("origin", Some 3%nat); ("direction", Some 3%nat); ("v0", Some 3%nat); ("v1", Some 3%nat); ("v2", Some 3%nat); ("d", None)]
  [] (
    SRet glm_ray_triangle$("origin", "direction", "v0", "v1", "v2", "d")
  ).

(* struct/ray.h:62-68 *)
Definition glms_ray_sphere : fundef := Fun
  [("origin", Some 3%nat); ("dir", Some 3%nat); ("s", Some 4%nat); ("t1", None); ("t2", None)]
  [] (
    SRet glm_ray_sphere$("origin", "dir", "s", "t1", "t2")
  ).

(* struct/ray.h:80-84 *)
Definition glms_ray_at : fundef := Fun
  [("orig", Some 3%nat); ("dir", Some 3%nat); ("t", None)]
  [("r", Some 3%nat)] (
    SExp glm_ray_at$("orig", "dir", "t", "r") ;;
    SRet (ELdA 3 "r")
  ).

