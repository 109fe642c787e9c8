(** Functions of src/sphere.c (configuration: scalar), written by tools/gen.py.
    The comment above each definition gives file and lines in /repo. *)
From Coq Require Import String List ZArith.
From Verif Require Import MiniC.
From Verif.Gen Require Import sphere.
Import ListNotations.
Open Scope string_scope.
Open Scope Z_scope.
Open Scope mc_scope.

(* src/sphere.c:13-15 *)
Definition glmc_sphere_radii : fundef := Fun
  [("s", None)]
  [] (
    SRet glm_sphere_radii$("s")
  ).

(* src/sphere.c:19-21 *)
Definition glmc_sphere_transform : fundef := Fun
  [("s", None); ("m", None); ("dest", None)]
  [] (
    SExp glm_sphere_transform$("s", "m", "dest")
  ).

(* src/sphere.c:25-27 *)
Definition glmc_sphere_merge : fundef := Fun
  [("s1", None); ("s2", None); ("dest", None)]
  [] (
    SExp glm_sphere_merge$("s1", "s2", "dest")
  ).

(* src/sphere.c:31-33 *)
Definition glmc_sphere_sphere : fundef := Fun
  [("s1", None); ("s2", None)]
  [] (
    SRet glm_sphere_sphere$("s1", "s2")
  ).

(* src/sphere.c:37-39 *)
Definition glmc_sphere_point : fundef := Fun
  [("s", None); ("point", None)]
  [] (
    SRet glm_sphere_point$("s", "point")
  ).

