(** Functions of include/cglm/struct/sphere.h (configuration: scalar), written by tools/gen.py.
    The comment above each definition gives file and lines in /repo/include/cglm. *)
From Coq Require Import String List ZArith.
From Verif Require Import MiniC.
From Verif.Gen Require Import sphere.
Import ListNotations.
Open Scope string_scope.
Open Scope Z_scope.
Open Scope mc_scope.

(* struct/sphere.h:32-34 *)
Definition glms_sphere_radii : fundef := Fun
  [("s", Some 4%nat)]
  [] (
    SRet glm_sphere_radii$("s")
  ).

(* struct/sphere.h:45-49 *)
Definition glms_sphere_transform : fundef := Fun
  [("s", Some 4%nat); ("m", Some 16%nat)]
  [("r", Some 4%nat)] (
    SExp glm_sphere_transform$("s", "m", "r") ;;
    SRet (ELdA 4 "r")
  ).

(* struct/sphere.h:63-67 *)
Definition glms_sphere_merge : fundef := Fun
  [("s1", Some 4%nat); ("s2", Some 4%nat)]
  [("r", Some 4%nat)] (
    SExp glm_sphere_merge$("s1", "s2", "r") ;;
    SRet (ELdA 4 "r")
  ).

(* struct/sphere.h:77-79 *)
Definition glms_sphere_sphere : fundef := Fun
  [("s1", Some 4%nat); ("s2", Some 4%nat)]
  [] (
    SRet glm_sphere_sphere$("s1", "s2")
  ).

(* struct/sphere.h:89-91 *)
Definition glms_sphere_point : fundef := Fun
  [("s", Some 4%nat); ("point", Some 3%nat)]
  [] (
    SRet glm_sphere_point$("s", "point")
  ).

