(** Functions of src/project.c (configuration: scalar), written by tools/gen.py.
    The comment above each definition gives file and lines in /repo. *)
From Coq Require Import String List ZArith.
From Verif Require Import MiniC.
From Verif.Gen Require Import project.
Import ListNotations.
Open Scope string_scope.
Open Scope Z_scope.
Open Scope mc_scope.

(* src/project.c:13-15 *)
Definition glmc_unprojecti : fundef := Fun
  [("pos", None); ("invMat", None); ("vp", None); ("dest", None)]
  [] (
    SExp glm_unprojecti$("pos", "invMat", "vp", "dest")
  ).

(* src/project.c:19-21 *)
Definition glmc_unproject : fundef := Fun
  [("pos", None); ("m", None); ("vp", None); ("dest", None)]
  [] (
    SExp glm_unproject$("pos", "m", "vp", "dest")
  ).

(* src/project.c:25-27 *)
Definition glmc_project : fundef := Fun
  [("pos", None); ("m", None); ("vp", None); ("dest", None)]
  [] (
    SExp glm_project$("pos", "m", "vp", "dest")
  ).

(* src/project.c:31-33 *)
Definition glmc_project_z : fundef := Fun
  [("pos", None); ("m", None)]
  [] (
    SRet glm_project_z$("pos", "m")
  ).

(* src/project.c:37-39 *)
Definition glmc_pickmatrix : fundef := Fun
  [("center", None); ("size", None); ("vp", None); ("dest", None)]
  [] (
    SExp glm_pickmatrix$("center", "size", "vp", "dest")
  ).

