(** Functions of src/clipspace/project_zo.c (configuration: scalar), written by tools/gen.py.
    The comment above each definition gives file and lines in /repo. *)
From Coq Require Import String List ZArith.
From Verif Require Import MiniC.
From Verif.Gen Require Import clipspace_project_zo.
Import ListNotations.
Open Scope string_scope.
Open Scope Z_scope.
Open Scope mc_scope.

(* src/clipspace/project_zo.c:13-15 *)
Definition glmc_unprojecti_zo : fundef := Fun
  [("pos", None); ("invMat", None); ("vp", None); ("dest", None)]
  [] (
    SExp glm_unprojecti_zo$("pos", "invMat", "vp", "dest")
  ).

(* src/clipspace/project_zo.c:19-21 *)
Definition glmc_project_zo : fundef := Fun
  [("pos", None); ("m", None); ("vp", None); ("dest", None)]
  [] (
    SExp glm_project_zo$("pos", "m", "vp", "dest")
  ).

(* src/clipspace/project_zo.c:25-27 *)
Definition glmc_project_z_zo : fundef := Fun
  [("pos", None); ("m", None)]
  [] (
    SRet glm_project_z_zo$("pos", "m")
  ).

