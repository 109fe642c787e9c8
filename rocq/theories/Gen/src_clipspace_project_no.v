(** Functions of src/clipspace/project_no.c (configuration: scalar), written by tools/gen.py.
    The comment above each definition gives file and lines in /repo. *)
From Coq Require Import String List ZArith.
From Verif Require Import MiniC.
From Verif.Gen Require Import clipspace_project_no.
Import ListNotations.
Open Scope string_scope.
Open Scope Z_scope.
Open Scope mc_scope.

(* src/clipspace/project_no.c:13-15 *)
Definition glmc_unprojecti_no : fundef := Fun
  [("pos", None); ("invMat", None); ("vp", None); ("dest", None)]
  [] (
    SExp glm_unprojecti_no$("pos", "invMat", "vp", "dest")
  ).

(* src/clipspace/project_no.c:19-21 *)
Definition glmc_project_no : fundef := Fun
  [("pos", None); ("m", None); ("vp", None); ("dest", None)]
  [] (
    SExp glm_project_no$("pos", "m", "vp", "dest")
  ).

(* src/clipspace/project_no.c:25-27 *)
Definition glmc_project_z_no : fundef := Fun
  [("pos", None); ("m", None)]
  [] (
    SRet glm_project_z_no$("pos", "m")
  ).

