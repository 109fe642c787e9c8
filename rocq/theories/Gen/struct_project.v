(** Functions of include/cglm/struct/project.h (configuration: scalar), written by tools/gen.py.
    The comment above each definition gives file and lines in /repo/include/cglm. *)
From Coq Require Import String List ZArith.
From Verif Require Import MiniC.
From Verif.Gen Require Import project struct_clipspace_project_no.
Import ListNotations.
Open Scope string_scope.
Open Scope Z_scope.
Open Scope mc_scope.

(* struct/project.h:57-61 *)
Definition glms_unprojecti : fundef := Fun
  [("pos", Some 3%nat); ("invMat", Some 16%nat); ("vp", Some 4%nat)]
  [("r", Some 3%nat)] (
    SExp glm_unprojecti$("pos", "invMat", "vp", "r") ;;
    SRet (ELdA 3 "r")
  ).

(* struct/project.h:92-96 *)
Definition glms_unproject : fundef := Fun
  [("pos", Some 3%nat); ("m", Some 16%nat); ("vp", Some 4%nat)]
  [("r", Some 3%nat)] (
    SExp glm_unproject$("pos", "m", "vp", "r") ;;
    SRet (ELdA 3 "r")
  ).

(* struct/project.h:115-119 *)
Definition glms_project : fundef := Fun
  [("pos", Some 3%nat); ("m", Some 16%nat); ("vp", Some 4%nat)]
  [("r", Some 3%nat)] (
    SExp glm_project$("pos", "m", "vp", "r") ;;
    SRet (ELdA 3 "r")
  ).

(* struct/project.h:138-144 *)
Definition glms_project_z : fundef := Fun
  [("v", Some 3%nat); ("m", Some 16%nat)]
  [] (
    SRet glms_project_z_no$((ELdA 3 "v"), (ELdA 16 "m"))
  ).

(* struct/project.h:156-160 *)
Definition glms_pickmatrix : fundef := Fun
  [("center", Some 2%nat); ("size", Some 2%nat); ("vp", Some 4%nat)]
  [("res", Some 16%nat)] (
    SExp glm_pickmatrix$("center", "size", "vp", "res") ;;
    SRet (ELdA 16 "res")
  ).

