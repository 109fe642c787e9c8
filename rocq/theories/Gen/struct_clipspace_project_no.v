(** Functions of include/cglm/struct/clipspace/project_no.h (configuration: scalar), written by tools/gen.py.
    The comment above each definition gives file and lines in /repo/include/cglm. *)
From Coq Require Import String List ZArith.
From Verif Require Import MiniC.
From Verif.Gen Require Import clipspace_project_no.
Import ListNotations.
Open Scope string_scope.
Open Scope Z_scope.
Open Scope mc_scope.

(* struct/clipspace/project_no.h:53-57 *)
Definition glms_unprojecti_no : fundef := Fun
  [("pos", Some 3%nat); ("invMat", Some 16%nat); ("vp", Some 4%nat)]
  [("dest", Some 3%nat)] (
    SExp glm_unprojecti_no$("pos", "invMat", "vp", "dest") ;;
    SRet (ELdA 3 "dest")
  ).

(* struct/clipspace/project_no.h:74-78 *)
Definition glms_project_no : fundef := Fun
  [("pos", Some 3%nat); ("m", Some 16%nat); ("vp", Some 4%nat)]
  [("dest", Some 3%nat)] (
    SExp glm_project_no$("pos", "m", "vp", "dest") ;;
    SRet (ELdA 3 "dest")
  ).

(* struct/clipspace/project_no.h:94-96 *)
Definition glms_project_z_no : fundef := Fun
  [("v", Some 3%nat); ("m", Some 16%nat)]
  [] (
    SRet glm_project_z_no$("v", "m")
  ).

