(** Functions of include/cglm/struct/clipspace/view_lh_no.h (configuration: scalar), written by tools/gen.py.
    The comment above each definition gives file and lines in /repo/include/cglm. *)
From Coq Require Import String List ZArith.
From Verif Require Import MiniC.
From Verif.Gen Require Import clipspace_view_lh_no.
Import ListNotations.
Open Scope string_scope.
Open Scope Z_scope.
Open Scope mc_scope.

(* struct/clipspace/view_lh_no.h:39-43 *)
Definition glms_lookat_lh_no : fundef := Fun
  [("eye", Some 3%nat); ("center", Some 3%nat); ("up", Some 3%nat)]
  [("dest", Some 16%nat)] (
    SExp glm_lookat_lh_no$("eye", "center", "up", "dest") ;;
    SRet (ELdA 16 "dest")
  ).

(* struct/clipspace/view_lh_no.h:63-67 *)
Definition glms_look_lh_no : fundef := Fun
  [("eye", Some 3%nat); ("dir", Some 3%nat); ("up", Some 3%nat)]
  [("dest", Some 16%nat)] (
    SExp glm_look_lh_no$("eye", "dir", "up", "dest") ;;
    SRet (ELdA 16 "dest")
  ).

(* struct/clipspace/view_lh_no.h:83-87 *)
Definition glms_look_anyup_lh_no : fundef := Fun
  [("eye", Some 3%nat); ("dir", Some 3%nat)]
  [("dest", Some 16%nat)] (
    SExp glm_look_anyup_lh_no$("eye", "dir", "dest") ;;
    SRet (ELdA 16 "dest")
  ).

