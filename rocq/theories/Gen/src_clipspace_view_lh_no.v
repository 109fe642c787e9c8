(** Functions of src/clipspace/view_lh_no.c (configuration: scalar), written by tools/gen.py.
    The comment above each definition gives file and lines in /repo. *)
From Coq Require Import String List ZArith.
From Verif Require Import MiniC.
From Verif.Gen Require Import clipspace_view_lh_no.
Import ListNotations.
Open Scope string_scope.
Open Scope Z_scope.
Open Scope mc_scope.

(* src/clipspace/view_lh_no.c:13-15 *)
Definition glmc_lookat_lh_no : fundef := Fun
  [("eye", None); ("center", None); ("up", None); ("dest", None)]
  [] (
    SExp glm_lookat_lh_no$("eye", "center", "up", "dest")
  ).

(* src/clipspace/view_lh_no.c:19-21 *)
Definition glmc_look_lh_no : fundef := Fun
  [("eye", None); ("dir", None); ("up", None); ("dest", None)]
  [] (
    SExp glm_look_lh_no$("eye", "dir", "up", "dest")
  ).

(* src/clipspace/view_lh_no.c:25-27 *)
Definition glmc_look_anyup_lh_no : fundef := Fun
  [("eye", None); ("dir", None); ("dest", None)]
  [] (
    SExp glm_look_anyup_lh_no$("eye", "dir", "dest")
  ).

