(** Functions of include/cglm/clipspace/view_rh_zo.h (configuration: scalar), written by tools/gen.py.
    The comment above each definition gives file and lines in /repo/include/cglm. *)
From Coq Require Import String List ZArith.
From Verif Require Import MiniC.
From Verif.Gen Require Import clipspace_view_rh.
Import ListNotations.
Open Scope string_scope.
Open Scope Z_scope.
Open Scope mc_scope.

(* clipspace/view_rh_zo.h:34-36 *)
Definition glm_lookat_rh_zo : fundef := Fun
  [("eye", None); ("center", None); ("up", None); ("dest", None)]
  [] (
    SExp glm_lookat_rh$("eye", "center", "up", "dest")
  ).

(* clipspace/view_rh_zo.h:54-56 *)
Definition glm_look_rh_zo : fundef := Fun
  [("eye", None); ("dir", None); ("up", None); ("dest", None)]
  [] (
    SExp glm_look_rh$("eye", "dir", "up", "dest")
  ).

(* clipspace/view_rh_zo.h:70-72 *)
Definition glm_look_anyup_rh_zo : fundef := Fun
  [("eye", None); ("dir", None); ("dest", None)]
  [] (
    SExp glm_look_anyup_rh$("eye", "dir", "dest")
  ).

