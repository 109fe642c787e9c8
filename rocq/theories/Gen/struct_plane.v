(** Functions of include/cglm/struct/plane.h (configuration: scalar), written by tools/gen.py.
    The comment above each definition gives file and lines in /repo/include/cglm. *)
From Coq Require Import String List ZArith.
From Verif Require Import MiniC.
From Verif.Gen Require Import plane.
Import ListNotations.
Open Scope string_scope.
Open Scope Z_scope.
Open Scope mc_scope.

(* struct/plane.h:35-38 *)
Definition glms_plane_normalize : fundef := Fun
  [("plane", Some 4%nat)]
  [] (
    SExp glm_plane_normalize$("plane") ;;
    SRet (ELdA 4 "plane")
  ).

