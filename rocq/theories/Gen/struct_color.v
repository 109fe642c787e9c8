(** Functions of include/cglm/struct/color.h (configuration: scalar), written by tools/gen.py.
    The comment above each definition gives file and lines in /repo/include/cglm. *)
From Coq Require Import String List ZArith.
From Verif Require Import MiniC.
From Verif.Gen Require Import color.
Import ListNotations.
Open Scope string_scope.
Open Scope Z_scope.
Open Scope mc_scope.

(* struct/color.h:23-25 *)
Definition glms_luminance : fundef := Fun
  [("rgb", Some 3%nat)]
  [] (
    SRet glm_luminance$("rgb")
  ).

