(** Functions of include/cglm/color.h (configuration: scalar), written by tools/gen.py.
    The comment above each definition gives file and lines in /repo/include/cglm. *)
From Coq Require Import String List ZArith.
From Verif Require Import MiniC.
From Verif.Gen Require Import vec3.
Import ListNotations.
Open Scope string_scope.
Open Scope Z_scope.
Open Scope mc_scope.

(* color.h:21-24 *)
Definition glm_luminance : fundef := Fun
  [("rgb", None)]
  [("l", Some 3%nat)] (
    "l".[0] ::= (EF 212671 1000000) ;;
    "l".[1] ::= (EF 17879 25000) ;;
    "l".[2] ::= (EF 72169 1000000) ;;
    SRet glm_dot$("rgb", "l")
  ).

