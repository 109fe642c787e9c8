(** Functions of include/cglm/curve.h (configuration: scalar), written by tools/gen.py.
    The comment above each definition gives file and lines in /repo/include/cglm. *)
From Coq Require Import String List ZArith.
From Verif Require Import MiniC.
From Verif.Gen Require Import mat4 vec4.
Import ListNotations.
Open Scope string_scope.
Open Scope Z_scope.
Open Scope mc_scope.

(* curve.h:34-38 *)
Definition glm_smc : fundef := Fun
  [("s", None); ("m", None); ("c", None)]
  [("vs", Some 4%nat)] (
    SExp glm_vec4_cubic$("s", "vs") ;;
    SRet glm_mat4_rmc$("vs", "m", "c")
  ).

