(** Functions of include/cglm/plane.h (configuration: scalar), written by tools/gen.py.
    The comment above each definition gives file and lines in /repo/include/cglm. *)
From Coq Require Import String List ZArith.
From Verif Require Import MiniC.
From Verif.Gen Require Import vec3 vec4.
Import ListNotations.
Open Scope string_scope.
Open Scope Z_scope.
Open Scope mc_scope.

(* plane.h:33-42 *)
Definition glm_plane_normalize : fundef := Fun
  [("plane", None)]
  [("norm", None)] (
    "norm" <~ glm_vec3_norm$("plane") ;;
    (SIf ("norm" < (EF 1 8388608)) (
      SExp glm_vec4_zero$("plane") ;;
      SRet0
    ) (
      SSkip
    )) ;;
    SExp glm_vec4_scale$("plane", ((EF 1 1) / "norm"), "plane")
  ).

