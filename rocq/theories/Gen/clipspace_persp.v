(** Functions of include/cglm/clipspace/persp.h (configuration: scalar), written by tools/gen.py.
    The comment above each definition gives file and lines in /repo/include/cglm. *)
From Coq Require Import String List ZArith.
From Verif Require Import MiniC.
Import ListNotations.
Open Scope string_scope.
Open Scope Z_scope.
Open Scope mc_scope.

(* clipspace/persp.h:33-35 *)
Definition glm_persp_fovy : fundef := Fun
  [("proj", None)]
  [] (
    SRet ((EF 2 1) * builtin (PF1 OAtan)$(((EF 1 1) / !"proj".[1:4].[1])))
  ).

(* clipspace/persp.h:44-46 *)
Definition glm_persp_aspect : fundef := Fun
  [("proj", None)]
  [] (
    SRet (!"proj".[1:4].[1] / !"proj".[0:4].[0])
  ).

