(** Functions of include/cglm/struct/curve.h (configuration: scalar), written by tools/gen.py.
    The comment above each definition gives file and lines in /repo/include/cglm. *)
From Coq Require Import String List ZArith.
From Verif Require Import MiniC.
From Verif.Gen Require Import curve.
Import ListNotations.
Open Scope string_scope.
Open Scope Z_scope.
Open Scope mc_scope.

(* struct/curve.h:36-38 *)
Definition glms_smc : fundef := Fun
  [("s", None); ("m", Some 16%nat); ("c", Some 4%nat)]
  [] (
    SRet glm_smc$("s", "m", "c")
  ).

