(** Functions of src/curve.c (configuration: scalar), written by tools/gen.py.
    The comment above each definition gives file and lines in /repo. *)
From Coq Require Import String List ZArith.
From Verif Require Import MiniC.
From Verif.Gen Require Import curve.
Import ListNotations.
Open Scope string_scope.
Open Scope Z_scope.
Open Scope mc_scope.

(* src/curve.c:13-15 *)
Definition glmc_smc : fundef := Fun
  [("s", None); ("m", None); ("c", None)]
  [] (
    SRet glm_smc$("s", "m", "c")
  ).

