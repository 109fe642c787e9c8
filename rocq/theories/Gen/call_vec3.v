(** Functions of include/cglm/call/vec3.h (configuration: scalar), written by tools/gen.py.
    The comment above each definition gives file and lines in /repo/include/cglm. *)
From Coq Require Import String List ZArith.
From Verif Require Import MiniC.
From Verif.Gen Require Import src_vec3.
Import ListNotations.
Open Scope string_scope.
Open Scope Z_scope.
Open Scope mc_scope.

(* call/vec3.h:226-228 *)
Definition glmc_vec3_mix : fundef := Fun
  [("from", None); ("to", None); ("t", None); ("dest", None)]
  [] (
    SExp glmc_vec3_lerp$("from", "to", "t", "dest")
  ).

(* call/vec3.h:232-234 *)
Definition glmc_vec3_mixc : fundef := Fun
  [("from", None); ("to", None); ("t", None); ("dest", None)]
  [] (
    SExp glmc_vec3_lerpc$("from", "to", "t", "dest")
  ).

