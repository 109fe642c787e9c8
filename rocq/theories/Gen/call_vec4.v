(** Functions of include/cglm/call/vec4.h (configuration: scalar), written by tools/gen.py.
    The comment above each definition gives file and lines in /repo/include/cglm. *)
From Coq Require Import String List ZArith.
From Verif Require Import MiniC.
From Verif.Gen Require Import src_vec4.
Import ListNotations.
Open Scope string_scope.
Open Scope Z_scope.
Open Scope mc_scope.

(* call/vec4.h:199-201 *)
Definition glmc_vec4_mix : fundef := Fun
  [("from", None); ("to", None); ("t", None); ("dest", None)]
  [] (
    SExp glmc_vec4_lerp$("from", "to", "t", "dest")
  ).

(* call/vec4.h:205-207 *)
Definition glmc_vec4_mixc : fundef := Fun
  [("from", None); ("to", None); ("t", None); ("dest", None)]
  [] (
    SExp glmc_vec4_lerpc$("from", "to", "t", "dest")
  ).

