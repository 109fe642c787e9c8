(** Functions of src/plane.c (configuration: scalar), written by tools/gen.py.
    The comment above each definition gives file and lines in /repo. *)
From Coq Require Import String List ZArith.
From Verif Require Import MiniC.
From Verif.Gen Require Import plane.
Import ListNotations.
Open Scope string_scope.
Open Scope Z_scope.
Open Scope mc_scope.

(* src/plane.c:13-15 *)
Definition glmc_plane_normalize : fundef := Fun
  [("plane", None)]
  [] (
    SExp glm_plane_normalize$("plane")
  ).

