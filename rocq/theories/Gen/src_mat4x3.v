(** Functions of src/mat4x3.c (configuration: scalar), written by tools/gen.py.
    The comment above each definition gives file and lines in /repo. *)
From Coq Require Import String List ZArith.
From Verif Require Import MiniC.
From Verif.Gen Require Import mat4x3.
Import ListNotations.
Open Scope string_scope.
Open Scope Z_scope.
Open Scope mc_scope.

(* src/mat4x3.c:13-15 *)
Definition glmc_mat4x3_copy : fundef := Fun
  [("src", None); ("dest", None)]
  [] (
    SExp glm_mat4x3_copy$("src", "dest")
  ).

(* src/mat4x3.c:19-21 *)
Definition glmc_mat4x3_zero : fundef := Fun
  [("m", None)]
  [] (
    SExp glm_mat4x3_zero$("m")
  ).

(* src/mat4x3.c:25-27 *)
Definition glmc_mat4x3_make : fundef := Fun
  [("src", None); ("dest", None)]
  [] (
    SExp glm_mat4x3_make$("src", "dest")
  ).

(* src/mat4x3.c:31-33 *)
Definition glmc_mat4x3_mul : fundef := Fun
  [("m1", None); ("m2", None); ("dest", None)]
  [] (
    SExp glm_mat4x3_mul$("m1", "m2", "dest")
  ).

(* src/mat4x3.c:37-39 *)
Definition glmc_mat4x3_mulv : fundef := Fun
  [("m", None); ("v", None); ("dest", None)]
  [] (
    SExp glm_mat4x3_mulv$("m", "v", "dest")
  ).

(* src/mat4x3.c:43-45 *)
Definition glmc_mat4x3_transpose : fundef := Fun
  [("src", None); ("dest", None)]
  [] (
    SExp glm_mat4x3_transpose$("src", "dest")
  ).

(* src/mat4x3.c:49-51 *)
Definition glmc_mat4x3_scale : fundef := Fun
  [("m", None); ("s", None)]
  [] (
    SExp glm_mat4x3_scale$("m", "s")
  ).

