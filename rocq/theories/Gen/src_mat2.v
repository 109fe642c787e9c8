(** Functions of src/mat2.c (configuration: scalar), written by tools/gen.py.
    The comment above each definition gives file and lines in /repo. *)
From Coq Require Import String List ZArith.
From Verif Require Import MiniC.
From Verif.Gen Require Import mat2.
Import ListNotations.
Open Scope string_scope.
Open Scope Z_scope.
Open Scope mc_scope.

(* src/mat2.c:13-15 *)
Definition glmc_mat2_make : fundef := Fun
  [("src", None); ("dest", None)]
  [] (
    SExp glm_mat2_make$("src", "dest")
  ).

(* src/mat2.c:19-21 *)
Definition glmc_mat2_copy : fundef := Fun
  [("mat", None); ("dest", None)]
  [] (
    SExp glm_mat2_copy$("mat", "dest")
  ).

(* src/mat2.c:25-27 *)
Definition glmc_mat2_identity : fundef := Fun
  [("m", None)]
  [] (
    SExp glm_mat2_identity$("m")
  ).

(* src/mat2.c:31-33 *)
Definition glmc_mat2_identity_array : fundef := Fun
  [("mats", None); ("count", None)]
  [] (
    SExp glm_mat2_identity_array$("mats", "count")
  ).

(* src/mat2.c:37-39 *)
Definition glmc_mat2_zero : fundef := Fun
  [("m", None)]
  [] (
    SExp glm_mat2_zero$("m")
  ).

(* src/mat2.c:43-45 *)
Definition glmc_mat2_mul : fundef := Fun
  [("m1", None); ("m2", None); ("dest", None)]
  [] (
    SExp glm_mat2_mul$("m1", "m2", "dest")
  ).

(* src/mat2.c:49-51 *)
Definition glmc_mat2_mulv : fundef := Fun
  [("m", None); ("v", None); ("dest", None)]
  [] (
    SExp glm_mat2_mulv$("m", "v", "dest")
  ).

(* src/mat2.c:55-57 *)
Definition glmc_mat2_transpose_to : fundef := Fun
  [("mat", None); ("dest", None)]
  [] (
    SExp glm_mat2_transpose_to$("mat", "dest")
  ).

(* src/mat2.c:61-63 *)
Definition glmc_mat2_transpose : fundef := Fun
  [("m", None)]
  [] (
    SExp glm_mat2_transpose$("m")
  ).

(* src/mat2.c:67-69 *)
Definition glmc_mat2_scale : fundef := Fun
  [("m", None); ("s", None)]
  [] (
    SExp glm_mat2_scale$("m", "s")
  ).

(* src/mat2.c:73-75 *)
Definition glmc_mat2_inv : fundef := Fun
  [("mat", None); ("dest", None)]
  [] (
    SExp glm_mat2_inv$("mat", "dest")
  ).

(* src/mat2.c:79-81 *)
Definition glmc_mat2_swap_col : fundef := Fun
  [("mat", None); ("col1", None); ("col2", None)]
  [] (
    SExp glm_mat2_swap_col$("mat", "col1", "col2")
  ).

(* src/mat2.c:85-87 *)
Definition glmc_mat2_swap_row : fundef := Fun
  [("mat", None); ("row1", None); ("row2", None)]
  [] (
    SExp glm_mat2_swap_row$("mat", "row1", "row2")
  ).

(* src/mat2.c:91-93 *)
Definition glmc_mat2_det : fundef := Fun
  [("m", None)]
  [] (
    SRet glm_mat2_det$("m")
  ).

(* src/mat2.c:97-99 *)
Definition glmc_mat2_trace : fundef := Fun
  [("m", None)]
  [] (
    SRet glm_mat2_trace$("m")
  ).

(* src/mat2.c:103-105 *)
Definition glmc_mat2_rmc : fundef := Fun
  [("r", None); ("m", None); ("c", None)]
  [] (
    SRet glm_mat2_rmc$("r", "m", "c")
  ).

