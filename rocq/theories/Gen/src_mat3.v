(** Functions of src/mat3.c (configuration: scalar), written by tools/gen.py.
    The comment above each definition gives file and lines in /repo. *)
From Coq Require Import String List ZArith.
From Verif Require Import MiniC.
From Verif.Gen Require Import mat3.
Import ListNotations.
Open Scope string_scope.
Open Scope Z_scope.
Open Scope mc_scope.

(* src/mat3.c:13-15 *)
Definition glmc_mat3_copy : fundef := Fun
  [("mat", None); ("dest", None)]
  [] (
    SExp glm_mat3_copy$("mat", "dest")
  ).

(* src/mat3.c:19-21 *)
Definition glmc_mat3_identity : fundef := Fun
  [("mat", None)]
  [] (
    SExp glm_mat3_identity$("mat")
  ).

(* src/mat3.c:25-27 *)
Definition glmc_mat3_zero : fundef := Fun
  [("mat", None)]
  [] (
    SExp glm_mat3_zero$("mat")
  ).

(* src/mat3.c:31-33 *)
Definition glmc_mat3_identity_array : fundef := Fun
  [("mat", None); ("count", None)]
  [] (
    SExp glm_mat3_identity_array$("mat", "count")
  ).

(* src/mat3.c:37-39 *)
Definition glmc_mat3_mul : fundef := Fun
  [("m1", None); ("m2", None); ("dest", None)]
  [] (
    SExp glm_mat3_mul$("m1", "m2", "dest")
  ).

(* src/mat3.c:43-45 *)
Definition glmc_mat3_transpose_to : fundef := Fun
  [("m", None); ("dest", None)]
  [] (
    SExp glm_mat3_transpose_to$("m", "dest")
  ).

(* src/mat3.c:49-51 *)
Definition glmc_mat3_transpose : fundef := Fun
  [("m", None)]
  [] (
    SExp glm_mat3_transpose$("m")
  ).

(* src/mat3.c:55-57 *)
Definition glmc_mat3_mulv : fundef := Fun
  [("m", None); ("v", None); ("dest", None)]
  [] (
    SExp glm_mat3_mulv$("m", "v", "dest")
  ).

(* src/mat3.c:61-63 *)
Definition glmc_mat3_trace : fundef := Fun
  [("m", None)]
  [] (
    SRet glm_mat3_trace$("m")
  ).

(* src/mat3.c:67-69 *)
Definition glmc_mat3_quat : fundef := Fun
  [("m", None); ("dest", None)]
  [] (
    SExp glm_mat3_quat$("m", "dest")
  ).

(* src/mat3.c:73-75 *)
Definition glmc_mat3_scale : fundef := Fun
  [("m", None); ("s", None)]
  [] (
    SExp glm_mat3_scale$("m", "s")
  ).

(* src/mat3.c:79-81 *)
Definition glmc_mat3_det : fundef := Fun
  [("mat", None)]
  [] (
    SRet glm_mat3_det$("mat")
  ).

(* src/mat3.c:85-87 *)
Definition glmc_mat3_inv : fundef := Fun
  [("mat", None); ("dest", None)]
  [] (
    SExp glm_mat3_inv$("mat", "dest")
  ).

(* src/mat3.c:91-93 *)
Definition glmc_mat3_swap_col : fundef := Fun
  [("mat", None); ("col1", None); ("col2", None)]
  [] (
    SExp glm_mat3_swap_col$("mat", "col1", "col2")
  ).

(* src/mat3.c:97-99 *)
Definition glmc_mat3_swap_row : fundef := Fun
  [("mat", None); ("row1", None); ("row2", None)]
  [] (
    SExp glm_mat3_swap_row$("mat", "row1", "row2")
  ).

(* src/mat3.c:103-105 *)
Definition glmc_mat3_rmc : fundef := Fun
  [("r", None); ("m", None); ("c", None)]
  [] (
    SRet glm_mat3_rmc$("r", "m", "c")
  ).

(* src/mat3.c:109-111 *)
Definition glmc_mat3_make : fundef := Fun
  [("src", None); ("dest", None)]
  [] (
    SExp glm_mat3_make$("src", "dest")
  ).

(* src/mat3.c:115-117 *)
Definition glmc_mat3_textrans : fundef := Fun
  [("sx", None); ("sy", None); ("rot", None); ("tx", None); ("ty", None); ("dest", None)]
  [] (
    SExp glm_mat3_textrans$("sx", "sy", "rot", "tx", "ty", "dest")
  ).

