(** Functions of src/mat4.c (configuration: scalar), written by tools/gen.py.
    The comment above each definition gives file and lines in /repo. *)
From Coq Require Import String List ZArith.
From Verif Require Import MiniC.
From Verif.Gen Require Import mat4.
Import ListNotations.
Open Scope string_scope.
Open Scope Z_scope.
Open Scope mc_scope.

(* src/mat4.c:13-15 *)
Definition glmc_mat4_ucopy : fundef := Fun
  [("mat", None); ("dest", None)]
  [] (
    SExp glm_mat4_copy$("mat", "dest")
  ).

(* src/mat4.c:19-21 *)
Definition glmc_mat4_copy : fundef := Fun
  [("mat", None); ("dest", None)]
  [] (
    SExp glm_mat4_copy$("mat", "dest")
  ).

(* src/mat4.c:25-27 *)
Definition glmc_mat4_identity : fundef := Fun
  [("mat", None)]
  [] (
    SExp glm_mat4_identity$("mat")
  ).

(* src/mat4.c:31-33 *)
Definition glmc_mat4_identity_array : fundef := Fun
  [("mat", None); ("count", None)]
  [] (
    SExp glm_mat4_identity_array$("mat", "count")
  ).

(* src/mat4.c:37-39 *)
Definition glmc_mat4_zero : fundef := Fun
  [("mat", None)]
  [] (
    SExp glm_mat4_zero$("mat")
  ).

(* src/mat4.c:43-45 *)
Definition glmc_mat4_pick3 : fundef := Fun
  [("mat", None); ("dest", None)]
  [] (
    SExp glm_mat4_pick3$("mat", "dest")
  ).

(* src/mat4.c:49-51 *)
Definition glmc_mat4_pick3t : fundef := Fun
  [("mat", None); ("dest", None)]
  [] (
    SExp glm_mat4_pick3t$("mat", "dest")
  ).

(* src/mat4.c:55-57 *)
Definition glmc_mat4_ins3 : fundef := Fun
  [("mat", None); ("dest", None)]
  [] (
    SExp glm_mat4_ins3$("mat", "dest")
  ).

(* src/mat4.c:61-63 *)
Definition glmc_mat4_mul : fundef := Fun
  [("m1", None); ("m2", None); ("dest", None)]
  [] (
    SExp glm_mat4_mul$("m1", "m2", "dest")
  ).

(* src/mat4.c:67-69 *)
Definition glmc_mat4_mulN : fundef := Fun
  [("matrices", None); ("len", None); ("dest", None)]
  [] (
    SExp glm_mat4_mulN$("matrices", "len", "dest")
  ).

(* src/mat4.c:73-75 *)
Definition glmc_mat4_mulv : fundef := Fun
  [("m", None); ("v", None); ("dest", None)]
  [] (
    SExp glm_mat4_mulv$("m", "v", "dest")
  ).

(* src/mat4.c:79-81 *)
Definition glmc_mat4_mulv3 : fundef := Fun
  [("m", None); ("v", None); ("last", None); ("dest", None)]
  [] (
    SExp glm_mat4_mulv3$("m", "v", "last", "dest")
  ).

(* src/mat4.c:85-87 *)
Definition glmc_mat4_trace : fundef := Fun
  [("m", None)]
  [] (
    SRet glm_mat4_trace$("m")
  ).

(* src/mat4.c:91-93 *)
Definition glmc_mat4_trace3 : fundef := Fun
  [("m", None)]
  [] (
    SRet glm_mat4_trace3$("m")
  ).

(* src/mat4.c:97-99 *)
Definition glmc_mat4_quat : fundef := Fun
  [("m", None); ("dest", None)]
  [] (
    SExp glm_mat4_quat$("m", "dest")
  ).

(* src/mat4.c:103-105 *)
Definition glmc_mat4_transpose_to : fundef := Fun
  [("m", None); ("dest", None)]
  [] (
    SExp glm_mat4_transpose_to$("m", "dest")
  ).

(* src/mat4.c:109-111 *)
Definition glmc_mat4_transpose : fundef := Fun
  [("m", None)]
  [] (
    SExp glm_mat4_transpose$("m")
  ).

(* src/mat4.c:115-117 *)
Definition glmc_mat4_scale_p : fundef := Fun
  [("m", None); ("s", None)]
  [] (
    SExp glm_mat4_scale_p$("m", "s")
  ).

(* src/mat4.c:121-123 *)
Definition glmc_mat4_scale : fundef := Fun
  [("m", None); ("s", None)]
  [] (
    SExp glm_mat4_scale$("m", "s")
  ).

(* src/mat4.c:127-129 *)
Definition glmc_mat4_det : fundef := Fun
  [("mat", None)]
  [] (
    SRet glm_mat4_det$("mat")
  ).

(* src/mat4.c:133-135 *)
Definition glmc_mat4_inv : fundef := Fun
  [("mat", None); ("dest", None)]
  [] (
    SExp glm_mat4_inv$("mat", "dest")
  ).

(* src/mat4.c:139-141 *)
Definition glmc_mat4_inv_precise : fundef := Fun
  [("mat", None); ("dest", None)]
  [] (
    SExp glm_mat4_inv$("mat", "dest")
  ).

(* src/mat4.c:145-147 *)
Definition glmc_mat4_inv_fast : fundef := Fun
  [("mat", None); ("dest", None)]
  [] (
    SExp glm_mat4_inv_fast$("mat", "dest")
  ).

(* src/mat4.c:151-153 *)
Definition glmc_mat4_swap_col : fundef := Fun
  [("mat", None); ("col1", None); ("col2", None)]
  [] (
    SExp glm_mat4_swap_col$("mat", "col1", "col2")
  ).

(* src/mat4.c:157-159 *)
Definition glmc_mat4_swap_row : fundef := Fun
  [("mat", None); ("row1", None); ("row2", None)]
  [] (
    SExp glm_mat4_swap_row$("mat", "row1", "row2")
  ).

(* src/mat4.c:163-165 *)
Definition glmc_mat4_rmc : fundef := Fun
  [("r", None); ("m", None); ("c", None)]
  [] (
    SRet glm_mat4_rmc$("r", "m", "c")
  ).

(* src/mat4.c:169-171 *)
Definition glmc_mat4_make : fundef := Fun
  [("src", None); ("dest", None)]
  [] (
    SExp glm_mat4_make$("src", "dest")
  ).

(* src/mat4.c:175-177 *)
Definition glmc_mat4_textrans : fundef := Fun
  [("sx", None); ("sy", None); ("rot", None); ("tx", None); ("ty", None); ("dest", None)]
  [] (
    SExp glm_mat4_textrans$("sx", "sy", "rot", "tx", "ty", "dest")
  ).

