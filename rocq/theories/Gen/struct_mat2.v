(** Functions of include/cglm/struct/mat2.h (configuration: scalar), written by tools/gen.py.
    The comment above each definition gives file and lines in /repo/include/cglm. *)
From Coq Require Import String List ZArith.
From Verif Require Import MiniC.
From Verif.Gen Require Import mat2.
Import ListNotations.
Open Scope string_scope.
Open Scope Z_scope.
Open Scope mc_scope.

(* struct/mat2.h:57-61 *)
Definition glms_mat2_make : fundef := Fun
  [("src", None)]
  [("r", Some 4%nat)] (
    SExp glm_mat2_make$("src", "r") ;;
    SRet (ELdA 4 "r")
  ).

(* struct/mat2.h:81-85 *)
Definition glms_mat2_identity : fundef := Fun
  []
  [("r", Some 4%nat)] (
    SExp glm_mat2_identity$("r") ;;
    SRet (ELdA 4 "r")
  ).

(* struct/mat2.h:95-102 *)
Definition glms_mat2_identity_array : fundef := Fun
  [("mats", None); ("count", None)]
  [("t", Some 4%nat); ("i", None)] (
    "t".[0:2].[0] ::= (EF 1 1) ;;
    "t".[0:2].[1] ::= (EF 0 1) ;;
    "t".[1:2].[0] ::= (EF 0 1) ;;
    "t".[1:2].[1] ::= (EF 1 1) ;;
    (SFor "i" (EI 0) "count" (
      SExp glm_mat2_copy$("t", (EIx "mats" 4 "i"))
    ))
  ).

(* struct/mat2.h:111-115 *)
Definition glms_mat2_zero : fundef := Fun
  []
  [("r", Some 4%nat)] (
    SExp glm_mat2_zero$("r") ;;
    SRet (ELdA 4 "r")
  ).

(* struct/mat2.h:133-137 *)
Definition glms_mat2_mul : fundef := Fun
  [("m1", Some 4%nat); ("m2", Some 4%nat)]
  [("r", Some 4%nat)] (
    SExp glm_mat2_mul$("m1", "m2", "r") ;;
    SRet (ELdA 4 "r")
  ).

(* struct/mat2.h:148-152 *)
Definition glms_mat2_mulv : fundef := Fun
  [("m", Some 4%nat); ("v", Some 2%nat)]
  [("r", Some 2%nat)] (
    SExp glm_mat2_mulv$("m", "v", "r") ;;
    SRet (ELdA 2 "r")
  ).

(* struct/mat2.h:162-165 *)
Definition glms_mat2_transpose : fundef := Fun
  [("m", Some 4%nat)]
  [] (
    SExp glm_mat2_transpose$("m") ;;
    SRet (ELdA 4 "m")
  ).

(* struct/mat2.h:176-179 *)
Definition glms_mat2_scale : fundef := Fun
  [("m", Some 4%nat); ("s", None)]
  [] (
    SExp glm_mat2_scale$("m", "s") ;;
    SRet (ELdA 4 "m")
  ).

(* struct/mat2.h:189-193 *)
Definition glms_mat2_inv : fundef := Fun
  [("m", Some 4%nat)]
  [("r", Some 4%nat)] (
    SExp glm_mat2_inv$("m", "r") ;;
    SRet (ELdA 4 "r")
  ).

(* struct/mat2.h:205-208 *)
Definition glms_mat2_swap_col : fundef := Fun
  [("mat", Some 4%nat); ("col1", None); ("col2", None)]
  [] (
    SExp glm_mat2_swap_col$("mat", "col1", "col2") ;;
    SRet (ELdA 4 "mat")
  ).

(* struct/mat2.h:220-223 *)
Definition glms_mat2_swap_row : fundef := Fun
  [("mat", Some 4%nat); ("row1", None); ("row2", None)]
  [] (
    SExp glm_mat2_swap_row$("mat", "row1", "row2") ;;
    SRet (ELdA 4 "mat")
  ).

(* struct/mat2.h:234-236 *)
Definition glms_mat2_det : fundef := Fun
  [("m", Some 4%nat)]
  [] (
    SRet glm_mat2_det$("m")
  ).

(* struct/mat2.h:250-252 *)
Definition glms_mat2_trace : fundef := Fun
  [("m", Some 4%nat)]
  [] (
    SRet glm_mat2_trace$("m")
  ).

(* struct/mat2.h:270-272 *)
Definition glms_mat2_rmc : fundef := Fun
  [("r", Some 2%nat); ("m", Some 4%nat); ("c", Some 2%nat)]
  [] (
    SRet glm_mat2_rmc$("r", "m", "c")
  ).

