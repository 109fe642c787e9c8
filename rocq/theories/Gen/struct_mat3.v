(** Functions of include/cglm/struct/mat3.h (configuration: scalar), written by tools/gen.py.
    The comment above each definition gives file and lines in /repo/include/cglm. *)
From Coq Require Import String List ZArith.
From Verif Require Import MiniC.
From Verif.Gen Require Import mat3.
Import ListNotations.
Open Scope string_scope.
Open Scope Z_scope.
Open Scope mc_scope.

(* struct/mat3.h:61-65 *)
Definition glms_mat3_copy : fundef := Fun
  [("mat", Some 9%nat)]
  [("r", Some 9%nat)] (
    SExp glm_mat3_copy$("mat", "r") ;;
    SRet (ELdA 9 "r")
  ).

(* struct/mat3.h:83-87 *)
Definition glms_mat3_identity : fundef := Fun
  []
  [("r", Some 9%nat)] (
    SExp glm_mat3_identity$("r") ;;
    SRet (ELdA 9 "r")
  ).

(* struct/mat3.h:99-106 *)
Definition glms_mat3_identity_array : fundef := Fun
  [("mat", None); ("count", None)]
  [("t", Some 9%nat); ("i", None)] (
    "t".[0:3].[0] ::= (EF 1 1) ;;
    "t".[0:3].[1] ::= (EF 0 1) ;;
    "t".[0:3].[2] ::= (EF 0 1) ;;
    "t".[1:3].[0] ::= (EF 0 1) ;;
    "t".[1:3].[1] ::= (EF 1 1) ;;
    "t".[1:3].[2] ::= (EF 0 1) ;;
    "t".[2:3].[0] ::= (EF 0 1) ;;
    "t".[2:3].[1] ::= (EF 0 1) ;;
    "t".[2:3].[2] ::= (EF 1 1) ;;
    (SFor "i" (EI 0) "count" (
      SExp glm_mat3_copy$("t", (EIx "mat" 9 "i"))
    ))
  ).

(* struct/mat3.h:115-119 *)
Definition glms_mat3_zero : fundef := Fun
  []
  [("r", Some 9%nat)] (
    SExp glm_mat3_zero$("r") ;;
    SRet (ELdA 9 "r")
  ).

(* struct/mat3.h:137-141 *)
Definition glms_mat3_mul : fundef := Fun
  [("m1", Some 9%nat); ("m2", Some 9%nat)]
  [("r", Some 9%nat)] (
    SExp glm_mat3_mul$("m1", "m2", "r") ;;
    SRet (ELdA 9 "r")
  ).

(* struct/mat3.h:150-153 *)
Definition glms_mat3_transpose : fundef := Fun
  [("m", Some 9%nat)]
  [] (
    SExp glm_mat3_transpose$("m") ;;
    SRet (ELdA 9 "m")
  ).

(* struct/mat3.h:164-168 *)
Definition glms_mat3_mulv : fundef := Fun
  [("m", Some 9%nat); ("v", Some 3%nat)]
  [("r", Some 3%nat)] (
    SExp glm_mat3_mulv$("m", "v", "r") ;;
    SRet (ELdA 3 "r")
  ).

(* struct/mat3.h:179-181 *)
Definition glms_mat3_trace : fundef := Fun
  [("m", Some 9%nat)]
  [] (
    SRet glm_mat3_trace$("m")
  ).

(* struct/mat3.h:191-195 *)
Definition glms_mat3_quat : fundef := Fun
  [("m", Some 9%nat)]
  [("r", Some 4%nat)] (
    SExp glm_mat3_quat$("m", "r") ;;
    SRet (ELdA 4 "r")
  ).

(* struct/mat3.h:208-211 *)
Definition glms_mat3_scale : fundef := Fun
  [("m", Some 9%nat); ("s", None)]
  [] (
    SExp glm_mat3_scale$("m", "s") ;;
    SRet (ELdA 9 "m")
  ).

(* struct/mat3.h:222-224 *)
Definition glms_mat3_det : fundef := Fun
  [("mat", Some 9%nat)]
  [] (
    SRet glm_mat3_det$("mat")
  ).

(* struct/mat3.h:234-238 *)
Definition glms_mat3_inv : fundef := Fun
  [("mat", Some 9%nat)]
  [("r", Some 9%nat)] (
    SExp glm_mat3_inv$("mat", "r") ;;
    SRet (ELdA 9 "r")
  ).

(* struct/mat3.h:250-253 *)
Definition glms_mat3_swap_col : fundef := Fun
  [("mat", Some 9%nat); ("col1", None); ("col2", None)]
  [] (
    SExp glm_mat3_swap_col$("mat", "col1", "col2") ;;
    SRet (ELdA 9 "mat")
  ).

(* struct/mat3.h:265-268 *)
Definition glms_mat3_swap_row : fundef := Fun
  [("mat", Some 9%nat); ("row1", None); ("row2", None)]
  [] (
    SExp glm_mat3_swap_row$("mat", "row1", "row2") ;;
    SRet (ELdA 9 "mat")
  ).

(* struct/mat3.h:286-288 *)
Definition glms_mat3_rmc : fundef := Fun
  [("r", Some 3%nat); ("m", Some 9%nat); ("c", Some 3%nat)]
  [] (
    SRet glm_mat3_rmc$("r", "m", "c")
  ).

(* struct/mat3.h:298-302 *)
Definition glms_mat3_make : fundef := Fun
  [("src", None)]
  [("r", Some 9%nat)] (
    SExp glm_mat3_make$("src", "r") ;;
    SRet (ELdA 9 "r")
  ).

(* struct/mat3.h:316-320 *)
Definition glms_mat3_textrans : fundef := Fun
  [("sx", None); ("sy", None); ("rot", None); ("tx", None); ("ty", None)]
  [("r", Some 9%nat)] (
    SExp glm_mat3_textrans$("sx", "sy", "rot", "tx", "ty", "r") ;;
    SRet (ELdA 9 "r")
  ).

