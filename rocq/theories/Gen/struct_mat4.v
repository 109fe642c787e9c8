(** Functions of include/cglm/struct/mat4.h (configuration: scalar), written by tools/gen.py.
    The comment above each definition gives file and lines in /repo/include/cglm. *)
From Coq Require Import String List ZArith.
From Verif Require Import MiniC.
From Verif.Gen Require Import mat4.
Import ListNotations.
Open Scope string_scope.
Open Scope Z_scope.
Open Scope mc_scope.

(* struct/mat4.h:79-83 *)
Definition glms_mat4_ucopy : fundef := Fun
  [("mat", Some 16%nat)]
  [("r", Some 16%nat)] (
    SExp glm_mat4_ucopy$("mat", "r") ;;
    SRet (ELdA 16 "r")
  ).

(* struct/mat4.h:93-97 *)
Definition glms_mat4_copy : fundef := Fun
  [("mat", Some 16%nat)]
  [("r", Some 16%nat)] (
    SExp glm_mat4_copy$("mat", "r") ;;
    SRet (ELdA 16 "r")
  ).

(* struct/mat4.h:115-119 *)
Definition glms_mat4_identity : fundef := Fun
  []
  [("r", Some 16%nat)] (
    SExp glm_mat4_identity$("r") ;;
    SRet (ELdA 16 "r")
  ).

(* struct/mat4.h:131-138 *)
Definition glms_mat4_identity_array : fundef := Fun
  [("mat", None); ("count", None)]
  [("t", Some 16%nat); ("i", None)] (
    "t".[0:4].[0] ::= (EF 1 1) ;;
    "t".[0:4].[1] ::= (EF 0 1) ;;
    "t".[0:4].[2] ::= (EF 0 1) ;;
    "t".[0:4].[3] ::= (EF 0 1) ;;
    "t".[1:4].[0] ::= (EF 0 1) ;;
    "t".[1:4].[1] ::= (EF 1 1) ;;
    "t".[1:4].[2] ::= (EF 0 1) ;;
    "t".[1:4].[3] ::= (EF 0 1) ;;
    "t".[2:4].[0] ::= (EF 0 1) ;;
    "t".[2:4].[1] ::= (EF 0 1) ;;
    "t".[2:4].[2] ::= (EF 1 1) ;;
    "t".[2:4].[3] ::= (EF 0 1) ;;
    "t".[3:4].[0] ::= (EF 0 1) ;;
    "t".[3:4].[1] ::= (EF 0 1) ;;
    "t".[3:4].[2] ::= (EF 0 1) ;;
    "t".[3:4].[3] ::= (EF 1 1) ;;
    (SFor "i" (EI 0) "count" (
      SExp glm_mat4_copy$("t", (EIx "mat" 16 "i"))
    ))
  ).

(* struct/mat4.h:147-151 *)
Definition glms_mat4_zero : fundef := Fun
  []
  [("r", Some 16%nat)] (
    SExp glm_mat4_zero$("r") ;;
    SRet (ELdA 16 "r")
  ).

(* struct/mat4.h:161-165 *)
Definition glms_mat4_pick3 : fundef := Fun
  [("mat", Some 16%nat)]
  [("r", Some 9%nat)] (
    SExp glm_mat4_pick3$("mat", "r") ;;
    SRet (ELdA 9 "r")
  ).

(* struct/mat4.h:177-181 *)
Definition glms_mat4_pick3t : fundef := Fun
  [("mat", Some 16%nat)]
  [("r", Some 9%nat)] (
    SExp glm_mat4_pick3t$("mat", "r") ;;
    SRet (ELdA 9 "r")
  ).

(* struct/mat4.h:192-195 *)
Definition glms_mat4_ins3 : fundef := Fun
  [("mat", Some 9%nat); ("dest", Some 16%nat)]
  [] (
    SExp glm_mat4_ins3$("mat", "dest") ;;
    SRet (ELdA 16 "dest")
  ).

(* struct/mat4.h:213-217 *)
Definition glms_mat4_mul : fundef := Fun
  [("m1", Some 16%nat); ("m2", Some 16%nat)]
  [("r", Some 16%nat)] (
    SExp glm_mat4_mul$("m1", "m2", "r") ;;
    SRet (ELdA 16 "r")
  ).

(* struct/mat4.h:240-249 *)
Definition glms_mat4_mulN : fundef := Fun
  [("matrices", None); ("len", None)]
  [("r", Some 16%nat); ("i", None)] (
    "r".[0:4].[0] ::= (EF 1 1) ;;
    "r".[0:4].[1] ::= (EF 0 1) ;;
    "r".[0:4].[2] ::= (EF 0 1) ;;
    "r".[0:4].[3] ::= (EF 0 1) ;;
    "r".[1:4].[0] ::= (EF 0 1) ;;
    "r".[1:4].[1] ::= (EF 1 1) ;;
    "r".[1:4].[2] ::= (EF 0 1) ;;
    "r".[1:4].[3] ::= (EF 0 1) ;;
    "r".[2:4].[0] ::= (EF 0 1) ;;
    "r".[2:4].[1] ::= (EF 0 1) ;;
    "r".[2:4].[2] ::= (EF 1 1) ;;
    "r".[2:4].[3] ::= (EF 0 1) ;;
    "r".[3:4].[0] ::= (EF 0 1) ;;
    "r".[3:4].[1] ::= (EF 0 1) ;;
    "r".[3:4].[2] ::= (EF 0 1) ;;
    "r".[3:4].[3] ::= (EF 1 1) ;;
    (SFor "i" (EI 0) "len" (
      SStA 16 "r" glms_mat4_mul$((ELdA 16 "r"), (ELdA 16 !(EIx "matrices" 1 "i")))
    )) ;;
    SRet (ELdA 16 "r")
  ).

(* struct/mat4.h:260-264 *)
Definition glms_mat4_mulv : fundef := Fun
  [("m", Some 16%nat); ("v", Some 4%nat)]
  [("r", Some 4%nat)] (
    SExp glm_mat4_mulv$("m", "v", "r") ;;
    SRet (ELdA 4 "r")
  ).

(* struct/mat4.h:275-277 *)
Definition glms_mat4_trace : fundef := Fun
  [("m", Some 16%nat)]
  [] (
    SRet glm_mat4_trace$("m")
  ).

(* struct/mat4.h:288-290 *)
Definition glms_mat4_trace3 : fundef := Fun
  [("m", Some 16%nat)]
  [] (
    SRet glm_mat4_trace3$("m")
  ).

(* struct/mat4.h:300-304 *)
Definition glms_mat4_quat : fundef := Fun
  [("m", Some 16%nat)]
  [("r", Some 4%nat)] (
    SExp glm_mat4_quat$("m", "r") ;;
    SRet (ELdA 4 "r")
  ).

(* struct/mat4.h:316-320 *)
Definition glms_mat4_mulv3 : fundef := Fun
  [("m", Some 16%nat); ("v", Some 3%nat); ("last", None)]
  [("r", Some 3%nat)] (
    SExp glm_mat4_mulv3$("m", "v", "last", "r") ;;
    SRet (ELdA 3 "r")
  ).

(* struct/mat4.h:330-333 *)
Definition glms_mat4_transpose : fundef := Fun
  [("m", Some 16%nat)]
  [] (
    SExp glm_mat4_transpose$("m") ;;
    SRet (ELdA 16 "m")
  ).

(* struct/mat4.h:346-349 *)
Definition glms_mat4_scale_p : fundef := Fun
  [("m", Some 16%nat); ("s", None)]
  [] (
    SExp glm_mat4_scale_p$("m", "s") ;;
    SRet (ELdA 16 "m")
  ).

(* struct/mat4.h:362-365 *)
Definition glms_mat4_scale : fundef := Fun
  [("m", Some 16%nat); ("s", None)]
  [] (
    SExp glm_mat4_scale$("m", "s") ;;
    SRet (ELdA 16 "m")
  ).

(* struct/mat4.h:376-378 *)
Definition glms_mat4_det : fundef := Fun
  [("mat", Some 16%nat)]
  [] (
    SRet glm_mat4_det$("mat")
  ).

(* struct/mat4.h:388-392 *)
Definition glms_mat4_inv : fundef := Fun
  [("mat", Some 16%nat)]
  [("r", Some 16%nat)] (
    SExp glm_mat4_inv$("mat", "r") ;;
    SRet (ELdA 16 "r")
  ).

(* struct/mat4.h:408-412 *)
Definition glms_mat4_inv_fast : fundef := Fun
  [("mat", Some 16%nat)]
  [("r", Some 16%nat)] (
    SExp glm_mat4_inv_fast$("mat", "r") ;;
    SRet (ELdA 16 "r")
  ).

(* struct/mat4.h:424-427 *)
Definition glms_mat4_swap_col : fundef := Fun
  [("mat", Some 16%nat); ("col1", None); ("col2", None)]
  [] (
    SExp glm_mat4_swap_col$("mat", "col1", "col2") ;;
    SRet (ELdA 16 "mat")
  ).

(* struct/mat4.h:439-442 *)
Definition glms_mat4_swap_row : fundef := Fun
  [("mat", Some 16%nat); ("row1", None); ("row2", None)]
  [] (
    SExp glm_mat4_swap_row$("mat", "row1", "row2") ;;
    SRet (ELdA 16 "mat")
  ).

(* struct/mat4.h:460-462 *)
Definition glms_mat4_rmc : fundef := Fun
  [("r", Some 4%nat); ("m", Some 16%nat); ("c", Some 4%nat)]
  [] (
    SRet glm_mat4_rmc$("r", "m", "c")
  ).

(* struct/mat4.h:472-476 *)
Definition glms_mat4_make : fundef := Fun
  [("src", None)]
  [("r", Some 16%nat)] (
    SExp glm_mat4_make$("src", "r") ;;
    SRet (ELdA 16 "r")
  ).

(* struct/mat4.h:490-494 *)
Definition glms_mat4_textrans : fundef := Fun
  [("sx", None); ("sy", None); ("rot", None); ("tx", None); ("ty", None)]
  [("r", Some 16%nat)] (
    SExp glm_mat4_textrans$("sx", "sy", "rot", "tx", "ty", "r") ;;
    SRet (ELdA 16 "r")
  ).

