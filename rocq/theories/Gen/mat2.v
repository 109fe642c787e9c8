(** Functions of include/cglm/mat2.h (configuration: scalar), written by tools/gen.py.
    The comment above each definition gives file and lines in /repo/include/cglm. *)
From Coq Require Import String List ZArith.
From Verif Require Import MiniC.
From Verif.Gen Require Import vec2 vec4.
Import ListNotations.
Open Scope string_scope.
Open Scope Z_scope.
Open Scope mc_scope.

(* mat2.h:67-72 *)
Definition glm_mat2_make : fundef := Fun
  [("src", None); ("dest", None)]
  [] (
    "dest".[0:2].[0] ::= !"src".[0] ;;
    "dest".[0:2].[1] ::= !"src".[1] ;;
    "dest".[1:2].[0] ::= !"src".[2] ;;
    "dest".[1:2].[1] ::= !"src".[3]
  ).

(* mat2.h:82-84 *)
Definition glm_mat2_copy : fundef := Fun
  [("mat", None); ("dest", None)]
  [] (
    SExp glm_vec4_ucopy$("mat".[0:2], "dest".[0:2])
  ).

(* mat2.h:104-107 *)
Definition glm_mat2_identity : fundef := Fun
  [("m", None)]
  [("t", Some 4%nat)] (
    "t".[0:2].[0] ::= (EF 1 1) ;;
    "t".[0:2].[1] ::= (EF 0 1) ;;
    "t".[1:2].[0] ::= (EF 0 1) ;;
    "t".[1:2].[1] ::= (EF 1 1) ;;
    SExp glm_mat2_copy$("t", "m")
  ).

(* mat2.h:117-124 *)
Definition glm_mat2_identity_array : fundef := Fun
  [("mats", None); ("count", None)]
  [("t", Some 4%nat); ("i", None)] (
    "t".[0:2].[0] ::= (EF 1 1) ;;
    "t".[0:2].[1] ::= (EF 0 1) ;;
    "t".[1:2].[0] ::= (EF 0 1) ;;
    "t".[1:2].[1] ::= (EF 1 1) ;;
    (SFor "i" (EI 0) "count" (
      SExp glm_mat2_copy$("t", (EIx "mats" 4 "i"))
    ))
  ).

(* mat2.h:133-136 *)
Definition glm_mat2_zero : fundef := Fun
  [("m", None)]
  [("t", Some 4%nat)] (
    "t".[0:2].[0] ::= (EF 0 1) ;;
    "t".[0:2].[1] ::= (EF 0 1) ;;
    "t".[1:2].[0] ::= (EF 0 1) ;;
    "t".[1:2].[1] ::= (EF 0 1) ;;
    SExp glm_mat2_copy$("t", "m")
  ).

(* mat2.h:154-172 *)
Definition glm_mat2_mul : fundef := Fun
  [("m1", None); ("m2", None); ("dest", None)]
  [("a00", None); ("a01", None); ("a10", None); ("a11", None); ("b00", None); ("b01", None); ("b10", None); ("b11", None)] (
    "a00" <~ !"m1".[0:2].[0] ;;
    "a01" <~ !"m1".[0:2].[1] ;;
    "a10" <~ !"m1".[1:2].[0] ;;
    "a11" <~ !"m1".[1:2].[1] ;;
    "b00" <~ !"m2".[0:2].[0] ;;
    "b01" <~ !"m2".[0:2].[1] ;;
    "b10" <~ !"m2".[1:2].[0] ;;
    "b11" <~ !"m2".[1:2].[1] ;;
    "dest".[0:2].[0] ::= (("a00" * "b00") + ("a10" * "b01")) ;;
    "dest".[0:2].[1] ::= (("a01" * "b00") + ("a11" * "b01")) ;;
    "dest".[1:2].[0] ::= (("a00" * "b10") + ("a10" * "b11")) ;;
    "dest".[1:2].[1] ::= (("a01" * "b10") + ("a11" * "b11"))
  ).

(* mat2.h:183-186 *)
Definition glm_mat2_mulv : fundef := Fun
  [("m", None); ("v", None); ("dest", None)]
  [] (
    "dest".[0] ::= ((!"m".[0:2].[0] * !"v".[0]) + (!"m".[1:2].[0] * !"v".[1])) ;;
    "dest".[1] ::= ((!"m".[0:2].[1] * !"v".[0]) + (!"m".[1:2].[1] * !"v".[1]))
  ).

(* mat2.h:196-207 *)
Definition glm_mat2_transpose_to : fundef := Fun
  [("mat", None); ("dest", None)]
  [] (
    "dest".[0:2].[0] ::= !"mat".[0:2].[0] ;;
    "dest".[0:2].[1] ::= !"mat".[1:2].[0] ;;
    "dest".[1:2].[0] ::= !"mat".[0:2].[1] ;;
    "dest".[1:2].[1] ::= !"mat".[1:2].[1]
  ).

(* mat2.h:216-221 *)
Definition glm_mat2_transpose : fundef := Fun
  [("m", None)]
  [("tmp", None)] (
    "tmp" <~ !"m".[0:2].[1] ;;
    "m".[0:2].[1] ::= !"m".[1:2].[0] ;;
    "m".[1:2].[0] ::= "tmp"
  ).

(* mat2.h:231-245 *)
Definition glm_mat2_scale : fundef := Fun
  [("m", None); ("s", None)]
  [] (
    "m".[0:2].[0] ::= (!"m".[0:2].[0] * "s") ;;
    "m".[0:2].[1] ::= (!"m".[0:2].[1] * "s") ;;
    "m".[1:2].[0] ::= (!"m".[1:2].[0] * "s") ;;
    "m".[1:2].[1] ::= (!"m".[1:2].[1] * "s")
  ).

(* mat2.h:255-266 *)
Definition glm_mat2_inv : fundef := Fun
  [("mat", None); ("dest", None)]
  [("det", None); ("a", None); ("b", None); ("c", None); ("d", None)] (
    "a" <~ !"mat".[0:2].[0] ;;
    "b" <~ !"mat".[0:2].[1] ;;
    "c" <~ !"mat".[1:2].[0] ;;
    "d" <~ !"mat".[1:2].[1] ;;
    "det" <~ ((EF 1 1) / (("a" * "d") - ("b" * "c"))) ;;
    "dest".[0:2].[0] ::= ("d" * "det") ;;
    "dest".[0:2].[1] ::= ((- "b") * "det") ;;
    "dest".[1:2].[0] ::= ((- "c") * "det") ;;
    "dest".[1:2].[1] ::= ("a" * "det")
  ).

(* mat2.h:277-288 *)
Definition glm_mat2_swap_col : fundef := Fun
  [("mat", None); ("col1", None); ("col2", None)]
  [("a", None); ("b", None)] (
    "a" <~ !(EIx "mat" 2 "col1").[0] ;;
    "b" <~ !(EIx "mat" 2 "col1").[1] ;;
    (EIx "mat" 2 "col1").[0] ::= !(EIx "mat" 2 "col2").[0] ;;
    (EIx "mat" 2 "col1").[1] ::= !(EIx "mat" 2 "col2").[1] ;;
    (EIx "mat" 2 "col2").[0] ::= "a" ;;
    (EIx "mat" 2 "col2").[1] ::= "b"
  ).

(* mat2.h:299-310 *)
Definition glm_mat2_swap_row : fundef := Fun
  [("mat", None); ("row1", None); ("row2", None)]
  [("a", None); ("b", None)] (
    "a" <~ !(EIx "mat".[0:2] 1 "row1") ;;
    "b" <~ !(EIx "mat".[1:2] 1 "row1") ;;
    (EIx "mat".[0:2] 1 "row1") ::= !(EIx "mat".[0:2] 1 "row2") ;;
    (EIx "mat".[1:2] 1 "row1") ::= !(EIx "mat".[1:2] 1 "row2") ;;
    (EIx "mat".[0:2] 1 "row2") ::= "a" ;;
    (EIx "mat".[1:2] 1 "row2") ::= "b"
  ).

(* mat2.h:321-323 *)
Definition glm_mat2_det : fundef := Fun
  [("m", None)]
  [] (
    SRet ((!"m".[0:2].[0] * !"m".[1:2].[1]) - (!"m".[1:2].[0] * !"m".[0:2].[1]))
  ).

(* mat2.h:337-339 *)
Definition glm_mat2_trace : fundef := Fun
  [("m", None)]
  [] (
    SRet (!"m".[0:2].[0] + !"m".[1:2].[1])
  ).

(* mat2.h:357-361 *)
Definition glm_mat2_rmc : fundef := Fun
  [("r", None); ("m", None); ("c", None)]
  [("tmp", Some 2%nat)] (
    SExp glm_mat2_mulv$("m", "c", "tmp") ;;
    SRet glm_vec2_dot$("r", "tmp")
  ).

