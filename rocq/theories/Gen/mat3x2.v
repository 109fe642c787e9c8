(** Functions of include/cglm/mat3x2.h (configuration: scalar), written by tools/gen.py.
    The comment above each definition gives file and lines in /repo/include/cglm. *)
From Coq Require Import String List ZArith.
From Verif Require Import MiniC.
From Verif.Gen Require Import vec2.
Import ListNotations.
Open Scope string_scope.
Open Scope Z_scope.
Open Scope mc_scope.

(* mat3x2.h:41-45 *)
Definition glm_mat3x2_copy : fundef := Fun
  [("src", None); ("dest", None)]
  [] (
    SExp glm_vec2_copy$("src".[0:2], "dest".[0:2]) ;;
    SExp glm_vec2_copy$("src".[1:2], "dest".[1:2]) ;;
    SExp glm_vec2_copy$("src".[2:2], "dest".[2:2])
  ).

(* mat3x2.h:54-57 *)
Definition glm_mat3x2_zero : fundef := Fun
  [("m", None)]
  [("t", Some 6%nat)] (
    "t".[0:2].[0] ::= (EF 0 1) ;;
    "t".[0:2].[1] ::= (EF 0 1) ;;
    "t".[1:2].[0] ::= (EF 0 1) ;;
    "t".[1:2].[1] ::= (EF 0 1) ;;
    "t".[2:2].[0] ::= (EF 0 1) ;;
    "t".[2:2].[1] ::= (EF 0 1) ;;
    SExp glm_mat3x2_copy$("t", "m")
  ).

(* mat3x2.h:67-76 *)
Definition glm_mat3x2_make : fundef := Fun
  [("src", None); ("dest", None)]
  [] (
    "dest".[0:2].[0] ::= !"src".[0] ;;
    "dest".[0:2].[1] ::= !"src".[1] ;;
    "dest".[1:2].[0] ::= !"src".[2] ;;
    "dest".[1:2].[1] ::= !"src".[3] ;;
    "dest".[2:2].[0] ::= !"src".[4] ;;
    "dest".[2:2].[1] ::= !"src".[5]
  ).

(* mat3x2.h:91-104 *)
Definition glm_mat3x2_mul : fundef := Fun
  [("m1", None); ("m2", None); ("dest", None)]
  [("a00", None); ("a01", None); ("a10", None); ("a11", None); ("a20", None); ("a21", None); ("b00", None); ("b01", None); ("b02", None); ("b10", None); ("b11", None); ("b12", None)] (
    "a00" <~ !"m1".[0:2].[0] ;;
    "a01" <~ !"m1".[0:2].[1] ;;
    "a10" <~ !"m1".[1:2].[0] ;;
    "a11" <~ !"m1".[1:2].[1] ;;
    "a20" <~ !"m1".[2:2].[0] ;;
    "a21" <~ !"m1".[2:2].[1] ;;
    "b00" <~ !"m2".[0:3].[0] ;;
    "b01" <~ !"m2".[0:3].[1] ;;
    "b02" <~ !"m2".[0:3].[2] ;;
    "b10" <~ !"m2".[1:3].[0] ;;
    "b11" <~ !"m2".[1:3].[1] ;;
    "b12" <~ !"m2".[1:3].[2] ;;
    "dest".[0:2].[0] ::= ((("a00" * "b00") + ("a10" * "b01")) + ("a20" * "b02")) ;;
    "dest".[0:2].[1] ::= ((("a01" * "b00") + ("a11" * "b01")) + ("a21" * "b02")) ;;
    "dest".[1:2].[0] ::= ((("a00" * "b10") + ("a10" * "b11")) + ("a20" * "b12")) ;;
    "dest".[1:2].[1] ::= ((("a01" * "b10") + ("a11" * "b11")) + ("a21" * "b12"))
  ).

(* mat3x2.h:115-120 *)
Definition glm_mat3x2_mulv : fundef := Fun
  [("m", None); ("v", None); ("dest", None)]
  [("v0", None); ("v1", None); ("v2", None)] (
    "v0" <~ !"v".[0] ;;
    "v1" <~ !"v".[1] ;;
    "v2" <~ !"v".[2] ;;
    "dest".[0] ::= (((!"m".[0:2].[0] * "v0") + (!"m".[1:2].[0] * "v1")) + (!"m".[2:2].[0] * "v2")) ;;
    "dest".[1] ::= (((!"m".[0:2].[1] * "v0") + (!"m".[1:2].[1] * "v1")) + (!"m".[2:2].[1] * "v2"))
  ).

(* mat3x2.h:130-133 *)
Definition glm_mat3x2_transpose : fundef := Fun
  [("src", None); ("dest", None)]
  [] (
    "dest".[0:3].[0] ::= !"src".[0:2].[0] ;;
    "dest".[0:3].[1] ::= !"src".[1:2].[0] ;;
    "dest".[0:3].[2] ::= !"src".[2:2].[0] ;;
    "dest".[1:3].[0] ::= !"src".[0:2].[1] ;;
    "dest".[1:3].[1] ::= !"src".[1:2].[1] ;;
    "dest".[1:3].[2] ::= !"src".[2:2].[1]
  ).

(* mat3x2.h:143-146 *)
Definition glm_mat3x2_scale : fundef := Fun
  [("m", None); ("s", None)]
  [] (
    "m".[0:2].[0] ::= (!"m".[0:2].[0] * "s") ;;
    "m".[0:2].[1] ::= (!"m".[0:2].[1] * "s") ;;
    "m".[1:2].[0] ::= (!"m".[1:2].[0] * "s") ;;
    "m".[1:2].[1] ::= (!"m".[1:2].[1] * "s") ;;
    "m".[2:2].[0] ::= (!"m".[2:2].[0] * "s") ;;
    "m".[2:2].[1] ::= (!"m".[2:2].[1] * "s")
  ).

