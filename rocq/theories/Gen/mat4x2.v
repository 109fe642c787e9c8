(** Functions of include/cglm/mat4x2.h (configuration: scalar), written by tools/gen.py.
    The comment above each definition gives file and lines in /repo/include/cglm. *)
From Coq Require Import String List ZArith.
From Verif Require Import MiniC.
From Verif.Gen Require Import vec2.
Import ListNotations.
Open Scope string_scope.
Open Scope Z_scope.
Open Scope mc_scope.

(* mat4x2.h:41-46 *)
Definition glm_mat4x2_copy : fundef := Fun
  [("src", None); ("dest", None)]
  [] (
    SExp glm_vec2_copy$("src".[0:2], "dest".[0:2]) ;;
    SExp glm_vec2_copy$("src".[1:2], "dest".[1:2]) ;;
    SExp glm_vec2_copy$("src".[2:2], "dest".[2:2]) ;;
    SExp glm_vec2_copy$("src".[3:2], "dest".[3:2])
  ).

(* mat4x2.h:55-58 *)
Definition glm_mat4x2_zero : fundef := Fun
  [("m", None)]
  [("t", Some 8%nat)] (
    "t".[0:2].[0] ::= (EF 0 1) ;;
    "t".[0:2].[1] ::= (EF 0 1) ;;
    "t".[1:2].[0] ::= (EF 0 1) ;;
    "t".[1:2].[1] ::= (EF 0 1) ;;
    "t".[2:2].[0] ::= (EF 0 1) ;;
    "t".[2:2].[1] ::= (EF 0 1) ;;
    "t".[3:2].[0] ::= (EF 0 1) ;;
    "t".[3:2].[1] ::= (EF 0 1) ;;
    SExp glm_mat4x2_copy$("t", "m")
  ).

(* mat4x2.h:68-80 *)
Definition glm_mat4x2_make : fundef := Fun
  [("src", None); ("dest", None)]
  [] (
    "dest".[0:2].[0] ::= !"src".[0] ;;
    "dest".[0:2].[1] ::= !"src".[1] ;;
    "dest".[1:2].[0] ::= !"src".[2] ;;
    "dest".[1:2].[1] ::= !"src".[3] ;;
    "dest".[2:2].[0] ::= !"src".[4] ;;
    "dest".[2:2].[1] ::= !"src".[5] ;;
    "dest".[3:2].[0] ::= !"src".[6] ;;
    "dest".[3:2].[1] ::= !"src".[7]
  ).

(* mat4x2.h:95-109 *)
Definition glm_mat4x2_mul : fundef := Fun
  [("m1", None); ("m2", None); ("dest", None)]
  [("a00", None); ("a01", None); ("a10", None); ("a11", None); ("a20", None); ("a21", None); ("a30", None); ("a31", None); ("b00", None); ("b01", None); ("b02", None); ("b03", None); ("b10", None); ("b11", None); ("b12", None); ("b13", None)] (
    "a00" <~ !"m1".[0:2].[0] ;;
    "a01" <~ !"m1".[0:2].[1] ;;
    "a10" <~ !"m1".[1:2].[0] ;;
    "a11" <~ !"m1".[1:2].[1] ;;
    "a20" <~ !"m1".[2:2].[0] ;;
    "a21" <~ !"m1".[2:2].[1] ;;
    "a30" <~ !"m1".[3:2].[0] ;;
    "a31" <~ !"m1".[3:2].[1] ;;
    "b00" <~ !"m2".[0:4].[0] ;;
    "b01" <~ !"m2".[0:4].[1] ;;
    "b02" <~ !"m2".[0:4].[2] ;;
    "b03" <~ !"m2".[0:4].[3] ;;
    "b10" <~ !"m2".[1:4].[0] ;;
    "b11" <~ !"m2".[1:4].[1] ;;
    "b12" <~ !"m2".[1:4].[2] ;;
    "b13" <~ !"m2".[1:4].[3] ;;
    "dest".[0:2].[0] ::= (((("a00" * "b00") + ("a10" * "b01")) + ("a20" * "b02")) + ("a30" * "b03")) ;;
    "dest".[0:2].[1] ::= (((("a01" * "b00") + ("a11" * "b01")) + ("a21" * "b02")) + ("a31" * "b03")) ;;
    "dest".[1:2].[0] ::= (((("a00" * "b10") + ("a10" * "b11")) + ("a20" * "b12")) + ("a30" * "b13")) ;;
    "dest".[1:2].[1] ::= (((("a01" * "b10") + ("a11" * "b11")) + ("a21" * "b12")) + ("a31" * "b13"))
  ).

(* mat4x2.h:120-125 *)
Definition glm_mat4x2_mulv : fundef := Fun
  [("m", None); ("v", None); ("dest", None)]
  [("v0", None); ("v1", None); ("v2", None); ("v3", None)] (
    "v0" <~ !"v".[0] ;;
    "v1" <~ !"v".[1] ;;
    "v2" <~ !"v".[2] ;;
    "v3" <~ !"v".[3] ;;
    "dest".[0] ::= ((((!"m".[0:2].[0] * "v0") + (!"m".[1:2].[0] * "v1")) + (!"m".[2:2].[0] * "v2")) + (!"m".[3:2].[0] * "v3")) ;;
    "dest".[1] ::= ((((!"m".[0:2].[1] * "v0") + (!"m".[1:2].[1] * "v1")) + (!"m".[2:2].[1] * "v2")) + (!"m".[3:2].[1] * "v3"))
  ).

(* mat4x2.h:135-138 *)
Definition glm_mat4x2_transpose : fundef := Fun
  [("m", None); ("dest", None)]
  [] (
    "dest".[0:4].[0] ::= !"m".[0:2].[0] ;;
    "dest".[0:4].[1] ::= !"m".[1:2].[0] ;;
    "dest".[0:4].[2] ::= !"m".[2:2].[0] ;;
    "dest".[0:4].[3] ::= !"m".[3:2].[0] ;;
    "dest".[1:4].[0] ::= !"m".[0:2].[1] ;;
    "dest".[1:4].[1] ::= !"m".[1:2].[1] ;;
    "dest".[1:4].[2] ::= !"m".[2:2].[1] ;;
    "dest".[1:4].[3] ::= !"m".[3:2].[1]
  ).

(* mat4x2.h:148-151 *)
Definition glm_mat4x2_scale : fundef := Fun
  [("m", None); ("s", None)]
  [] (
    "m".[0:2].[0] ::= (!"m".[0:2].[0] * "s") ;;
    "m".[0:2].[1] ::= (!"m".[0:2].[1] * "s") ;;
    "m".[1:2].[0] ::= (!"m".[1:2].[0] * "s") ;;
    "m".[1:2].[1] ::= (!"m".[1:2].[1] * "s") ;;
    "m".[2:2].[0] ::= (!"m".[2:2].[0] * "s") ;;
    "m".[2:2].[1] ::= (!"m".[2:2].[1] * "s") ;;
    "m".[3:2].[0] ::= (!"m".[3:2].[0] * "s") ;;
    "m".[3:2].[1] ::= (!"m".[3:2].[1] * "s")
  ).

