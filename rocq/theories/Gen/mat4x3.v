(** Functions of include/cglm/mat4x3.h (configuration: scalar), written by tools/gen.py.
    The comment above each definition gives file and lines in /repo/include/cglm. *)
From Coq Require Import String List ZArith.
From Verif Require Import MiniC.
From Verif.Gen Require Import vec3.
Import ListNotations.
Open Scope string_scope.
Open Scope Z_scope.
Open Scope mc_scope.

(* mat4x3.h:42-47 *)
Definition glm_mat4x3_copy : fundef := Fun
  [("src", None); ("dest", None)]
  [] (
    SExp glm_vec3_copy$("src".[0:3], "dest".[0:3]) ;;
    SExp glm_vec3_copy$("src".[1:3], "dest".[1:3]) ;;
    SExp glm_vec3_copy$("src".[2:3], "dest".[2:3]) ;;
    SExp glm_vec3_copy$("src".[3:3], "dest".[3:3])
  ).

(* mat4x3.h:56-59 *)
Definition glm_mat4x3_zero : fundef := Fun
  [("m", None)]
  [("t", Some 12%nat)] (
    "t".[0:3].[0] ::= (EF 0 1) ;;
    "t".[0:3].[1] ::= (EF 0 1) ;;
    "t".[0:3].[2] ::= (EF 0 1) ;;
    "t".[1:3].[0] ::= (EF 0 1) ;;
    "t".[1:3].[1] ::= (EF 0 1) ;;
    "t".[1:3].[2] ::= (EF 0 1) ;;
    "t".[2:3].[0] ::= (EF 0 1) ;;
    "t".[2:3].[1] ::= (EF 0 1) ;;
    "t".[2:3].[2] ::= (EF 0 1) ;;
    "t".[3:3].[0] ::= (EF 0 1) ;;
    "t".[3:3].[1] ::= (EF 0 1) ;;
    "t".[3:3].[2] ::= (EF 0 1) ;;
    SExp glm_mat4x3_copy$("t", "m")
  ).

(* mat4x3.h:69-85 *)
Definition glm_mat4x3_make : fundef := Fun
  [("src", None); ("dest", None)]
  [] (
    "dest".[0:3].[0] ::= !"src".[0] ;;
    "dest".[0:3].[1] ::= !"src".[1] ;;
    "dest".[0:3].[2] ::= !"src".[2] ;;
    "dest".[1:3].[0] ::= !"src".[3] ;;
    "dest".[1:3].[1] ::= !"src".[4] ;;
    "dest".[1:3].[2] ::= !"src".[5] ;;
    "dest".[2:3].[0] ::= !"src".[6] ;;
    "dest".[2:3].[1] ::= !"src".[7] ;;
    "dest".[2:3].[2] ::= !"src".[8] ;;
    "dest".[3:3].[0] ::= !"src".[9] ;;
    "dest".[3:3].[1] ::= !"src".[10] ;;
    "dest".[3:3].[2] ::= !"src".[11]
  ).

(* mat4x3.h:100-121 *)
Definition glm_mat4x3_mul : fundef := Fun
  [("m1", None); ("m2", None); ("dest", None)]
  [("a00", None); ("a01", None); ("a02", None); ("a10", None); ("a11", None); ("a12", None); ("a20", None); ("a21", None); ("a22", None); ("a30", None); ("a31", None); ("a32", None); ("b00", None); ("b01", None); ("b02", None); ("b03", None); ("b10", None); ("b11", None); ("b12", None); ("b13", None); ("b20", None); ("b21", None); ("b22", None); ("b23", None)] (
    "a00" <~ !"m1".[0:3].[0] ;;
    "a01" <~ !"m1".[0:3].[1] ;;
    "a02" <~ !"m1".[0:3].[2] ;;
    "a10" <~ !"m1".[1:3].[0] ;;
    "a11" <~ !"m1".[1:3].[1] ;;
    "a12" <~ !"m1".[1:3].[2] ;;
    "a20" <~ !"m1".[2:3].[0] ;;
    "a21" <~ !"m1".[2:3].[1] ;;
    "a22" <~ !"m1".[2:3].[2] ;;
    "a30" <~ !"m1".[3:3].[0] ;;
    "a31" <~ !"m1".[3:3].[1] ;;
    "a32" <~ !"m1".[3:3].[2] ;;
    "b00" <~ !"m2".[0:4].[0] ;;
    "b01" <~ !"m2".[0:4].[1] ;;
    "b02" <~ !"m2".[0:4].[2] ;;
    "b03" <~ !"m2".[0:4].[3] ;;
    "b10" <~ !"m2".[1:4].[0] ;;
    "b11" <~ !"m2".[1:4].[1] ;;
    "b12" <~ !"m2".[1:4].[2] ;;
    "b13" <~ !"m2".[1:4].[3] ;;
    "b20" <~ !"m2".[2:4].[0] ;;
    "b21" <~ !"m2".[2:4].[1] ;;
    "b22" <~ !"m2".[2:4].[2] ;;
    "b23" <~ !"m2".[2:4].[3] ;;
    "dest".[0:3].[0] ::= (((("a00" * "b00") + ("a10" * "b01")) + ("a20" * "b02")) + ("a30" * "b03")) ;;
    "dest".[0:3].[1] ::= (((("a01" * "b00") + ("a11" * "b01")) + ("a21" * "b02")) + ("a31" * "b03")) ;;
    "dest".[0:3].[2] ::= (((("a02" * "b00") + ("a12" * "b01")) + ("a22" * "b02")) + ("a32" * "b03")) ;;
    "dest".[1:3].[0] ::= (((("a00" * "b10") + ("a10" * "b11")) + ("a20" * "b12")) + ("a30" * "b13")) ;;
    "dest".[1:3].[1] ::= (((("a01" * "b10") + ("a11" * "b11")) + ("a21" * "b12")) + ("a31" * "b13")) ;;
    "dest".[1:3].[2] ::= (((("a02" * "b10") + ("a12" * "b11")) + ("a22" * "b12")) + ("a32" * "b13")) ;;
    "dest".[2:3].[0] ::= (((("a00" * "b20") + ("a10" * "b21")) + ("a20" * "b22")) + ("a30" * "b23")) ;;
    "dest".[2:3].[1] ::= (((("a01" * "b20") + ("a11" * "b21")) + ("a21" * "b22")) + ("a31" * "b23")) ;;
    "dest".[2:3].[2] ::= (((("a02" * "b20") + ("a12" * "b21")) + ("a22" * "b22")) + ("a32" * "b23"))
  ).

(* mat4x3.h:132-138 *)
Definition glm_mat4x3_mulv : fundef := Fun
  [("m", None); ("v", None); ("dest", None)]
  [("v0", None); ("v1", None); ("v2", None); ("v3", None)] (
    "v0" <~ !"v".[0] ;;
    "v1" <~ !"v".[1] ;;
    "v2" <~ !"v".[2] ;;
    "v3" <~ !"v".[3] ;;
    "dest".[0] ::= ((((!"m".[0:3].[0] * "v0") + (!"m".[1:3].[0] * "v1")) + (!"m".[2:3].[0] * "v2")) + (!"m".[3:3].[0] * "v3")) ;;
    "dest".[1] ::= ((((!"m".[0:3].[1] * "v0") + (!"m".[1:3].[1] * "v1")) + (!"m".[2:3].[1] * "v2")) + (!"m".[3:3].[1] * "v3")) ;;
    "dest".[2] ::= ((((!"m".[0:3].[2] * "v0") + (!"m".[1:3].[2] * "v1")) + (!"m".[2:3].[2] * "v2")) + (!"m".[3:3].[2] * "v3"))
  ).

(* mat4x3.h:148-152 *)
Definition glm_mat4x3_transpose : fundef := Fun
  [("src", None); ("dest", None)]
  [] (
    "dest".[0:4].[0] ::= !"src".[0:3].[0] ;;
    "dest".[0:4].[1] ::= !"src".[1:3].[0] ;;
    "dest".[0:4].[2] ::= !"src".[2:3].[0] ;;
    "dest".[0:4].[3] ::= !"src".[3:3].[0] ;;
    "dest".[1:4].[0] ::= !"src".[0:3].[1] ;;
    "dest".[1:4].[1] ::= !"src".[1:3].[1] ;;
    "dest".[1:4].[2] ::= !"src".[2:3].[1] ;;
    "dest".[1:4].[3] ::= !"src".[3:3].[1] ;;
    "dest".[2:4].[0] ::= !"src".[0:3].[2] ;;
    "dest".[2:4].[1] ::= !"src".[1:3].[2] ;;
    "dest".[2:4].[2] ::= !"src".[2:3].[2] ;;
    "dest".[2:4].[3] ::= !"src".[3:3].[2]
  ).

(* mat4x3.h:162-166 *)
Definition glm_mat4x3_scale : fundef := Fun
  [("m", None); ("s", None)]
  [] (
    "m".[0:3].[0] ::= (!"m".[0:3].[0] * "s") ;;
    "m".[0:3].[1] ::= (!"m".[0:3].[1] * "s") ;;
    "m".[0:3].[2] ::= (!"m".[0:3].[2] * "s") ;;
    "m".[1:3].[0] ::= (!"m".[1:3].[0] * "s") ;;
    "m".[1:3].[1] ::= (!"m".[1:3].[1] * "s") ;;
    "m".[1:3].[2] ::= (!"m".[1:3].[2] * "s") ;;
    "m".[2:3].[0] ::= (!"m".[2:3].[0] * "s") ;;
    "m".[2:3].[1] ::= (!"m".[2:3].[1] * "s") ;;
    "m".[2:3].[2] ::= (!"m".[2:3].[2] * "s") ;;
    "m".[3:3].[0] ::= (!"m".[3:3].[0] * "s") ;;
    "m".[3:3].[1] ::= (!"m".[3:3].[1] * "s") ;;
    "m".[3:3].[2] ::= (!"m".[3:3].[2] * "s")
  ).

