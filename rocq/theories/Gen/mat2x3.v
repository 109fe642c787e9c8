(** Functions of include/cglm/mat2x3.h (configuration: scalar), written by tools/gen.py.
    The comment above each definition gives file and lines in /repo/include/cglm. *)
From Coq Require Import String List ZArith.
From Verif Require Import MiniC.
From Verif.Gen Require Import vec3.
Import ListNotations.
Open Scope string_scope.
Open Scope Z_scope.
Open Scope mc_scope.

(* mat2x3.h:41-44 *)
Definition glm_mat2x3_copy : fundef := Fun
  [("src", None); ("dest", None)]
  [] (
    SExp glm_vec3_copy$("src".[0:3], "dest".[0:3]) ;;
    SExp glm_vec3_copy$("src".[1:3], "dest".[1:3])
  ).

(* mat2x3.h:53-56 *)
Definition glm_mat2x3_zero : fundef := Fun
  [("m", None)]
  [("t", Some 6%nat)] (
    "t".[0:3].[0] ::= (EF 0 1) ;;
    "t".[0:3].[1] ::= (EF 0 1) ;;
    "t".[0:3].[2] ::= (EF 0 1) ;;
    "t".[1:3].[0] ::= (EF 0 1) ;;
    "t".[1:3].[1] ::= (EF 0 1) ;;
    "t".[1:3].[2] ::= (EF 0 1) ;;
    SExp glm_mat2x3_copy$("t", "m")
  ).

(* mat2x3.h:66-74 *)
Definition glm_mat2x3_make : fundef := Fun
  [("src", None); ("dest", None)]
  [] (
    "dest".[0:3].[0] ::= !"src".[0] ;;
    "dest".[0:3].[1] ::= !"src".[1] ;;
    "dest".[0:3].[2] ::= !"src".[2] ;;
    "dest".[1:3].[0] ::= !"src".[3] ;;
    "dest".[1:3].[1] ::= !"src".[4] ;;
    "dest".[1:3].[2] ::= !"src".[5]
  ).

(* mat2x3.h:89-108 *)
Definition glm_mat2x3_mul : fundef := Fun
  [("m1", None); ("m2", None); ("dest", None)]
  [("a00", None); ("a01", None); ("a02", None); ("a10", None); ("a11", None); ("a12", None); ("b00", None); ("b01", None); ("b10", None); ("b11", None); ("b20", None); ("b21", None)] (
    "a00" <~ !"m1".[0:3].[0] ;;
    "a01" <~ !"m1".[0:3].[1] ;;
    "a02" <~ !"m1".[0:3].[2] ;;
    "a10" <~ !"m1".[1:3].[0] ;;
    "a11" <~ !"m1".[1:3].[1] ;;
    "a12" <~ !"m1".[1:3].[2] ;;
    "b00" <~ !"m2".[0:2].[0] ;;
    "b01" <~ !"m2".[0:2].[1] ;;
    "b10" <~ !"m2".[1:2].[0] ;;
    "b11" <~ !"m2".[1:2].[1] ;;
    "b20" <~ !"m2".[2:2].[0] ;;
    "b21" <~ !"m2".[2:2].[1] ;;
    "dest".[0:3].[0] ::= (("a00" * "b00") + ("a10" * "b01")) ;;
    "dest".[0:3].[1] ::= (("a01" * "b00") + ("a11" * "b01")) ;;
    "dest".[0:3].[2] ::= (("a02" * "b00") + ("a12" * "b01")) ;;
    "dest".[1:3].[0] ::= (("a00" * "b10") + ("a10" * "b11")) ;;
    "dest".[1:3].[1] ::= (("a01" * "b10") + ("a11" * "b11")) ;;
    "dest".[1:3].[2] ::= (("a02" * "b10") + ("a12" * "b11")) ;;
    "dest".[2:3].[0] ::= (("a00" * "b20") + ("a10" * "b21")) ;;
    "dest".[2:3].[1] ::= (("a01" * "b20") + ("a11" * "b21")) ;;
    "dest".[2:3].[2] ::= (("a02" * "b20") + ("a12" * "b21"))
  ).

(* mat2x3.h:119-125 *)
Definition glm_mat2x3_mulv : fundef := Fun
  [("m", None); ("v", None); ("dest", None)]
  [("v0", None); ("v1", None)] (
    "v0" <~ !"v".[0] ;;
    "v1" <~ !"v".[1] ;;
    "dest".[0] ::= ((!"m".[0:3].[0] * "v0") + (!"m".[1:3].[0] * "v1")) ;;
    "dest".[1] ::= ((!"m".[0:3].[1] * "v0") + (!"m".[1:3].[1] * "v1")) ;;
    "dest".[2] ::= ((!"m".[0:3].[2] * "v0") + (!"m".[1:3].[2] * "v1"))
  ).

(* mat2x3.h:135-139 *)
Definition glm_mat2x3_transpose : fundef := Fun
  [("src", None); ("dest", None)]
  [] (
    "dest".[0:2].[0] ::= !"src".[0:3].[0] ;;
    "dest".[0:2].[1] ::= !"src".[1:3].[0] ;;
    "dest".[1:2].[0] ::= !"src".[0:3].[1] ;;
    "dest".[1:2].[1] ::= !"src".[1:3].[1] ;;
    "dest".[2:2].[0] ::= !"src".[0:3].[2] ;;
    "dest".[2:2].[1] ::= !"src".[1:3].[2]
  ).

(* mat2x3.h:149-152 *)
Definition glm_mat2x3_scale : fundef := Fun
  [("m", None); ("s", None)]
  [] (
    "m".[0:3].[0] ::= (!"m".[0:3].[0] * "s") ;;
    "m".[0:3].[1] ::= (!"m".[0:3].[1] * "s") ;;
    "m".[0:3].[2] ::= (!"m".[0:3].[2] * "s") ;;
    "m".[1:3].[0] ::= (!"m".[1:3].[0] * "s") ;;
    "m".[1:3].[1] ::= (!"m".[1:3].[1] * "s") ;;
    "m".[1:3].[2] ::= (!"m".[1:3].[2] * "s")
  ).

