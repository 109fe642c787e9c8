(** Functions of include/cglm/mat2x4.h (configuration: scalar), written by tools/gen.py.
    The comment above each definition gives file and lines in /repo/include/cglm. *)
From Coq Require Import String List ZArith.
From Verif Require Import MiniC.
From Verif.Gen Require Import vec4.
Import ListNotations.
Open Scope string_scope.
Open Scope Z_scope.
Open Scope mc_scope.

(* mat2x4.h:42-45 *)
Definition glm_mat2x4_copy : fundef := Fun
  [("src", None); ("dest", None)]
  [] (
    SExp glm_vec4_ucopy$("src".[0:4], "dest".[0:4]) ;;
    SExp glm_vec4_ucopy$("src".[1:4], "dest".[1:4])
  ).

(* mat2x4.h:54-57 *)
Definition glm_mat2x4_zero : fundef := Fun
  [("m", None)]
  [("t", Some 8%nat)] (
    "t".[0:4].[0] ::= (EF 0 1) ;;
    "t".[0:4].[1] ::= (EF 0 1) ;;
    "t".[0:4].[2] ::= (EF 0 1) ;;
    "t".[0:4].[3] ::= (EF 0 1) ;;
    "t".[1:4].[0] ::= (EF 0 1) ;;
    "t".[1:4].[1] ::= (EF 0 1) ;;
    "t".[1:4].[2] ::= (EF 0 1) ;;
    "t".[1:4].[3] ::= (EF 0 1) ;;
    SExp glm_mat2x4_copy$("t", "m")
  ).

(* mat2x4.h:67-77 *)
Definition glm_mat2x4_make : fundef := Fun
  [("src", None); ("dest", None)]
  [] (
    "dest".[0:4].[0] ::= !"src".[0] ;;
    "dest".[0:4].[1] ::= !"src".[1] ;;
    "dest".[0:4].[2] ::= !"src".[2] ;;
    "dest".[0:4].[3] ::= !"src".[3] ;;
    "dest".[1:4].[0] ::= !"src".[4] ;;
    "dest".[1:4].[1] ::= !"src".[5] ;;
    "dest".[1:4].[2] ::= !"src".[6] ;;
    "dest".[1:4].[3] ::= !"src".[7]
  ).

(* mat2x4.h:92-120 *)
Definition glm_mat2x4_mul : fundef := Fun
  [("m1", None); ("m2", None); ("dest", None)]
  [("a00", None); ("a01", None); ("a02", None); ("a03", None); ("a10", None); ("a11", None); ("a12", None); ("a13", None); ("b00", None); ("b01", None); ("b10", None); ("b11", None); ("b20", None); ("b21", None); ("b30", None); ("b31", None)] (
    "a00" <~ !"m1".[0:4].[0] ;;
    "a01" <~ !"m1".[0:4].[1] ;;
    "a02" <~ !"m1".[0:4].[2] ;;
    "a03" <~ !"m1".[0:4].[3] ;;
    "a10" <~ !"m1".[1:4].[0] ;;
    "a11" <~ !"m1".[1:4].[1] ;;
    "a12" <~ !"m1".[1:4].[2] ;;
    "a13" <~ !"m1".[1:4].[3] ;;
    "b00" <~ !"m2".[0:2].[0] ;;
    "b01" <~ !"m2".[0:2].[1] ;;
    "b10" <~ !"m2".[1:2].[0] ;;
    "b11" <~ !"m2".[1:2].[1] ;;
    "b20" <~ !"m2".[2:2].[0] ;;
    "b21" <~ !"m2".[2:2].[1] ;;
    "b30" <~ !"m2".[3:2].[0] ;;
    "b31" <~ !"m2".[3:2].[1] ;;
    "dest".[0:4].[0] ::= (("a00" * "b00") + ("a10" * "b01")) ;;
    "dest".[0:4].[1] ::= (("a01" * "b00") + ("a11" * "b01")) ;;
    "dest".[0:4].[2] ::= (("a02" * "b00") + ("a12" * "b01")) ;;
    "dest".[0:4].[3] ::= (("a03" * "b00") + ("a13" * "b01")) ;;
    "dest".[1:4].[0] ::= (("a00" * "b10") + ("a10" * "b11")) ;;
    "dest".[1:4].[1] ::= (("a01" * "b10") + ("a11" * "b11")) ;;
    "dest".[1:4].[2] ::= (("a02" * "b10") + ("a12" * "b11")) ;;
    "dest".[1:4].[3] ::= (("a03" * "b10") + ("a13" * "b11")) ;;
    "dest".[2:4].[0] ::= (("a00" * "b20") + ("a10" * "b21")) ;;
    "dest".[2:4].[1] ::= (("a01" * "b20") + ("a11" * "b21")) ;;
    "dest".[2:4].[2] ::= (("a02" * "b20") + ("a12" * "b21")) ;;
    "dest".[2:4].[3] ::= (("a03" * "b20") + ("a13" * "b21")) ;;
    "dest".[3:4].[0] ::= (("a00" * "b30") + ("a10" * "b31")) ;;
    "dest".[3:4].[1] ::= (("a01" * "b30") + ("a11" * "b31")) ;;
    "dest".[3:4].[2] ::= (("a02" * "b30") + ("a12" * "b31")) ;;
    "dest".[3:4].[3] ::= (("a03" * "b30") + ("a13" * "b31"))
  ).

(* mat2x4.h:131-138 *)
Definition glm_mat2x4_mulv : fundef := Fun
  [("m", None); ("v", None); ("dest", None)]
  [("v0", None); ("v1", None)] (
    "v0" <~ !"v".[0] ;;
    "v1" <~ !"v".[1] ;;
    "dest".[0] ::= ((!"m".[0:4].[0] * "v0") + (!"m".[1:4].[0] * "v1")) ;;
    "dest".[1] ::= ((!"m".[0:4].[1] * "v0") + (!"m".[1:4].[1] * "v1")) ;;
    "dest".[2] ::= ((!"m".[0:4].[2] * "v0") + (!"m".[1:4].[2] * "v1")) ;;
    "dest".[3] ::= ((!"m".[0:4].[3] * "v0") + (!"m".[1:4].[3] * "v1"))
  ).

(* mat2x4.h:148-153 *)
Definition glm_mat2x4_transpose : fundef := Fun
  [("src", None); ("dest", None)]
  [] (
    "dest".[0:2].[0] ::= !"src".[0:4].[0] ;;
    "dest".[0:2].[1] ::= !"src".[1:4].[0] ;;
    "dest".[1:2].[0] ::= !"src".[0:4].[1] ;;
    "dest".[1:2].[1] ::= !"src".[1:4].[1] ;;
    "dest".[2:2].[0] ::= !"src".[0:4].[2] ;;
    "dest".[2:2].[1] ::= !"src".[1:4].[2] ;;
    "dest".[3:2].[0] ::= !"src".[0:4].[3] ;;
    "dest".[3:2].[1] ::= !"src".[1:4].[3]
  ).

(* mat2x4.h:163-166 *)
Definition glm_mat2x4_scale : fundef := Fun
  [("m", None); ("s", None)]
  [] (
    "m".[0:4].[0] ::= (!"m".[0:4].[0] * "s") ;;
    "m".[0:4].[1] ::= (!"m".[0:4].[1] * "s") ;;
    "m".[0:4].[2] ::= (!"m".[0:4].[2] * "s") ;;
    "m".[0:4].[3] ::= (!"m".[0:4].[3] * "s") ;;
    "m".[1:4].[0] ::= (!"m".[1:4].[0] * "s") ;;
    "m".[1:4].[1] ::= (!"m".[1:4].[1] * "s") ;;
    "m".[1:4].[2] ::= (!"m".[1:4].[2] * "s") ;;
    "m".[1:4].[3] ::= (!"m".[1:4].[3] * "s")
  ).

