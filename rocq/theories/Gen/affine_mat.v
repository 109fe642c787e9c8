(** Functions of include/cglm/affine-mat.h (configuration: scalar), written by tools/gen.py.
    The comment above each definition gives file and lines in /repo/include/cglm. *)
From Coq Require Import String List ZArith.
From Verif Require Import MiniC.
From Verif.Gen Require Import mat3 mat4 vec3.
Import ListNotations.
Open Scope string_scope.
Open Scope Z_scope.
Open Scope mc_scope.

(* affine-mat.h:56-96 *)
Definition glm_mul : fundef := Fun
  [("m1", None); ("m2", None); ("dest", None)]
  [("a00", None); ("a01", None); ("a02", None); ("a03", None); ("a10", None); ("a11", None); ("a12", None); ("a13", None); ("a20", None); ("a21", None); ("a22", None); ("a23", None); ("a30", None); ("a31", None); ("a32", None); ("a33", None); ("b00", None); ("b01", None); ("b02", None); ("b10", None); ("b11", None); ("b12", None); ("b20", None); ("b21", None); ("b22", None); ("b30", None); ("b31", None); ("b32", None); ("b33", None)] (
    "a00" <~ !"m1".[0:4].[0] ;;
    "a01" <~ !"m1".[0:4].[1] ;;
    "a02" <~ !"m1".[0:4].[2] ;;
    "a03" <~ !"m1".[0:4].[3] ;;
    "a10" <~ !"m1".[1:4].[0] ;;
    "a11" <~ !"m1".[1:4].[1] ;;
    "a12" <~ !"m1".[1:4].[2] ;;
    "a13" <~ !"m1".[1:4].[3] ;;
    "a20" <~ !"m1".[2:4].[0] ;;
    "a21" <~ !"m1".[2:4].[1] ;;
    "a22" <~ !"m1".[2:4].[2] ;;
    "a23" <~ !"m1".[2:4].[3] ;;
    "a30" <~ !"m1".[3:4].[0] ;;
    "a31" <~ !"m1".[3:4].[1] ;;
    "a32" <~ !"m1".[3:4].[2] ;;
    "a33" <~ !"m1".[3:4].[3] ;;
    "b00" <~ !"m2".[0:4].[0] ;;
    "b01" <~ !"m2".[0:4].[1] ;;
    "b02" <~ !"m2".[0:4].[2] ;;
    "b10" <~ !"m2".[1:4].[0] ;;
    "b11" <~ !"m2".[1:4].[1] ;;
    "b12" <~ !"m2".[1:4].[2] ;;
    "b20" <~ !"m2".[2:4].[0] ;;
    "b21" <~ !"m2".[2:4].[1] ;;
    "b22" <~ !"m2".[2:4].[2] ;;
    "b30" <~ !"m2".[3:4].[0] ;;
    "b31" <~ !"m2".[3:4].[1] ;;
    "b32" <~ !"m2".[3:4].[2] ;;
    "b33" <~ !"m2".[3:4].[3] ;;
    "dest".[0:4].[0] ::= ((("a00" * "b00") + ("a10" * "b01")) + ("a20" * "b02")) ;;
    "dest".[0:4].[1] ::= ((("a01" * "b00") + ("a11" * "b01")) + ("a21" * "b02")) ;;
    "dest".[0:4].[2] ::= ((("a02" * "b00") + ("a12" * "b01")) + ("a22" * "b02")) ;;
    "dest".[0:4].[3] ::= ((("a03" * "b00") + ("a13" * "b01")) + ("a23" * "b02")) ;;
    "dest".[1:4].[0] ::= ((("a00" * "b10") + ("a10" * "b11")) + ("a20" * "b12")) ;;
    "dest".[1:4].[1] ::= ((("a01" * "b10") + ("a11" * "b11")) + ("a21" * "b12")) ;;
    "dest".[1:4].[2] ::= ((("a02" * "b10") + ("a12" * "b11")) + ("a22" * "b12")) ;;
    "dest".[1:4].[3] ::= ((("a03" * "b10") + ("a13" * "b11")) + ("a23" * "b12")) ;;
    "dest".[2:4].[0] ::= ((("a00" * "b20") + ("a10" * "b21")) + ("a20" * "b22")) ;;
    "dest".[2:4].[1] ::= ((("a01" * "b20") + ("a11" * "b21")) + ("a21" * "b22")) ;;
    "dest".[2:4].[2] ::= ((("a02" * "b20") + ("a12" * "b21")) + ("a22" * "b22")) ;;
    "dest".[2:4].[3] ::= ((("a03" * "b20") + ("a13" * "b21")) + ("a23" * "b22")) ;;
    "dest".[3:4].[0] ::= (((("a00" * "b30") + ("a10" * "b31")) + ("a20" * "b32")) + ("a30" * "b33")) ;;
    "dest".[3:4].[1] ::= (((("a01" * "b30") + ("a11" * "b31")) + ("a21" * "b32")) + ("a31" * "b33")) ;;
    "dest".[3:4].[2] ::= (((("a02" * "b30") + ("a12" * "b31")) + ("a22" * "b32")) + ("a32" * "b33")) ;;
    "dest".[3:4].[3] ::= (((("a03" * "b30") + ("a13" * "b31")) + ("a23" * "b32")) + ("a33" * "b33"))
  ).

(* affine-mat.h:116-153 *)
Definition glm_mul_rot : fundef := Fun
  [("m1", None); ("m2", None); ("dest", None)]
  [("a00", None); ("a01", None); ("a02", None); ("a03", None); ("a10", None); ("a11", None); ("a12", None); ("a13", None); ("a20", None); ("a21", None); ("a22", None); ("a23", None); ("a30", None); ("a31", None); ("a32", None); ("a33", None); ("b00", None); ("b01", None); ("b02", None); ("b10", None); ("b11", None); ("b12", None); ("b20", None); ("b21", None); ("b22", None)] (
    "a00" <~ !"m1".[0:4].[0] ;;
    "a01" <~ !"m1".[0:4].[1] ;;
    "a02" <~ !"m1".[0:4].[2] ;;
    "a03" <~ !"m1".[0:4].[3] ;;
    "a10" <~ !"m1".[1:4].[0] ;;
    "a11" <~ !"m1".[1:4].[1] ;;
    "a12" <~ !"m1".[1:4].[2] ;;
    "a13" <~ !"m1".[1:4].[3] ;;
    "a20" <~ !"m1".[2:4].[0] ;;
    "a21" <~ !"m1".[2:4].[1] ;;
    "a22" <~ !"m1".[2:4].[2] ;;
    "a23" <~ !"m1".[2:4].[3] ;;
    "a30" <~ !"m1".[3:4].[0] ;;
    "a31" <~ !"m1".[3:4].[1] ;;
    "a32" <~ !"m1".[3:4].[2] ;;
    "a33" <~ !"m1".[3:4].[3] ;;
    "b00" <~ !"m2".[0:4].[0] ;;
    "b01" <~ !"m2".[0:4].[1] ;;
    "b02" <~ !"m2".[0:4].[2] ;;
    "b10" <~ !"m2".[1:4].[0] ;;
    "b11" <~ !"m2".[1:4].[1] ;;
    "b12" <~ !"m2".[1:4].[2] ;;
    "b20" <~ !"m2".[2:4].[0] ;;
    "b21" <~ !"m2".[2:4].[1] ;;
    "b22" <~ !"m2".[2:4].[2] ;;
    "dest".[0:4].[0] ::= ((("a00" * "b00") + ("a10" * "b01")) + ("a20" * "b02")) ;;
    "dest".[0:4].[1] ::= ((("a01" * "b00") + ("a11" * "b01")) + ("a21" * "b02")) ;;
    "dest".[0:4].[2] ::= ((("a02" * "b00") + ("a12" * "b01")) + ("a22" * "b02")) ;;
    "dest".[0:4].[3] ::= ((("a03" * "b00") + ("a13" * "b01")) + ("a23" * "b02")) ;;
    "dest".[1:4].[0] ::= ((("a00" * "b10") + ("a10" * "b11")) + ("a20" * "b12")) ;;
    "dest".[1:4].[1] ::= ((("a01" * "b10") + ("a11" * "b11")) + ("a21" * "b12")) ;;
    "dest".[1:4].[2] ::= ((("a02" * "b10") + ("a12" * "b11")) + ("a22" * "b12")) ;;
    "dest".[1:4].[3] ::= ((("a03" * "b10") + ("a13" * "b11")) + ("a23" * "b12")) ;;
    "dest".[2:4].[0] ::= ((("a00" * "b20") + ("a10" * "b21")) + ("a20" * "b22")) ;;
    "dest".[2:4].[1] ::= ((("a01" * "b20") + ("a11" * "b21")) + ("a21" * "b22")) ;;
    "dest".[2:4].[2] ::= ((("a02" * "b20") + ("a12" * "b21")) + ("a22" * "b22")) ;;
    "dest".[2:4].[3] ::= ((("a03" * "b20") + ("a13" * "b21")) + ("a23" * "b22")) ;;
    "dest".[3:4].[0] ::= "a30" ;;
    "dest".[3:4].[1] ::= "a31" ;;
    "dest".[3:4].[2] ::= "a32" ;;
    "dest".[3:4].[3] ::= "a33"
  ).

(* affine-mat.h:167-187 *)
Definition glm_inv_tr : fundef := Fun
  [("mat", None)]
  [("r", Some 9%nat); ("t", Some 3%nat)] (
    SExp glm_mat4_pick3t$("mat", "r") ;;
    SExp glm_mat4_ins3$("r", "mat") ;;
    SExp glm_mat3_mulv$("r", "mat".[3:4], "t") ;;
    SExp glm_vec3_negate$("t") ;;
    SExp glm_vec3_copy$("t", "mat".[3:4])
  ).

