(** Functions of include/cglm/affine2d-post.h (configuration: scalar), written by tools/gen.py.
    The comment above each definition gives file and lines in /repo/include/cglm. *)
From Coq Require Import String List ZArith.
From Verif Require Import MiniC.
From Verif.Gen Require Import vec2.
Import ListNotations.
Open Scope string_scope.
Open Scope Z_scope.
Open Scope mc_scope.

(* affine2d-post.h:34-36 *)
Definition glm_translated2d : fundef := Fun
  [("m", None); ("v", None)]
  [] (
    SExp glm_vec2_add$("m".[2:3], "v", "m".[2:3])
  ).

(* affine2d-post.h:48-50 *)
Definition glm_translated2d_x : fundef := Fun
  [("m", None); ("x", None)]
  [] (
    "m".[2:3].[0] ::= (!"m".[2:3].[0] + "x")
  ).

(* affine2d-post.h:62-64 *)
Definition glm_translated2d_y : fundef := Fun
  [("m", None); ("y", None)]
  [] (
    "m".[2:3].[1] ::= (!"m".[2:3].[1] + "y")
  ).

(* affine2d-post.h:76-90 *)
Definition glm_rotated2d : fundef := Fun
  [("m", None); ("angle", None)]
  [("c", None); ("s", None); ("m00", None); ("m10", None); ("m20", None); ("m01", None); ("m11", None); ("m21", None)] (
    "c" <~ builtin (PF1 OCos)$("angle") ;;
    "s" <~ builtin (PF1 OSin)$("angle") ;;
    "m00" <~ !"m".[0:3].[0] ;;
    "m10" <~ !"m".[1:3].[0] ;;
    "m20" <~ !"m".[2:3].[0] ;;
    "m01" <~ !"m".[0:3].[1] ;;
    "m11" <~ !"m".[1:3].[1] ;;
    "m21" <~ !"m".[2:3].[1] ;;
    "m".[0:3].[0] ::= (("c" * "m00") - ("s" * "m01")) ;;
    "m".[1:3].[0] ::= (("c" * "m10") - ("s" * "m11")) ;;
    "m".[2:3].[0] ::= (("c" * "m20") - ("s" * "m21")) ;;
    "m".[0:3].[1] ::= (("s" * "m00") + ("c" * "m01")) ;;
    "m".[1:3].[1] ::= (("s" * "m10") + ("c" * "m11")) ;;
    "m".[2:3].[1] ::= (("s" * "m20") + ("c" * "m21"))
  ).

(* affine2d-post.h:102-110 *)
Definition glm_scaled2d : fundef := Fun
  [("m", None); ("v", None)]
  [] (
    "m".[0:3].[0] ::= (!"m".[0:3].[0] * !"v".[0]) ;;
    "m".[1:3].[0] ::= (!"m".[1:3].[0] * !"v".[0]) ;;
    "m".[2:3].[0] ::= (!"m".[2:3].[0] * !"v".[0]) ;;
    "m".[0:3].[1] ::= (!"m".[0:3].[1] * !"v".[1]) ;;
    "m".[1:3].[1] ::= (!"m".[1:3].[1] * !"v".[1]) ;;
    "m".[2:3].[1] ::= (!"m".[2:3].[1] * !"v".[1])
  ).

(* affine2d-post.h:122-130 *)
Definition glm_scaled2d_uni : fundef := Fun
  [("m", None); ("s", None)]
  [] (
    "m".[0:3].[0] ::= (!"m".[0:3].[0] * "s") ;;
    "m".[1:3].[0] ::= (!"m".[1:3].[0] * "s") ;;
    "m".[2:3].[0] ::= (!"m".[2:3].[0] * "s") ;;
    "m".[0:3].[1] ::= (!"m".[0:3].[1] * "s") ;;
    "m".[1:3].[1] ::= (!"m".[1:3].[1] * "s") ;;
    "m".[2:3].[1] ::= (!"m".[2:3].[1] * "s")
  ).

