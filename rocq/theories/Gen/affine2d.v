(** Functions of include/cglm/affine2d.h (configuration: scalar), written by tools/gen.py.
    The comment above each definition gives file and lines in /repo/include/cglm. *)
From Coq Require Import String List ZArith.
From Verif Require Import MiniC.
From Verif.Gen Require Import mat3.
Import ListNotations.
Open Scope string_scope.
Open Scope Z_scope.
Open Scope mc_scope.

(* affine2d.h:41-45 *)
Definition glm_translate2d : fundef := Fun
  [("m", None); ("v", None)]
  [] (
    "m".[2:3].[0] ::= (((!"m".[0:3].[0] * !"v".[0]) + (!"m".[1:3].[0] * !"v".[1])) + !"m".[2:3].[0]) ;;
    "m".[2:3].[1] ::= (((!"m".[0:3].[1] * !"v".[0]) + (!"m".[1:3].[1] * !"v".[1])) + !"m".[2:3].[1]) ;;
    "m".[2:3].[2] ::= (((!"m".[0:3].[2] * !"v".[0]) + (!"m".[1:3].[2] * !"v".[1])) + !"m".[2:3].[2])
  ).

(* affine2d.h:59-62 *)
Definition glm_translate2d_to : fundef := Fun
  [("m", None); ("v", None); ("dest", None)]
  [] (
    SExp glm_mat3_copy$("m", "dest") ;;
    SExp glm_translate2d$("dest", "v")
  ).

(* affine2d.h:72-76 *)
Definition glm_translate2d_x : fundef := Fun
  [("m", None); ("x", None)]
  [] (
    "m".[2:3].[0] ::= ((!"m".[0:3].[0] * "x") + !"m".[2:3].[0]) ;;
    "m".[2:3].[1] ::= ((!"m".[0:3].[1] * "x") + !"m".[2:3].[1]) ;;
    "m".[2:3].[2] ::= ((!"m".[0:3].[2] * "x") + !"m".[2:3].[2])
  ).

(* affine2d.h:86-90 *)
Definition glm_translate2d_y : fundef := Fun
  [("m", None); ("y", None)]
  [] (
    "m".[2:3].[0] ::= ((!"m".[1:3].[0] * "y") + !"m".[2:3].[0]) ;;
    "m".[2:3].[1] ::= ((!"m".[1:3].[1] * "y") + !"m".[2:3].[1]) ;;
    "m".[2:3].[2] ::= ((!"m".[1:3].[2] * "y") + !"m".[2:3].[2])
  ).

(* affine2d.h:100-104 *)
Definition glm_translate2d_make : fundef := Fun
  [("m", None); ("v", None)]
  [] (
    SExp glm_mat3_identity$("m") ;;
    "m".[2:3].[0] ::= !"v".[0] ;;
    "m".[2:3].[1] ::= !"v".[1]
  ).

(* affine2d.h:116-128 *)
Definition glm_scale2d_to : fundef := Fun
  [("m", None); ("v", None); ("dest", None)]
  [] (
    "dest".[0:3].[0] ::= (!"m".[0:3].[0] * !"v".[0]) ;;
    "dest".[0:3].[1] ::= (!"m".[0:3].[1] * !"v".[0]) ;;
    "dest".[0:3].[2] ::= (!"m".[0:3].[2] * !"v".[0]) ;;
    "dest".[1:3].[0] ::= (!"m".[1:3].[0] * !"v".[1]) ;;
    "dest".[1:3].[1] ::= (!"m".[1:3].[1] * !"v".[1]) ;;
    "dest".[1:3].[2] ::= (!"m".[1:3].[2] * !"v".[1]) ;;
    "dest".[2:3].[0] ::= !"m".[2:3].[0] ;;
    "dest".[2:3].[1] ::= !"m".[2:3].[1] ;;
    "dest".[2:3].[2] ::= !"m".[2:3].[2]
  ).

(* affine2d.h:138-142 *)
Definition glm_scale2d_make : fundef := Fun
  [("m", None); ("v", None)]
  [] (
    SExp glm_mat3_identity$("m") ;;
    "m".[0:3].[0] ::= !"v".[0] ;;
    "m".[1:3].[1] ::= !"v".[1]
  ).

(* affine2d.h:153-161 *)
Definition glm_scale2d : fundef := Fun
  [("m", None); ("v", None)]
  [] (
    "m".[0:3].[0] ::= (!"m".[0:3].[0] * !"v".[0]) ;;
    "m".[0:3].[1] ::= (!"m".[0:3].[1] * !"v".[0]) ;;
    "m".[0:3].[2] ::= (!"m".[0:3].[2] * !"v".[0]) ;;
    "m".[1:3].[0] ::= (!"m".[1:3].[0] * !"v".[1]) ;;
    "m".[1:3].[1] ::= (!"m".[1:3].[1] * !"v".[1]) ;;
    "m".[1:3].[2] ::= (!"m".[1:3].[2] * !"v".[1])
  ).

(* affine2d.h:172-180 *)
Definition glm_scale2d_uni : fundef := Fun
  [("m", None); ("s", None)]
  [] (
    "m".[0:3].[0] ::= (!"m".[0:3].[0] * "s") ;;
    "m".[0:3].[1] ::= (!"m".[0:3].[1] * "s") ;;
    "m".[0:3].[2] ::= (!"m".[0:3].[2] * "s") ;;
    "m".[1:3].[0] ::= (!"m".[1:3].[0] * "s") ;;
    "m".[1:3].[1] ::= (!"m".[1:3].[1] * "s") ;;
    "m".[1:3].[2] ::= (!"m".[1:3].[2] * "s")
  ).

(* affine2d.h:190-207 *)
Definition glm_rotate2d_make : fundef := Fun
  [("m", None); ("angle", None)]
  [("c", None); ("s", None)] (
    "s" <~ builtin (PF1 OSin)$("angle") ;;
    "c" <~ builtin (PF1 OCos)$("angle") ;;
    "m".[0:3].[0] ::= "c" ;;
    "m".[0:3].[1] ::= "s" ;;
    "m".[0:3].[2] ::= (ECast TyF (EI 0)) ;;
    "m".[1:3].[0] ::= (- "s") ;;
    "m".[1:3].[1] ::= "c" ;;
    "m".[1:3].[2] ::= (ECast TyF (EI 0)) ;;
    "m".[2:3].[0] ::= (EF 0 1) ;;
    "m".[2:3].[1] ::= (EF 0 1) ;;
    "m".[2:3].[2] ::= (EF 1 1)
  ).

(* affine2d.h:218-234 *)
Definition glm_rotate2d : fundef := Fun
  [("m", None); ("angle", None)]
  [("m00", None); ("m10", None); ("m01", None); ("m11", None); ("m02", None); ("m12", None); ("c", None); ("s", None)] (
    "m00" <~ !"m".[0:3].[0] ;;
    "m10" <~ !"m".[1:3].[0] ;;
    "m01" <~ !"m".[0:3].[1] ;;
    "m11" <~ !"m".[1:3].[1] ;;
    "m02" <~ !"m".[0:3].[2] ;;
    "m12" <~ !"m".[1:3].[2] ;;
    "s" <~ builtin (PF1 OSin)$("angle") ;;
    "c" <~ builtin (PF1 OCos)$("angle") ;;
    "m".[0:3].[0] ::= (("m00" * "c") + ("m10" * "s")) ;;
    "m".[0:3].[1] ::= (("m01" * "c") + ("m11" * "s")) ;;
    "m".[0:3].[2] ::= (("m02" * "c") + ("m12" * "s")) ;;
    "m".[1:3].[0] ::= (("m00" * (- "s")) + ("m10" * "c")) ;;
    "m".[1:3].[1] ::= (("m01" * (- "s")) + ("m11" * "c")) ;;
    "m".[1:3].[2] ::= (("m02" * (- "s")) + ("m12" * "c"))
  ).

(* affine2d.h:246-266 *)
Definition glm_rotate2d_to : fundef := Fun
  [("m", None); ("angle", None); ("dest", None)]
  [("m00", None); ("m10", None); ("m01", None); ("m11", None); ("m02", None); ("m12", None); ("c", None); ("s", None)] (
    "m00" <~ !"m".[0:3].[0] ;;
    "m10" <~ !"m".[1:3].[0] ;;
    "m01" <~ !"m".[0:3].[1] ;;
    "m11" <~ !"m".[1:3].[1] ;;
    "m02" <~ !"m".[0:3].[2] ;;
    "m12" <~ !"m".[1:3].[2] ;;
    "s" <~ builtin (PF1 OSin)$("angle") ;;
    "c" <~ builtin (PF1 OCos)$("angle") ;;
    "dest".[0:3].[0] ::= (("m00" * "c") + ("m10" * "s")) ;;
    "dest".[0:3].[1] ::= (("m01" * "c") + ("m11" * "s")) ;;
    "dest".[0:3].[2] ::= (("m02" * "c") + ("m12" * "s")) ;;
    "dest".[1:3].[0] ::= (("m00" * (- "s")) + ("m10" * "c")) ;;
    "dest".[1:3].[1] ::= (("m01" * (- "s")) + ("m11" * "c")) ;;
    "dest".[1:3].[2] ::= (("m02" * (- "s")) + ("m12" * "c")) ;;
    "dest".[2:3].[0] ::= !"m".[2:3].[0] ;;
    "dest".[2:3].[1] ::= !"m".[2:3].[1] ;;
    "dest".[2:3].[2] ::= !"m".[2:3].[2]
  ).

