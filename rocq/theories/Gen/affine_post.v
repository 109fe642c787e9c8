(** Functions of include/cglm/affine-post.h (configuration: scalar), written by tools/gen.py.
    The comment above each definition gives file and lines in /repo/include/cglm. *)
From Coq Require Import String List ZArith.
From Verif Require Import MiniC.
From Verif.Gen Require Import affine_mat affine_pre affine mat4 vec3.
Import ListNotations.
Open Scope string_scope.
Open Scope Z_scope.
Open Scope mc_scope.

(* affine-post.h:44-46 *)
Definition glm_translated : fundef := Fun
  [("m", None); ("v", None)]
  [] (
    SExp glm_vec3_add$("m".[3:4], "v", "m".[3:4])
  ).

(* affine-post.h:62-65 *)
Definition glm_translated_to : fundef := Fun
  [("m", None); ("v", None); ("dest", None)]
  [] (
    SExp glm_mat4_copy$("m", "dest") ;;
    SExp glm_translated$("dest", "v")
  ).

(* affine-post.h:77-79 *)
Definition glm_translated_x : fundef := Fun
  [("m", None); ("x", None)]
  [] (
    "m".[3:4].[0] ::= (!"m".[3:4].[0] + "x")
  ).

(* affine-post.h:91-93 *)
Definition glm_translated_y : fundef := Fun
  [("m", None); ("y", None)]
  [] (
    "m".[3:4].[1] ::= (!"m".[3:4].[1] + "y")
  ).

(* affine-post.h:105-107 *)
Definition glm_translated_z : fundef := Fun
  [("m", None); ("z", None)]
  [] (
    "m".[3:4].[2] ::= (!"m".[3:4].[2] + "z")
  ).

(* affine-post.h:121-134 *)
Definition glm_rotated_x : fundef := Fun
  [("m", None); ("angle", None); ("dest", None)]
  [("t", Some 16%nat); ("c", None); ("s", None)] (
    "t".[0:4].[0] ::= (EF 1 1) ;;
    "t".[0:4].[1] ::= (EF 0 1) ;;
    "t".[0:4].[2] ::= (EF 0 1) ;;
    "t".[0:4].[3] ::= (EF 0 1) ;;
    "t".[1:4].[0] ::= (EF 0 1) ;;
    "t".[1:4].[1] ::= (EF 1 1) ;;
    "t".[1:4].[2] ::= (EF 0 1) ;;
    "t".[1:4].[3] ::= (EF 0 1) ;;
    "t".[2:4].[0] ::= (EF 0 1) ;;
    "t".[2:4].[1] ::= (EF 0 1) ;;
    "t".[2:4].[2] ::= (EF 1 1) ;;
    "t".[2:4].[3] ::= (EF 0 1) ;;
    "t".[3:4].[0] ::= (EF 0 1) ;;
    "t".[3:4].[1] ::= (EF 0 1) ;;
    "t".[3:4].[2] ::= (EF 0 1) ;;
    "t".[3:4].[3] ::= (EF 1 1) ;;
    "c" <~ builtin (PF1 OCos)$("angle") ;;
    "s" <~ builtin (PF1 OSin)$("angle") ;;
    "t".[1:4].[1] ::= "c" ;;
    "t".[1:4].[2] ::= "s" ;;
    "t".[2:4].[1] ::= (- "s") ;;
    "t".[2:4].[2] ::= "c" ;;
    SExp glm_mul_rot$("t", "m", "dest")
  ).

(* affine-post.h:148-161 *)
Definition glm_rotated_y : fundef := Fun
  [("m", None); ("angle", None); ("dest", None)]
  [("t", Some 16%nat); ("c", None); ("s", None)] (
    "t".[0:4].[0] ::= (EF 1 1) ;;
    "t".[0:4].[1] ::= (EF 0 1) ;;
    "t".[0:4].[2] ::= (EF 0 1) ;;
    "t".[0:4].[3] ::= (EF 0 1) ;;
    "t".[1:4].[0] ::= (EF 0 1) ;;
    "t".[1:4].[1] ::= (EF 1 1) ;;
    "t".[1:4].[2] ::= (EF 0 1) ;;
    "t".[1:4].[3] ::= (EF 0 1) ;;
    "t".[2:4].[0] ::= (EF 0 1) ;;
    "t".[2:4].[1] ::= (EF 0 1) ;;
    "t".[2:4].[2] ::= (EF 1 1) ;;
    "t".[2:4].[3] ::= (EF 0 1) ;;
    "t".[3:4].[0] ::= (EF 0 1) ;;
    "t".[3:4].[1] ::= (EF 0 1) ;;
    "t".[3:4].[2] ::= (EF 0 1) ;;
    "t".[3:4].[3] ::= (EF 1 1) ;;
    "c" <~ builtin (PF1 OCos)$("angle") ;;
    "s" <~ builtin (PF1 OSin)$("angle") ;;
    "t".[0:4].[0] ::= "c" ;;
    "t".[0:4].[2] ::= (- "s") ;;
    "t".[2:4].[0] ::= "s" ;;
    "t".[2:4].[2] ::= "c" ;;
    SExp glm_mul_rot$("t", "m", "dest")
  ).

(* affine-post.h:175-188 *)
Definition glm_rotated_z : fundef := Fun
  [("m", None); ("angle", None); ("dest", None)]
  [("t", Some 16%nat); ("c", None); ("s", None)] (
    "t".[0:4].[0] ::= (EF 1 1) ;;
    "t".[0:4].[1] ::= (EF 0 1) ;;
    "t".[0:4].[2] ::= (EF 0 1) ;;
    "t".[0:4].[3] ::= (EF 0 1) ;;
    "t".[1:4].[0] ::= (EF 0 1) ;;
    "t".[1:4].[1] ::= (EF 1 1) ;;
    "t".[1:4].[2] ::= (EF 0 1) ;;
    "t".[1:4].[3] ::= (EF 0 1) ;;
    "t".[2:4].[0] ::= (EF 0 1) ;;
    "t".[2:4].[1] ::= (EF 0 1) ;;
    "t".[2:4].[2] ::= (EF 1 1) ;;
    "t".[2:4].[3] ::= (EF 0 1) ;;
    "t".[3:4].[0] ::= (EF 0 1) ;;
    "t".[3:4].[1] ::= (EF 0 1) ;;
    "t".[3:4].[2] ::= (EF 0 1) ;;
    "t".[3:4].[3] ::= (EF 1 1) ;;
    "c" <~ builtin (PF1 OCos)$("angle") ;;
    "s" <~ builtin (PF1 OSin)$("angle") ;;
    "t".[0:4].[0] ::= "c" ;;
    "t".[0:4].[1] ::= "s" ;;
    "t".[1:4].[0] ::= (- "s") ;;
    "t".[1:4].[1] ::= "c" ;;
    SExp glm_mul_rot$("t", "m", "dest")
  ).

(* affine-post.h:201-205 *)
Definition glm_rotated : fundef := Fun
  [("m", None); ("angle", None); ("axis", None)]
  [("rot", Some 16%nat)] (
    SExp glm_rotate_make$("rot", "angle", "axis") ;;
    SExp glm_mul_rot$("rot", "m", "m")
  ).

(* affine-post.h:220-228 *)
Definition glm_rotated_at : fundef := Fun
  [("m", None); ("pivot", None); ("angle", None); ("axis", None)]
  [("pivotInv", Some 3%nat)] (
    SExp glm_vec3_negate_to$("pivot", "pivotInv") ;;
    SExp glm_translated$("m", "pivot") ;;
    SExp glm_rotated$("m", "angle", "axis") ;;
    SExp glm_translated$("m", "pivotInv")
  ).

(* affine-post.h:241-245 *)
Definition glm_spinned : fundef := Fun
  [("m", None); ("angle", None); ("axis", None)]
  [("rot", Some 16%nat)] (
    SExp glm_rotate_atm$("rot", "m".[3:4], "angle", "axis") ;;
    SExp glm_mat4_mul$("rot", "m", "m")
  ).

