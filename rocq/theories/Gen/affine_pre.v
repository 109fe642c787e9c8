(** Functions of include/cglm/affine-pre.h (configuration: scalar), written by tools/gen.py.
    The comment above each definition gives file and lines in /repo/include/cglm. *)
From Coq Require Import String List ZArith.
From Verif Require Import MiniC.
From Verif.Gen Require Import affine_mat affine mat4 vec3 vec4.
Import ListNotations.
Open Scope string_scope.
Open Scope Z_scope.
Open Scope mc_scope.

(* affine-pre.h:43-61 *)
Definition glm_translate : fundef := Fun
  [("m", None); ("v", None)]
  [] (
    SExp glm_vec4_muladds$("m".[0:4], !"v".[0], "m".[3:4]) ;;
    SExp glm_vec4_muladds$("m".[1:4], !"v".[1], "m".[3:4]) ;;
    SExp glm_vec4_muladds$("m".[2:4], !"v".[2], "m".[3:4])
  ).

(* affine-pre.h:75-78 *)
Definition glm_translate_to : fundef := Fun
  [("m", None); ("v", None); ("dest", None)]
  [] (
    SExp glm_mat4_copy$("m", "dest") ;;
    SExp glm_translate$("dest", "v")
  ).

(* affine-pre.h:88-96 *)
Definition glm_translate_x : fundef := Fun
  [("m", None); ("x", None)]
  [("v1", Some 4%nat)] (
    SExp glm_vec4_scale$("m".[0:4], "x", "v1") ;;
    SExp glm_vec4_add$("v1", "m".[3:4], "m".[3:4])
  ).

(* affine-pre.h:106-114 *)
Definition glm_translate_y : fundef := Fun
  [("m", None); ("y", None)]
  [("v1", Some 4%nat)] (
    SExp glm_vec4_scale$("m".[1:4], "y", "v1") ;;
    SExp glm_vec4_add$("v1", "m".[3:4], "m".[3:4])
  ).

(* affine-pre.h:124-132 *)
Definition glm_translate_z : fundef := Fun
  [("m", None); ("z", None)]
  [("v1", Some 4%nat)] (
    SExp glm_vec4_scale$("m".[2:4], "z", "v1") ;;
    SExp glm_vec4_add$("v1", "m".[3:4], "m".[3:4])
  ).

(* affine-pre.h:144-157 *)
Definition glm_rotate_x : fundef := Fun
  [("m", None); ("angle", None); ("dest", None)]
  [("t", Some 16%nat); ("c", None); ("s", None)] (
    "t".[0:4].[0] ::= (EF 1 1) ;;
    "t".[0:4].[1] ::= (EF 0 1) ;;
    "t".[0:4].[2] ::= (EF 0 1) ;;
    "t".[0:4].[3] ::= (EF 0 1) ;;
    "t".[1:4].[0] ::= (EF 0 1) ;;
    "t".[1:4].[1] ::= (EF 1 1) ;;
    "t".[1:4].[2] ::= (EF 0 1) ;;
    "t".[1:4].[3] ::= (EF 0 1) ;;
    "t".[2:4].[0] ::= (EF 0 1) ;;
    "t".[2:4].[1] ::= (EF 0 1) ;;
    "t".[2:4].[2] ::= (EF 1 1) ;;
    "t".[2:4].[3] ::= (EF 0 1) ;;
    "t".[3:4].[0] ::= (EF 0 1) ;;
    "t".[3:4].[1] ::= (EF 0 1) ;;
    "t".[3:4].[2] ::= (EF 0 1) ;;
    "t".[3:4].[3] ::= (EF 1 1) ;;
    "c" <~ builtin (PF1 OCos)$("angle") ;;
    "s" <~ builtin (PF1 OSin)$("angle") ;;
    "t".[1:4].[1] ::= "c" ;;
    "t".[1:4].[2] ::= "s" ;;
    "t".[2:4].[1] ::= (- "s") ;;
    "t".[2:4].[2] ::= "c" ;;
    SExp glm_mul_rot$("m", "t", "dest")
  ).

(* affine-pre.h:169-182 *)
Definition glm_rotate_y : fundef := Fun
  [("m", None); ("angle", None); ("dest", None)]
  [("t", Some 16%nat); ("c", None); ("s", None)] (
    "t".[0:4].[0] ::= (EF 1 1) ;;
    "t".[0:4].[1] ::= (EF 0 1) ;;
    "t".[0:4].[2] ::= (EF 0 1) ;;
    "t".[0:4].[3] ::= (EF 0 1) ;;
    "t".[1:4].[0] ::= (EF 0 1) ;;
    "t".[1:4].[1] ::= (EF 1 1) ;;
    "t".[1:4].[2] ::= (EF 0 1) ;;
    "t".[1:4].[3] ::= (EF 0 1) ;;
    "t".[2:4].[0] ::= (EF 0 1) ;;
    "t".[2:4].[1] ::= (EF 0 1) ;;
    "t".[2:4].[2] ::= (EF 1 1) ;;
    "t".[2:4].[3] ::= (EF 0 1) ;;
    "t".[3:4].[0] ::= (EF 0 1) ;;
    "t".[3:4].[1] ::= (EF 0 1) ;;
    "t".[3:4].[2] ::= (EF 0 1) ;;
    "t".[3:4].[3] ::= (EF 1 1) ;;
    "c" <~ builtin (PF1 OCos)$("angle") ;;
    "s" <~ builtin (PF1 OSin)$("angle") ;;
    "t".[0:4].[0] ::= "c" ;;
    "t".[0:4].[2] ::= (- "s") ;;
    "t".[2:4].[0] ::= "s" ;;
    "t".[2:4].[2] ::= "c" ;;
    SExp glm_mul_rot$("m", "t", "dest")
  ).

(* affine-pre.h:194-207 *)
Definition glm_rotate_z : fundef := Fun
  [("m", None); ("angle", None); ("dest", None)]
  [("t", Some 16%nat); ("c", None); ("s", None)] (
    "t".[0:4].[0] ::= (EF 1 1) ;;
    "t".[0:4].[1] ::= (EF 0 1) ;;
    "t".[0:4].[2] ::= (EF 0 1) ;;
    "t".[0:4].[3] ::= (EF 0 1) ;;
    "t".[1:4].[0] ::= (EF 0 1) ;;
    "t".[1:4].[1] ::= (EF 1 1) ;;
    "t".[1:4].[2] ::= (EF 0 1) ;;
    "t".[1:4].[3] ::= (EF 0 1) ;;
    "t".[2:4].[0] ::= (EF 0 1) ;;
    "t".[2:4].[1] ::= (EF 0 1) ;;
    "t".[2:4].[2] ::= (EF 1 1) ;;
    "t".[2:4].[3] ::= (EF 0 1) ;;
    "t".[3:4].[0] ::= (EF 0 1) ;;
    "t".[3:4].[1] ::= (EF 0 1) ;;
    "t".[3:4].[2] ::= (EF 0 1) ;;
    "t".[3:4].[3] ::= (EF 1 1) ;;
    "c" <~ builtin (PF1 OCos)$("angle") ;;
    "s" <~ builtin (PF1 OSin)$("angle") ;;
    "t".[0:4].[0] ::= "c" ;;
    "t".[0:4].[1] ::= "s" ;;
    "t".[1:4].[0] ::= (- "s") ;;
    "t".[1:4].[1] ::= "c" ;;
    SExp glm_mul_rot$("m", "t", "dest")
  ).

(* affine-pre.h:236-240 *)
Definition glm_rotate : fundef := Fun
  [("m", None); ("angle", None); ("axis", None)]
  [("rot", Some 16%nat)] (
    SExp glm_rotate_make$("rot", "angle", "axis") ;;
    SExp glm_mul_rot$("m", "rot", "m")
  ).

(* affine-pre.h:253-261 *)
Definition glm_rotate_at : fundef := Fun
  [("m", None); ("pivot", None); ("angle", None); ("axis", None)]
  [("pivotInv", Some 3%nat)] (
    SExp glm_vec3_negate_to$("pivot", "pivotInv") ;;
    SExp glm_translate$("m", "pivot") ;;
    SExp glm_rotate$("m", "angle", "axis") ;;
    SExp glm_translate$("m", "pivotInv")
  ).

(* affine-pre.h:278-286 *)
Definition glm_rotate_atm : fundef := Fun
  [("m", None); ("pivot", None); ("angle", None); ("axis", None)]
  [("pivotInv", Some 3%nat)] (
    SExp glm_vec3_negate_to$("pivot", "pivotInv") ;;
    SExp glm_translate_make$("m", "pivot") ;;
    SExp glm_rotate$("m", "angle", "axis") ;;
    SExp glm_translate$("m", "pivotInv")
  ).

(* affine-pre.h:298-302 *)
Definition glm_spin : fundef := Fun
  [("m", None); ("angle", None); ("axis", None)]
  [("rot", Some 16%nat)] (
    SExp glm_rotate_atm$("rot", "m".[3:4], "angle", "axis") ;;
    SExp glm_mat4_mul$("m", "rot", "m")
  ).

