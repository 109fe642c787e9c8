(** Functions of include/cglm/affine.h (configuration: scalar), written by tools/gen.py.
    The comment above each definition gives file and lines in /repo/include/cglm. *)
From Coq Require Import String List ZArith.
From Verif Require Import MiniC.
From Verif.Gen Require Import mat4 vec3_ext vec3 vec4.
Import ListNotations.
Open Scope string_scope.
Open Scope Z_scope.
Open Scope mc_scope.

(* affine.h:52-55 *)
Definition glm_translate_make : fundef := Fun
  [("m", None); ("v", None)]
  [] (
    SExp glm_mat4_identity$("m") ;;
    SExp glm_vec3_copy$("v", "m".[3:4])
  ).

(* affine.h:67-73 *)
Definition glm_scale_to : fundef := Fun
  [("m", None); ("v", None); ("dest", None)]
  [] (
    SExp glm_vec4_scale$("m".[0:4], !"v".[0], "dest".[0:4]) ;;
    SExp glm_vec4_scale$("m".[1:4], !"v".[1], "dest".[1:4]) ;;
    SExp glm_vec4_scale$("m".[2:4], !"v".[2], "dest".[2:4]) ;;
    SExp glm_vec4_copy$("m".[3:4], "dest".[3:4])
  ).

(* affine.h:83-88 *)
Definition glm_scale_make : fundef := Fun
  [("m", None); ("v", None)]
  [] (
    SExp glm_mat4_identity$("m") ;;
    "m".[0:4].[0] ::= !"v".[0] ;;
    "m".[1:4].[1] ::= !"v".[1] ;;
    "m".[2:4].[2] ::= !"v".[2]
  ).

(* affine.h:99-101 *)
Definition glm_scale : fundef := Fun
  [("m", None); ("v", None)]
  [] (
    SExp glm_scale_to$("m", "v", "m")
  ).

(* affine.h:112-115 *)
Definition glm_scale_uni : fundef := Fun
  [("m", None); ("s", None)]
  [("v", Some 3%nat)] (
    "v".[0] ::= "s" ;;
    "v".[1] ::= "s" ;;
    "v".[2] ::= "s" ;;
    SExp glm_scale_to$("m", "v", "m")
  ).

(* affine.h:128-148 *)
Definition glm_rotate_make : fundef := Fun
  [("m", None); ("angle", None); ("axis", None)]
  [("axisn", Some 3%nat); ("v", Some 3%nat); ("vs", Some 3%nat); ("c", None)] (
    "c" <~ builtin (PF1 OCos)$("angle") ;;
    SExp glm_vec3_normalize_to$("axis", "axisn") ;;
    SExp glm_vec3_scale$("axisn", ((EF 1 1) - "c"), "v") ;;
    SExp glm_vec3_scale$("axisn", builtin (PF1 OSin)$("angle"), "vs") ;;
    SExp glm_vec3_scale$("axisn", !"v".[0], "m".[0:4]) ;;
    SExp glm_vec3_scale$("axisn", !"v".[1], "m".[1:4]) ;;
    SExp glm_vec3_scale$("axisn", !"v".[2], "m".[2:4]) ;;
    "m".[0:4].[0] ::= (!"m".[0:4].[0] + "c") ;;
    "m".[1:4].[0] ::= (!"m".[1:4].[0] - !"vs".[2]) ;;
    "m".[2:4].[0] ::= (!"m".[2:4].[0] + !"vs".[1]) ;;
    "m".[0:4].[1] ::= (!"m".[0:4].[1] + !"vs".[2]) ;;
    "m".[1:4].[1] ::= (!"m".[1:4].[1] + "c") ;;
    "m".[2:4].[1] ::= (!"m".[2:4].[1] - !"vs".[0]) ;;
    "m".[0:4].[2] ::= (!"m".[0:4].[2] - !"vs".[1]) ;;
    "m".[1:4].[2] ::= (!"m".[1:4].[2] + !"vs".[0]) ;;
    "m".[2:4].[2] ::= (!"m".[2:4].[2] + "c") ;;
    "m".[3:4].[2] ::= (EF 0 1) ;;
    "m".[3:4].[1] ::= !"m".[3:4].[2] ;;
    "m".[3:4].[0] ::= !"m".[3:4].[1] ;;
    "m".[2:4].[3] ::= !"m".[3:4].[0] ;;
    "m".[1:4].[3] ::= !"m".[2:4].[3] ;;
    "m".[0:4].[3] ::= !"m".[1:4].[3] ;;
    "m".[3:4].[3] ::= (EF 1 1)
  ).

(* affine.h:158-162 *)
Definition glm_decompose_scalev : fundef := Fun
  [("m", None); ("s", None)]
  [] (
    "s".[0] ::= glm_vec3_norm$("m".[0:4]) ;;
    "s".[1] ::= glm_vec3_norm$("m".[1:4]) ;;
    "s".[2] ::= glm_vec3_norm$("m".[2:4])
  ).

(* affine.h:174-178 *)
Definition glm_uniscaled : fundef := Fun
  [("m", None)]
  [("s", Some 3%nat)] (
    SExp glm_decompose_scalev$("m", "s") ;;
    SRet glm_vec3_eq_all$("s")
  ).

(* affine.h:190-217 *)
Definition glm_decompose_rs : fundef := Fun
  [("m", None); ("r", None); ("s", None)]
  [("t", Some 4%nat); ("v", Some 3%nat)] (
    "t".[0] ::= (EF 0 1) ;;
    "t".[1] ::= (EF 0 1) ;;
    "t".[2] ::= (EF 0 1) ;;
    "t".[3] ::= (EF 1 1) ;;
    SExp glm_vec4_copy$("m".[0:4], "r".[0:4]) ;;
    SExp glm_vec4_copy$("m".[1:4], "r".[1:4]) ;;
    SExp glm_vec4_copy$("m".[2:4], "r".[2:4]) ;;
    SExp glm_vec4_copy$("t", "r".[3:4]) ;;
    "s".[0] ::= glm_vec3_norm$("m".[0:4]) ;;
    "s".[1] ::= glm_vec3_norm$("m".[1:4]) ;;
    "s".[2] ::= glm_vec3_norm$("m".[2:4]) ;;
    SExp glm_vec4_scale$("r".[0:4], ((EF 1 1) / !"s".[0]), "r".[0:4]) ;;
    SExp glm_vec4_scale$("r".[1:4], ((EF 1 1) / !"s".[1]), "r".[1:4]) ;;
    SExp glm_vec4_scale$("r".[2:4], ((EF 1 1) / !"s".[2]), "r".[2:4]) ;;
    SExp glm_vec3_cross$("m".[0:4], "m".[1:4], "v") ;;
    (SIf (glm_vec3_dot$("v", "m".[2:4]) < (EF 0 1)) (
      SExp glm_vec4_negate$("r".[0:4]) ;;
      SExp glm_vec4_negate$("r".[1:4]) ;;
      SExp glm_vec4_negate$("r".[2:4]) ;;
      SExp glm_vec3_negate$("s")
    ) (
      SSkip
    ))
  ).

(* affine.h:230-233 *)
Definition glm_decompose : fundef := Fun
  [("m", None); ("t", None); ("r", None); ("s", None)]
  [] (
    SExp glm_vec4_copy$("m".[3:4], "t") ;;
    SExp glm_decompose_rs$("m", "r", "s")
  ).

