(** Functions of include/cglm/clipspace/project_no.h (configuration: scalar), written by tools/gen.py.
    The comment above each definition gives file and lines in /repo/include/cglm. *)
From Coq Require Import String List ZArith.
From Verif Require Import MiniC.
From Verif.Gen Require Import mat4 vec3 vec4.
Import ListNotations.
Open Scope string_scope.
Open Scope Z_scope.
Open Scope mc_scope.

(* clipspace/project_no.h:44-55 *)
Definition glm_unprojecti_no : fundef := Fun
  [("pos", None); ("invMat", None); ("vp", None); ("dest", None)]
  [("v", Some 4%nat)] (
    "v".[0] ::= ((((EF 2 1) * (!"pos".[0] - !"vp".[0])) / !"vp".[2]) - (EF 1 1)) ;;
    "v".[1] ::= ((((EF 2 1) * (!"pos".[1] - !"vp".[1])) / !"vp".[3]) - (EF 1 1)) ;;
    "v".[2] ::= (((EF 2 1) * !"pos".[2]) - (EF 1 1)) ;;
    "v".[3] ::= (EF 1 1) ;;
    SExp glm_mat4_mulv$("invMat", "v", "v") ;;
    SExp glm_vec4_scale$("v", ((EF 1 1) / !"v".[3]), "v") ;;
    SExp glm_vec3$("v", "dest")
  ).

(* clipspace/project_no.h:71-84 *)
Definition glm_project_no : fundef := Fun
  [("pos", None); ("m", None); ("vp", None); ("dest", None)]
  [("pos4", Some 4%nat)] (
    SExp glm_vec4$("pos", (EF 1 1), "pos4") ;;
    SExp glm_mat4_mulv$("m", "pos4", "pos4") ;;
    SExp glm_vec4_scale$("pos4", ((EF 1 1) / !"pos4".[3]), "pos4") ;;
    SExp glm_vec4_scale$("pos4", (EF 1 2), "pos4") ;;
    SExp glm_vec4_adds$("pos4", (EF 1 2), "pos4") ;;
    "dest".[0] ::= ((!"pos4".[0] * !"vp".[2]) + !"vp".[0]) ;;
    "dest".[1] ::= ((!"pos4".[1] * !"vp".[3]) + !"vp".[1]) ;;
    "dest".[2] ::= !"pos4".[2]
  ).

(* clipspace/project_no.h:100-107 *)
Definition glm_project_z_no : fundef := Fun
  [("v", None); ("m", None)]
  [("z", None); ("w", None)] (
    "z" <~ ((((!"m".[0:4].[2] * !"v".[0]) + (!"m".[1:4].[2] * !"v".[1])) + (!"m".[2:4].[2] * !"v".[2])) + !"m".[3:4].[2]) ;;
    "w" <~ ((((!"m".[0:4].[3] * !"v".[0]) + (!"m".[1:4].[3] * !"v".[1])) + (!"m".[2:4].[3] * !"v".[2])) + !"m".[3:4].[3]) ;;
    SRet (((EF 1 2) * ("z" / "w")) + (EF 1 2))
  ).

