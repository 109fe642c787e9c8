(** Functions of include/cglm/project.h (configuration: scalar), written by tools/gen.py.
    The comment above each definition gives file and lines in /repo/include/cglm. *)
From Coq Require Import String List ZArith.
From Verif Require Import MiniC.
From Verif.Gen Require Import affine clipspace_project_no mat4.
Import ListNotations.
Open Scope string_scope.
Open Scope Z_scope.
Open Scope mc_scope.

(* project.h:55-61 *)
Definition glm_unprojecti : fundef := Fun
  [("pos", None); ("invMat", None); ("vp", None); ("dest", None)]
  [] (
    SExp glm_unprojecti_no$("pos", "invMat", "vp", "dest")
  ).

(* project.h:89-93 *)
Definition glm_unproject : fundef := Fun
  [("pos", None); ("m", None); ("vp", None); ("dest", None)]
  [("inv", Some 16%nat)] (
    SExp glm_mat4_inv$("m", "inv") ;;
    SExp glm_unprojecti$("pos", "inv", "vp", "dest")
  ).

(* project.h:109-115 *)
Definition glm_project : fundef := Fun
  [("pos", None); ("m", None); ("vp", None); ("dest", None)]
  [] (
    SExp glm_project_no$("pos", "m", "vp", "dest")
  ).

(* project.h:131-137 *)
Definition glm_project_z : fundef := Fun
  [("v", None); ("m", None)]
  [] (
    SRet glm_project_z_no$("v", "m")
  ).

(* project.h:149-170 *)
Definition glm_pickmatrix : fundef := Fun
  [("center", None); ("size", None); ("vp", None); ("dest", None)]
  [("res", Some 16%nat); ("v", Some 3%nat)] (
    (SIf (EOr (!"size".[0] <= (EF 0 1)) (!"size".[1] <= (EF 0 1))) (
      SRet0
    ) (
      SSkip
    )) ;;
    "v".[0] ::= ((!"vp".[2] - ((EF 2 1) * (!"center".[0] - !"vp".[0]))) / !"size".[0]) ;;
    "v".[1] ::= ((!"vp".[3] - ((EF 2 1) * (!"center".[1] - !"vp".[1]))) / !"size".[1]) ;;
    "v".[2] ::= (EF 0 1) ;;
    SExp glm_translate_make$("res", "v") ;;
    "v".[0] ::= (!"vp".[2] / !"size".[0]) ;;
    "v".[1] ::= (!"vp".[3] / !"size".[1]) ;;
    "v".[2] ::= (EF 1 1) ;;
    SExp glm_scale$("res", "v") ;;
    SExp glm_mat4_copy$("res", "dest")
  ).

