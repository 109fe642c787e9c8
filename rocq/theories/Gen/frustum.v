(** Functions of include/cglm/frustum.h (configuration: scalar), written by tools/gen.py.
    The comment above each definition gives file and lines in /repo/include/cglm. *)
From Coq Require Import String List ZArith.
From Verif Require Import MiniC.
From Verif.Gen Require Import mat4 plane util vec3_ext vec3 vec4.
Import ListNotations.
Open Scope string_scope.
Open Scope Z_scope.
Open Scope mc_scope.

(* frustum.h:72-90 *)
Definition glm_frustum_planes : fundef := Fun
  [("m", None); ("dest", None)]
  [("t", Some 16%nat)] (
    SExp glm_mat4_transpose_to$("m", "t") ;;
    SExp glm_vec4_add$("t".[3:4], "t".[0:4], "dest".[0:4]) ;;
    SExp glm_vec4_sub$("t".[3:4], "t".[0:4], "dest".[1:4]) ;;
    SExp glm_vec4_add$("t".[3:4], "t".[1:4], "dest".[2:4]) ;;
    SExp glm_vec4_sub$("t".[3:4], "t".[1:4], "dest".[3:4]) ;;
    SExp glm_vec4_add$("t".[3:4], "t".[2:4], "dest".[4:4]) ;;
    SExp glm_vec4_sub$("t".[3:4], "t".[2:4], "dest".[5:4]) ;;
    SExp glm_plane_normalize$("dest".[0:4]) ;;
    SExp glm_plane_normalize$("dest".[1:4]) ;;
    SExp glm_plane_normalize$("dest".[2:4]) ;;
    SExp glm_plane_normalize$("dest".[3:4]) ;;
    SExp glm_plane_normalize$("dest".[4:4]) ;;
    SExp glm_plane_normalize$("dest".[5:4])
  ).

(* frustum.h:117-150 *)
Definition glm_frustum_corners : fundef := Fun
  [("invMat", None); ("dest", None)]
  [("c", Some 32%nat); ("csCoords", Some 32%nat)] (
    "csCoords".[0:4].[0] ::= (- (EF 1 1)) ;;
    "csCoords".[0:4].[1] ::= (- (EF 1 1)) ;;
    "csCoords".[0:4].[2] ::= (- (EF 1 1)) ;;
    "csCoords".[0:4].[3] ::= (EF 1 1) ;;
    "csCoords".[1:4].[0] ::= (- (EF 1 1)) ;;
    "csCoords".[1:4].[1] ::= (EF 1 1) ;;
    "csCoords".[1:4].[2] ::= (- (EF 1 1)) ;;
    "csCoords".[1:4].[3] ::= (EF 1 1) ;;
    "csCoords".[2:4].[0] ::= (EF 1 1) ;;
    "csCoords".[2:4].[1] ::= (EF 1 1) ;;
    "csCoords".[2:4].[2] ::= (- (EF 1 1)) ;;
    "csCoords".[2:4].[3] ::= (EF 1 1) ;;
    "csCoords".[3:4].[0] ::= (EF 1 1) ;;
    "csCoords".[3:4].[1] ::= (- (EF 1 1)) ;;
    "csCoords".[3:4].[2] ::= (- (EF 1 1)) ;;
    "csCoords".[3:4].[3] ::= (EF 1 1) ;;
    "csCoords".[4:4].[0] ::= (- (EF 1 1)) ;;
    "csCoords".[4:4].[1] ::= (- (EF 1 1)) ;;
    "csCoords".[4:4].[2] ::= (EF 1 1) ;;
    "csCoords".[4:4].[3] ::= (EF 1 1) ;;
    "csCoords".[5:4].[0] ::= (- (EF 1 1)) ;;
    "csCoords".[5:4].[1] ::= (EF 1 1) ;;
    "csCoords".[5:4].[2] ::= (EF 1 1) ;;
    "csCoords".[5:4].[3] ::= (EF 1 1) ;;
    "csCoords".[6:4].[0] ::= (EF 1 1) ;;
    "csCoords".[6:4].[1] ::= (EF 1 1) ;;
    "csCoords".[6:4].[2] ::= (EF 1 1) ;;
    "csCoords".[6:4].[3] ::= (EF 1 1) ;;
    "csCoords".[7:4].[0] ::= (EF 1 1) ;;
    "csCoords".[7:4].[1] ::= (- (EF 1 1)) ;;
    "csCoords".[7:4].[2] ::= (EF 1 1) ;;
    "csCoords".[7:4].[3] ::= (EF 1 1) ;;
    SExp glm_mat4_mulv$("invMat", "csCoords".[0:4], "c".[0:4]) ;;
    SExp glm_mat4_mulv$("invMat", "csCoords".[1:4], "c".[1:4]) ;;
    SExp glm_mat4_mulv$("invMat", "csCoords".[2:4], "c".[2:4]) ;;
    SExp glm_mat4_mulv$("invMat", "csCoords".[3:4], "c".[3:4]) ;;
    SExp glm_mat4_mulv$("invMat", "csCoords".[4:4], "c".[4:4]) ;;
    SExp glm_mat4_mulv$("invMat", "csCoords".[5:4], "c".[5:4]) ;;
    SExp glm_mat4_mulv$("invMat", "csCoords".[6:4], "c".[6:4]) ;;
    SExp glm_mat4_mulv$("invMat", "csCoords".[7:4], "c".[7:4]) ;;
    SExp glm_vec4_scale$("c".[0:4], ((EF 1 1) / !"c".[0:4].[3]), "dest".[0:4]) ;;
    SExp glm_vec4_scale$("c".[1:4], ((EF 1 1) / !"c".[1:4].[3]), "dest".[1:4]) ;;
    SExp glm_vec4_scale$("c".[2:4], ((EF 1 1) / !"c".[2:4].[3]), "dest".[2:4]) ;;
    SExp glm_vec4_scale$("c".[3:4], ((EF 1 1) / !"c".[3:4].[3]), "dest".[3:4]) ;;
    SExp glm_vec4_scale$("c".[4:4], ((EF 1 1) / !"c".[4:4].[3]), "dest".[4:4]) ;;
    SExp glm_vec4_scale$("c".[5:4], ((EF 1 1) / !"c".[5:4].[3]), "dest".[5:4]) ;;
    SExp glm_vec4_scale$("c".[6:4], ((EF 1 1) / !"c".[6:4].[3]), "dest".[6:4]) ;;
    SExp glm_vec4_scale$("c".[7:4], ((EF 1 1) / !"c".[7:4].[3]), "dest".[7:4])
  ).

(* frustum.h:160-174 *)
Definition glm_frustum_center : fundef := Fun
  [("corners", None); ("dest", None)]
  [("center", Some 4%nat)] (
    SExp glm_vec4_copy$("corners".[0:4], "center") ;;
    SExp glm_vec4_add$("corners".[1:4], "center", "center") ;;
    SExp glm_vec4_add$("corners".[2:4], "center", "center") ;;
    SExp glm_vec4_add$("corners".[3:4], "center", "center") ;;
    SExp glm_vec4_add$("corners".[4:4], "center", "center") ;;
    SExp glm_vec4_add$("corners".[5:4], "center", "center") ;;
    SExp glm_vec4_add$("corners".[6:4], "center", "center") ;;
    SExp glm_vec4_add$("corners".[7:4], "center", "center") ;;
    SExp glm_vec4_scale$("center", (EF 1 8), "dest")
  ).

(* frustum.h:185-207 *)
Definition glm_frustum_box : fundef := Fun
  [("corners", None); ("m", None); ("box", None)]
  [("v", Some 4%nat); ("min", Some 3%nat); ("max", Some 3%nat); ("i", None)] (
    SExp glm_vec3_broadcast$((EF 340282346638528859811704183484516925440 1), "min") ;;
    SExp glm_vec3_broadcast$((- (EF 340282346638528859811704183484516925440 1)), "max") ;;
    (SFor "i" (EI 0) (EI 8) (
      SExp glm_mat4_mulv$("m", (EIx "corners" 4 "i"), "v") ;;
      "min".[0] ::= glm_min$(!"min".[0], !"v".[0]) ;;
      "min".[1] ::= glm_min$(!"min".[1], !"v".[1]) ;;
      "min".[2] ::= glm_min$(!"min".[2], !"v".[2]) ;;
      "max".[0] ::= glm_max$(!"max".[0], !"v".[0]) ;;
      "max".[1] ::= glm_max$(!"max".[1], !"v".[1]) ;;
      "max".[2] ::= glm_max$(!"max".[2], !"v".[2])
    )) ;;
    SExp glm_vec3_copy$("min", "box".[0:3]) ;;
    SExp glm_vec3_copy$("max", "box".[1:3])
  ).

(* frustum.h:223-253 *)
Definition glm_frustum_corners_at : fundef := Fun
  [("corners", None); ("splitDist", None); ("farDist", None); ("planeCorners", None)]
  [("corner", Some 4%nat); ("dist", None); ("sc", None)] (
    "dist" <~ glm_vec3_distance$("corners".[6:4], "corners".[2:4]) ;;
    "sc" <~ ("dist" * ("splitDist" / "farDist")) ;;
    SExp glm_vec4_sub$("corners".[4:4], "corners".[0:4], "corner") ;;
    SExp glm_vec4_scale_as$("corner", "sc", "corner") ;;
    SExp glm_vec4_add$("corners".[0:4], "corner", "planeCorners".[0:4]) ;;
    SExp glm_vec4_sub$("corners".[5:4], "corners".[1:4], "corner") ;;
    SExp glm_vec4_scale_as$("corner", "sc", "corner") ;;
    SExp glm_vec4_add$("corners".[1:4], "corner", "planeCorners".[1:4]) ;;
    SExp glm_vec4_sub$("corners".[6:4], "corners".[2:4], "corner") ;;
    SExp glm_vec4_scale_as$("corner", "sc", "corner") ;;
    SExp glm_vec4_add$("corners".[2:4], "corner", "planeCorners".[2:4]) ;;
    SExp glm_vec4_sub$("corners".[7:4], "corners".[3:4], "corner") ;;
    SExp glm_vec4_scale_as$("corner", "sc", "corner") ;;
    SExp glm_vec4_add$("corners".[3:4], "corner", "planeCorners".[3:4])
  ).

