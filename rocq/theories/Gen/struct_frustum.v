(** Functions of include/cglm/struct/frustum.h (configuration: scalar), written by tools/gen.py.
    The comment above each definition gives file and lines in /repo/include/cglm. *)
From Coq Require Import String List ZArith.
From Verif Require Import MiniC.
From Verif.Gen Require Import frustum struct_vec3 struct_vec4.
Import ListNotations.
Open Scope string_scope.
Open Scope Z_scope.
Open Scope mc_scope.

(* struct/frustum.h:57-61 *)
Definition glms_frustum_planes : fundef := Fun
  [("m", Some 16%nat); ("dest", None)]
  [("rawDest", Some 24%nat)] (
    SExp glm_frustum_planes$("m", "rawDest") ;;
    SExp glms_vec4_pack$("dest", "rawDest", (EI 6))
  ).

(* struct/frustum.h:88-92 *)
Definition glms_frustum_corners : fundef := Fun
  [("invMat", Some 16%nat); ("dest", None)]
  [("rawDest", Some 32%nat)] (
    SExp glm_frustum_corners$("invMat", "rawDest") ;;
    SExp glms_vec4_pack$("dest", "rawDest", (EI 8))
  ).

(* struct/frustum.h:102-109 *)
Definition glms_frustum_center : fundef := Fun
  [("corners", None)]
  [("rawCorners", Some 32%nat); ("r", Some 4%nat)] (
    SExp glms_vec4_unpack$("rawCorners", "corners", (EI 8)) ;;
    SExp glm_frustum_center$("rawCorners", "r") ;;
    SRet (ELdA 4 "r")
  ).

(* struct/frustum.h:120-127 *)
Definition glms_frustum_box : fundef := Fun
  [("corners", None); ("m", Some 16%nat); ("box", None)]
  [("rawCorners", Some 32%nat); ("rawBox", Some 6%nat)] (
    SExp glms_vec4_unpack$("rawCorners", "corners", (EI 8)) ;;
    SExp glm_frustum_box$("rawCorners", "m", "rawBox") ;;
    SExp glms_vec3_pack$("box", "rawBox", (EI 2))
  ).

(* struct/frustum.h:143-153 *)
Definition glms_frustum_corners_at : fundef := Fun
  [("corners", None); ("splitDist", None); ("farDist", None); ("planeCorners", None)]
  [("rawCorners", Some 32%nat); ("rawPlaneCorners", Some 16%nat)] (
    SExp glms_vec4_unpack$("rawCorners", "corners", (EI 8)) ;;
    SExp glm_frustum_corners_at$("rawCorners", "splitDist", "farDist", "rawPlaneCorners") ;;
    SExp glms_vec4_pack$("planeCorners", "rawPlaneCorners", (EI 8))
  ).

