(** Functions of src/frustum.c (configuration: scalar), written by tools/gen.py.
    The comment above each definition gives file and lines in /repo. *)
From Coq Require Import String List ZArith.
From Verif Require Import MiniC.
From Verif.Gen Require Import frustum.
Import ListNotations.
Open Scope string_scope.
Open Scope Z_scope.
Open Scope mc_scope.

(* src/frustum.c:13-15 *)
Definition glmc_frustum_planes : fundef := Fun
  [("m", None); ("dest", None)]
  [] (
    SExp glm_frustum_planes$("m", "dest")
  ).

(* src/frustum.c:19-21 *)
Definition glmc_frustum_corners : fundef := Fun
  [("invMat", None); ("dest", None)]
  [] (
    SExp glm_frustum_corners$("invMat", "dest")
  ).

(* src/frustum.c:25-27 *)
Definition glmc_frustum_center : fundef := Fun
  [("corners", None); ("dest", None)]
  [] (
    SExp glm_frustum_center$("corners", "dest")
  ).

(* src/frustum.c:31-33 *)
Definition glmc_frustum_box : fundef := Fun
  [("corners", None); ("m", None); ("box", None)]
  [] (
    SExp glm_frustum_box$("corners", "m", "box")
  ).

(* src/frustum.c:37-42 *)
Definition glmc_frustum_corners_at : fundef := Fun
  [("corners", None); ("splitDist", None); ("farDist", None); ("planeCorners", None)]
  [] (
    SExp glm_frustum_corners_at$("corners", "splitDist", "farDist", "planeCorners")
  ).

