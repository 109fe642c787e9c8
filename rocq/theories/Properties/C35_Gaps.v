(** C35: Frustum planes.

    Over the reals glm_frustum_planes writes six normalised planes such that a point satisfies
    all six half-space inequalities iff its clip coordinates satisfy -w<=x,y,z<=w, whenever
    each plane normal is non-degenerate. glm_frustum_box writes the tightest axis-aligned box
    around the images of the eight corners when their coordinates are in the range of float.
    With no condition on the matrix each plane has a unit normal or, when the normal is shorter
    than FLT_EPSILON, is all zero, and every point of the clip volume is on the positive side
    of all of them, so that glm_aabb_frustum keeps every box with a visible point. *)

From Coq Require Import String List ZArith Bool Reals.
From Verif Require Import MiniC Contract RScalar Cglm.
From Verif.Spec Require Import Linear Geometry Affine Client Clip Frustum Limits Types Agree Builds View.
From Verif.Spec Require Import Linear Geometry Affine Client Clip Frustum Limits Types Agree Builds View.
From Verif.Spec Require Import Quaternion ScalarSpec Clip Frustum Limits Types Agree Builds View.
From Verif.Proofs Require Gaps.
Import ListNotations.
Local Open Scope list_scope.
Local Open Scope R_scope.

Theorem C35_box : forall k M, length k = 32%nat -> length M = 16%nat ->
  (forall p i, List.In p (images M k) -> (i < 3)%nat -> - flt_max <= at_ p i <= flt_max) ->
  exists b, length b = 6%nat /\ computes RS glm_frustum_box [In (fl k); In (fl M); Out 6] VVoid [fl b] /\ tight (images M k) b.
Proof. exact Gaps.C35_box_ok. Qed.
Print Assumptions C35_box.

Example C35_box_example : let M := [1;0;0;0; 0;1;0;0; 0;0;1;0; 1;2;3;1] in let k := flat_map (fun i => cube_corner i ++ [1]) (seq 0 8) in
  length k = 32%nat /\ length M = 16%nat /\ (forall p i, List.In p (images M k) -> (i < 3)%nat -> - flt_max <= at_ p i <= flt_max) /\
  tight (images M k) [0; 1; 2; 2; 3; 4].
Proof. exact Gaps.C35_box_ex. Qed.
