(** C35: Frustum planes.

    Over the reals glm_frustum_planes writes six normalised planes such that a point satisfies
    all six half-space inequalities iff its clip coordinates satisfy -w<=x,y,z<=w, whenever
    each plane normal is non-degenerate. glm_frustum_box writes the tightest axis-aligned box
    around the images of the eight corners when their coordinates are in the range of float.
    With no condition on the matrix each plane has a unit normal or, when the normal is shorter
    than FLT_EPSILON, is all zero, and every point of the clip volume is on the positive side
    of all of them, so that glm_aabb_frustum keeps every box with a visible point. *)

From Coq Require Import String List ZArith Bool Reals.
From Verif Require Import MiniC Contract RScalar Cglm.
From Verif.Spec Require Import Linear Geometry Affine Clip Frustum Box Camera.
From Verif.Spec Require Import Linear Geometry Affine Clip Frustum Box Camera.
From Verif.Spec Require Import Linear Geometry Affine Clip Frustum Box Camera.
From Verif.Proofs Require Camera.
Import ListNotations.
Local Open Scope list_scope.
Local Open Scope R_scope.

(** with no condition on the matrix: each plane has a unit normal or is zero, and all visible points
    are on the positive side of each; so a box with a visible point is never culled *)
Theorem C35_total : forall M, length M = 16%nat -> exists q : list (list R), length q = 6%nat /\
  computes RS glm_frustum_planes [In (fl M); Out 24] VVoid [fl (concat q)] /\
  (forall j, (j < 6)%nat -> length (nth j q []) = 4%nat /\ (norm2 (firstn 3 (nth j q [])) = 1 \/ nth j q [] = [0; 0; 0; 0] /\ norm (firstn 3 (clip_plane M j)) < eps)) /\
  forall p, length p = 3%nat -> in_clip false (clip M p) -> (forall j, (j < 6)%nat -> on_side (nth j q []) p) /\
    forall b, length b = 6%nat -> in_aabb 3 b p -> computes RS glm_aabb_frustum [In (fl b); In (fl (concat q))] (VB true) [].
Proof. exact Camera.C35_total_ok. Qed.
Print Assumptions C35_total.
