(** C82: Frustum culling in single precision, from the matrix to the verdict.

    In IEEE binary32, with M a matrix whose first three columns are at most A and whose last is
    at most A B in magnitude, and b a box with coordinates at most B (2^-20 <= A <= 2^20, 2^-20
    <= B, A B <= 2^30): if some real point of the box satisfies each clip inequality of M with
    margin 33 u A B (u = 2^-24), then glm_aabb_frustum on the planes written by
    glm_frustum_planes for M returns true. No condition is put on the normals: planes with
    nearly no direction are zeroed and never cull. More generally it suffices that for each
    plane some point of the box meets the margin; conversely, if the verdict is true then for
    each plane whose exact normal has length at least 2^-22 + 4 u A some point of the box
    violates the inequality by no more than 33 u A B. *)

From Coq Require Import String List ZArith Bool Reals.
From Verif Require Import MiniC Contract RScalar Cglm.
From Coq Require Import Reals Floats.SpecFloat.
From Verif Require Import B32.
From Verif.Spec Require Import Float32 Linear Geometry Box Frustum Tests32 Cull32.
From Verif.Spec Require Import Float32 Linear Geometry Clip Box Frustum Tests32 Cull32.
From Verif.Spec Require Import Float32 Linear Geometry Box Frustum Tests32 Cull32.
From Verif.Proofs Require Cull32.
Import ListNotations.
Local Open Scope list_scope.
Local Open Scope R_scope.

(** a box with a point that is visible by a margin is kept *)
Theorem C82_kept : forall l A B M b p, cull_sizes A B M b -> length p = 3%nat -> in_aabb 3 (map rval b) p ->
  (forall j, (j < 6)%nat -> 33 * u * (A * B) <= depth (map rval M) j p) ->
  exists P, length P = 24%nat /\ computes (B32 l) glm_frustum_planes [In (fl M); Out 24] VVoid [fl P] /\ computes (B32 l) glm_aabb_frustum [In (fl b); In (fl P)] (VB true) [].
Proof. exact Cull32.C82_kept_ok. Qed.
Print Assumptions C82_kept.

(** a box that is kept is not outside any plane, by more than the margin, unless the plane has nearly no direction *)
Theorem C82_verdict : forall l A B M b, cull_sizes A B M b -> proper 3 (map rval b) -> exists P v, length P = 24%nat /\
  computes (B32 l) glm_frustum_planes [In (fl M); Out 24] VVoid [fl P] /\ computes (B32 l) glm_aabb_frustum [In (fl b); In (fl P)] (VB v) [] /\
  ((forall j, (j < 6)%nat -> exists p, length p = 3%nat /\ in_aabb 3 (map rval b) p /\ 33 * u * (A * B) <= depth (map rval M) j p) -> v = true) /\
  (v = true -> forall j, (j < 6)%nat -> powerRZ 2 (-22) + 4 * u * A <= norm (firstn 3 (clip_plane (map rval M) j)) ->
     exists p, length p = 3%nat /\ in_aabb 3 (map rval b) p /\ - (33 * u * (A * B)) <= depth (map rval M) j p).
Proof. exact Cull32.C82_verdict_ok. Qed.
Print Assumptions C82_verdict.

(** a box of side 5 at the origin and the identity matrix: the point (1/2, 1/2, 1/2) is visible by the margin *)
Example C82_verdict_example : let M := map (fun k => b_lit k 1) [1; 0; 0; 0; 0; 1; 0; 0; 0; 0; 1; 0; 0; 0; 0; 1]%Z in let b := map (fun k => b_lit k 1) [0; 0; 0; 5; 5; 5]%Z in
  cull_sizes 1 5 M b /\ proper 3 (map rval b) /\ in_aabb 3 (map rval b) [1 / 2; 1 / 2; 1 / 2] /\
  forall j, (j < 6)%nat -> 33 * u * (1 * 5) <= depth (map rval M) j [1 / 2; 1 / 2; 1 / 2] /\ norm (firstn 3 (clip_plane (map rval M) j)) = 1.
Proof. exact Cull32.C82_verdict_ex. Qed.

Example C82_kept_example : let M := map (fun k => b_lit k 1) [1; 0; 0; 0; 0; 1; 0; 0; 0; 0; 1; 0; 0; 0; 0; 1]%Z in let b := map (fun k => b_lit k 1) [0; 0; 0; 5; 5; 5]%Z in
  cull_sizes 1 5 M b /\ in_aabb 3 (map rval b) [1 / 2; 1 / 2; 1 / 2] /\ forall j, (j < 6)%nat -> 33 * u * (1 * 5) <= depth (map rval M) j [1 / 2; 1 / 2; 1 / 2].
Proof. exact Cull32.C82_kept_ex. Qed.
