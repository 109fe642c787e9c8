(** C36: AABB algebra.

    Over the reals glm_aabb_merge gives the least box containing both operands, glm_aabb_crop
    the intersection, glm_aabb_contains and glm_aabb_point decide containment and glm_aabb_aabb
    decides non-empty intersection of closed boxes, all with any aliasing; glm_aabb_invalidate
    writes the empty box, neutral for merging, which glm_aabb_isvalid rejects, although that
    accepts boxes whose lower corner is above the upper one. *)

From Coq Require Import String List ZArith Bool Reals.
From Verif Require Import MiniC Contract RScalar Cglm.
From Verif.Spec Require Import Linear Geometry Affine Clip Frustum Box.
From Verif.Proofs Require Box.
Import ListNotations.
Local Open Scope list_scope.
Local Open Scope R_scope.

(** the least box containing both; any aliasing *)
Theorem C36_merge : forall n, (n = 2 \/ n = 3)%nat -> forall b c, length b = (n + n)%nat -> length c = (n + n)%nat -> proper n b -> proper n c ->
  exists m, length m = (n + n)%nat /\ computes RS (merge_fn n) [InA (fl b); InA (fl c); Out (n + n)] VVoid [fl m] /\
  box_sub n b m /\ box_sub n c m /\ forall k, length k = (n + n)%nat -> box_sub n b k -> box_sub n c k -> box_sub n m k.
Proof. exact Box.C36_merge_ok. Qed.
Print Assumptions C36_merge.

(** the intersection; any aliasing *)
Theorem C36_crop : forall n, (n = 2 \/ n = 3)%nat -> forall b c, length b = (n + n)%nat -> length c = (n + n)%nat ->
  exists m, length m = (n + n)%nat /\ computes RS (crop_fn n) [InA (fl b); InA (fl c); Out (n + n)] VVoid [fl m] /\
  forall p, length p = n -> (in_aabb n m p <-> in_aabb n b p /\ in_aabb n c p).
Proof. exact Box.C36_crop_ok. Qed.
Print Assumptions C36_crop.

Theorem C36_contains : forall n, (n = 2 \/ n = 3)%nat -> forall b c, length b = (n + n)%nat -> length c = (n + n)%nat -> proper n c ->
  exists r, computes RS (contains_fn n) [In (fl b); In (fl c)] (VB r) [] /\ (r = true <-> box_sub n c b).
Proof. exact Box.C36_contains_ok. Qed.
Print Assumptions C36_contains.

Theorem C36_point : forall n, (n = 2 \/ n = 3)%nat -> forall b p, length b = (n + n)%nat -> length p = n ->
  exists r, computes RS (point_fn n) [In (fl b); In (fl p)] (VB r) [] /\ (r = true <-> in_aabb n b p).
Proof. exact Box.C36_point_ok. Qed.
Print Assumptions C36_point.

Theorem C36_meet : forall n, (n = 2 \/ n = 3)%nat -> forall b c, length b = (n + n)%nat -> length c = (n + n)%nat -> proper n b -> proper n c ->
  exists r, computes RS (meet_fn n) [In (fl b); In (fl c)] (VB r) [] /\ (r = true <-> exists p, length p = n /\ in_aabb n b p /\ in_aabb n c p).
Proof. exact Box.C36_meet_ok. Qed.
Print Assumptions C36_meet.

(** crop, then merge with a third box, which must be apart from the destination *)
Theorem C36_crop_until : forall n, (n = 2 \/ n = 3)%nat -> forall b c k, length b = (n + n)%nat -> length c = (n + n)%nat -> length k = (n + n)%nat ->
  exists x m, length x = (n + n)%nat /\ length m = (n + n)%nat /\
  computes RS (crop_fn n) [InA (fl b); InA (fl c); Out (n + n)] VVoid [fl x] /\
  computes RS (merge_fn n) [InA (fl k); InA (fl x); Out (n + n)] VVoid [fl m] /\
  computes RS (crop_until_fn n) [InA (fl b); InA (fl c); In (fl k); Out (n + n)] VVoid [fl m].
Proof. exact Box.C36_crop_until_ok. Qed.
Print Assumptions C36_crop_until.

(** size, radius and centre *)
Theorem C36_measures :
  (forall b c, length b = 3%nat -> length c = 3%nat ->
    computes RS glm_aabb_size [In (fl (b ++ c))] (VF (norm (vsub c b))) [] /\
    computes RS glm_aabb_radius [In (fl (b ++ c))] (VF (norm (vsub c b) / 2)) [] /\
    computes RS glm_aabb_center [In (fl (b ++ c)); Out 3] VVoid [fl (vscale (1/2) (vadd b c))]) /\
  (forall b c, length b = 2%nat -> length c = 2%nat ->
    computes RS glm_aabb2d_diag [In (fl (b ++ c))] (VF (norm (vsub c b))) [] /\
    computes RS glm_aabb2d_radius [In (fl (b ++ c))] (VF (norm (vsub c b) / 2)) [] /\
    computes RS glm_aabb2d_sizev [In (fl (b ++ c)); Out 2] VVoid [fl (vsub c b)] /\
    computes RS glm_aabb2d_center [In (fl (b ++ c)); Out 2] VVoid [fl (vscale (1/2) (vadd b c))]).
Proof. exact Box.C36_measures_ok. Qed.
Print Assumptions C36_measures.
