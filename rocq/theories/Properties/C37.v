(** C37: Transforming a box.

    Over the reals glm_aabb_transform writes the smallest axis-aligned box containing the image
    of every point of the box under the affine part of the matrix. *)

From Coq Require Import String List ZArith Bool Reals.
From Verif Require Import MiniC Contract RScalar Cglm.
From Verif.Spec Require Import Linear Geometry Affine Clip Frustum Box.
From Verif.Proofs Require Box.
Import ListNotations.
Local Open Scope list_scope.
Local Open Scope R_scope.

Theorem C37_transform3 : forall b M, length b = 6%nat -> length M = 16%nat -> proper 3 b ->
  exists m, length m = 6%nat /\ computes RS glm_aabb_transform [InA (fl b); In (fl M); Out 6] VVoid [fl m] /\
  (forall p, length p = 3%nat -> in_aabb 3 b p -> in_aabb 3 m (firstn 3 (clip M p))) /\
  (forall i, (i < 3)%nat -> exists p q, length p = 3%nat /\ length q = 3%nat /\ in_aabb 3 b p /\ in_aabb 3 b q /\
    at_ (clip M p) i = at_ m i /\ at_ (clip M q) i = at_ m (3 + i)).
Proof. exact Box.C37_transform3_ok. Qed.
Print Assumptions C37_transform3.

Theorem C37_transform2 : forall b M, length b = 4%nat -> length M = 9%nat -> proper 2 b ->
  exists m, length m = 4%nat /\ computes RS glm_aabb2d_transform [InA (fl b); In (fl M); Out 4] VVoid [fl m] /\
  (forall p, length p = 2%nat -> in_aabb 2 b p -> in_aabb 2 m (firstn 2 (mvec 3 3 M (p ++ [1])))) /\
  (forall i, (i < 2)%nat -> exists p q, length p = 2%nat /\ length q = 2%nat /\ in_aabb 2 b p /\ in_aabb 2 b q /\
    at_ (mvec 3 3 M (p ++ [1])) i = at_ m i /\ at_ (mvec 3 3 M (q ++ [1])) i = at_ m (2 + i)).
Proof. exact Box.C37_transform2_ok. Qed.
Print Assumptions C37_transform2.

Example C37_proper_example : proper 3 [-1; 0; 2; 1; 5; 3] /\ proper 2 [-1; 0; 1; 5].
Proof. exact Box.C37_proper_ex. Qed.
