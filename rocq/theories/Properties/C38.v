(** C38: Box-frustum culling is conservative.

    Over the reals, if some point of the box satisfies all six plane inequalities,
    glm_aabb_frustum returns true (no visible box is culled). *)

From Coq Require Import String List ZArith Bool Reals.
From Verif Require Import MiniC Contract RScalar Cglm.
From Verif.Spec Require Import Linear Geometry Affine Clip Frustum Box.
From Verif.Proofs Require Box2.
Import ListNotations.
Local Open Scope list_scope.
Local Open Scope R_scope.

(** true iff each plane has a point of the box on its inner side *)
Theorem C38_frustum : forall b ps, length b = 6%nat -> length ps = 24%nat -> proper 3 b -> exists r,
  computes RS glm_aabb_frustum [In (fl b); In (fl ps)] (VB r) [] /\
  (r = true <-> forall j, (j < 6)%nat -> exists p, length p = 3%nat /\ in_aabb 3 b p /\ on_side (firstn 4 (skipn (4 * j) ps)) p).
Proof. exact Box2.C38_frustum_ok. Qed.
Print Assumptions C38_frustum.

(** so no box with a visible point is culled *)
Theorem C38_conservative : forall b ps p, length b = 6%nat -> length ps = 24%nat -> length p = 3%nat -> in_aabb 3 b p ->
  (forall j, (j < 6)%nat -> on_side (firstn 4 (skipn (4 * j) ps)) p) ->
  computes RS glm_aabb_frustum [In (fl b); In (fl ps)] (VB true) [].
Proof. exact Box2.C38_conservative_ok. Qed.
Print Assumptions C38_conservative.

Example C38_conservative_example : let ps := [1;0;0;1; -1;0;0;1; 0;1;0;1; 0;-1;0;1; 0;0;1;1; 0;0;-1;1] in
  in_aabb 3 [0;0;0;5;5;5] [1/2;1/2;1/2] /\ forall j, (j < 6)%nat -> on_side (firstn 4 (skipn (4 * j) ps)) [1/2;1/2;1/2].
Proof. exact Box2.C38_conservative_ex. Qed.

(** the converse fails: a box outside the frustum but not outside any single plane is kept *)
Theorem C38_keeps_invisible : exists b ps, proper 3 b /\ computes RS glm_aabb_frustum [In (fl b); In (fl ps)] (VB true) [] /\
  ~ exists p, length p = 3%nat /\ in_aabb 3 b p /\ forall j, (j < 6)%nat -> on_side (firstn 4 (skipn (4 * j) ps)) p.
Proof. exact Box2.C38_keeps_invisible_ok. Qed.
Print Assumptions C38_keeps_invisible.
