(** C40: Sphere merge and sphere tests.

    Over the reals glm_sphere_merge writes a sphere containing both input spheres,
    glm_sphere_point decides membership in the closed ball and glm_sphere_sphere decides
    whether the closed balls meet. *)

From Coq Require Import String List ZArith Bool Reals.
From Verif Require Import MiniC Contract RScalar Cglm.
From Verif.Spec Require Import Linear Geometry Affine Clip Box.
From Verif.Proofs Require Sphere.
Import ListNotations.
Local Open Scope list_scope.
Local Open Scope R_scope.

(** ** C40 *)
Theorem C40_point : forall s p, length s = 4%nat -> length p = 3%nat -> exists r,
  computes RS glm_sphere_point [In (fl s); In (fl p)] (VB r) [] /\ (r = true <-> in_ball 3 s p).
Proof. exact Sphere.C40_point_ok. Qed.
Print Assumptions C40_point.

Theorem C40_meet : forall s t, length s = 4%nat -> length t = 4%nat -> 0 <= at_ s 3 -> 0 <= at_ t 3 -> exists r,
  computes RS glm_sphere_sphere [In (fl s); In (fl t)] (VB r) [] /\ (r = true <-> exists p, length p = 3%nat /\ in_ball 3 s p /\ in_ball 3 t p).
Proof. exact Sphere.C40_meet_ok. Qed.
Print Assumptions C40_meet.

(** a ball containing both, about the midpoint of the centres; any aliasing *)
Theorem C40_merge : forall s t, length s = 4%nat -> length t = 4%nat -> 0 <= at_ s 3 -> 0 <= at_ t 3 -> exists m, length m = 4%nat /\
  computes RS glm_sphere_merge [InA (fl s); InA (fl t); Out 4] VVoid [fl m] /\
  firstn 3 m = vscale (1/2) (vadd (firstn 3 s) (firstn 3 t)) /\
  at_ m 3 = norm (vsub (firstn 3 t) (firstn 3 s)) + at_ s 3 + at_ t 3 /\
  forall p, length p = 3%nat -> in_ball 3 s p \/ in_ball 3 t p -> in_ball 3 m p.
Proof. exact Sphere.C40_merge_ok. Qed.
Print Assumptions C40_merge.

(** but not the least one: even merging a ball with itself doubles its radius *)
Theorem C40_merge_least_refuted : exists s m, 0 < at_ s 3 /\
  computes RS glm_sphere_merge [InA (fl s); InA (fl s); Out 4] VVoid [fl m] /\ firstn 3 m = firstn 3 s /\ at_ s 3 < at_ m 3.
Proof. exact Sphere.C40_merge_least_refuted_ok. Qed.
Print Assumptions C40_merge_least_refuted.

Theorem C40_transform : forall s M, length s = 4%nat -> length M = 16%nat ->
  computes RS glm_sphere_transform [InA (fl s); In (fl M); Out 4] VVoid [fl (firstn 3 (clip M (firstn 3 s)) ++ [at_ s 3])] /\
  computes RS glm_sphere_radii [In (fl s)] (VF (at_ s 3)) [].
Proof. exact Sphere.C40_transform_ok. Qed.
Print Assumptions C40_transform.
