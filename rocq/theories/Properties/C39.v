(** C39: Box-sphere and rectangle-circle tests miss intersections.

    Over the reals, when glm_aabb_sphere (glm_aabb2d_circle) returns true the closed ball
    really meets the box, but there are balls meeting a box for which it returns false, because
    a centre below the minimum corner is compared with the maximum corner. *)

From Coq Require Import String List ZArith Bool Reals.
From Verif Require Import MiniC Contract RScalar Cglm.
From Verif.Spec Require Import Linear Geometry Affine Clip Frustum Box.
From Verif.Proofs Require Box2.
Import ListNotations.
Local Open Scope list_scope.
Local Open Scope R_scope.

(** For a proper box the answer "true" is always right, and the answer is right whenever no
    coordinate of the centre is below the box. *)
Theorem C39_ball : forall n, (n = 2 \/ n = 3)%nat -> forall b s, length b = (n + n)%nat -> length s = S n -> proper n b ->
  exists r, computes RS (ball_fn n) [In (fl b); In (fl s)] (VB r) [] /\
  (r = true -> exists p, length p = n /\ in_aabb n b p /\ in_ball n s p) /\
  ((forall i, (i < n)%nat -> at_ b i <= at_ s i) -> (exists p, length p = n /\ in_aabb n b p /\ in_ball n s p) -> r = true).
Proof. exact Box2.C39_ball_ok. Qed.
Print Assumptions C39_ball.

(** but a ball that meets the box from below is missed: here the box [-0.8,10]^n and the ball
    of radius 1/2 about (-1,0,..) *)
Theorem C39_missed_refuted : forall n, (n = 2 \/ n = 3)%nat -> exists b s p, length b = (n + n)%nat /\ length s = S n /\ length p = n /\ proper n b /\
  in_aabb n b p /\ in_ball n s p /\ computes RS (ball_fn n) [In (fl b); In (fl s)] (VB false) [].
Proof. exact Box2.C39_missed_refuted_ok. Qed.
Print Assumptions C39_missed_refuted.

Example C39_ball_example : proper 2 [0;0;1;1] /\ (forall i, (i < 2)%nat -> at_ [0;0;1;1] i <= at_ [1;1;1] i).
Proof. exact Box2.C39_ball_ex. Qed.
