(** C41: Ray-sphere intersection.

    Over the reals, for a unit direction and outside the degenerate case where the origin is on
    the sphere and the ray is tangent, glm_ray_sphere returns true iff the ray meets the sphere
    at some non-negative parameter, and then the reported parameters are the intersection
    parameters in order; in the degenerate case it divides by zero. *)

From Coq Require Import String List ZArith Bool Reals.
From Verif Require Import MiniC Contract RScalar Cglm.
From Verif.Spec Require Import Linear Geometry Affine Clip Box.
From Verif.Proofs Require Sphere.
Import ListNotations.
Local Open Scope list_scope.
Local Open Scope R_scope.

Theorem C41_ray : forall o d s t1 t2, length o = 3%nat -> length d = 3%nat -> length s = 4%nat -> norm2 d = 1 ->
  ~ (on_sphere o d s 0 /\ rdot d (vsub (firstn 3 s) o) = 0) -> exists r u1 u2,
  computes RS glm_ray_sphere [In (fl o); In (fl d); In (fl s); InOut (fl [t1]); InOut (fl [t2])] (VB r) [fl [u1]; fl [u2]] /\
  (r = true <-> exists t, 0 <= t /\ on_sphere o d s t) /\
  ((exists t, on_sphere o d s t) -> u1 <= u2 /\ forall t, on_sphere o d s t <-> t = u1 \/ t = u2) /\
  ((forall t, ~ on_sphere o d s t) -> u1 = t1 /\ u2 = t2).
Proof. exact Sphere.C41_ray_ok. Qed.
Print Assumptions C41_ray.

(** the origin on the sphere, the direction tangent: division by zero *)
Theorem C41_tangent : forall o d s, length o = 3%nat -> length d = 3%nat -> length s = 4%nat ->
  on_sphere o d s 0 -> rdot d (vsub (firstn 3 s) o) = 0 ->
  aborts RS glm_ray_sphere [In (fl o); In (fl d); In (fl s); Out 1; Out 1] XFloatDomain.
Proof. exact Sphere.C41_tangent_ok. Qed.
Print Assumptions C41_tangent.

Example C41_ray_example : exists o d s, norm2 d = 1 /\ ~ (on_sphere o d s 0 /\ rdot d (vsub (firstn 3 s) o) = 0) /\
  on_sphere o d s 4 /\ on_sphere o d s 6 /\ ~ on_sphere o d s 0.
Proof. exact Sphere.C41_ray_ex. Qed.

Example C41_tangent_example : exists o d s, norm2 d = 1 /\ on_sphere o d s 0 /\ rdot d (vsub (firstn 3 s) o) = 0 /\ at_ s 3 = 1.
Proof. exact Sphere.C41_tangent_ex. Qed.
