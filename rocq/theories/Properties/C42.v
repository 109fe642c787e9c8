(** C42: Ray-triangle intersection.

    Over the reals, when glm_ray_triangle returns true with distance d, the point
    origin+d*direction lies in the triangle and d is above the threshold; when a point of the
    triangle is hit with parameter above the threshold and the determinant is outside the
    tolerance it returns true. *)

From Coq Require Import String List ZArith Bool Reals.
From Verif Require Import MiniC Contract RScalar Cglm.
From Verif.Spec Require Import Linear Geometry Affine Clip Box.
From Verif.Proofs Require Sphere.
Import ListNotations.
Local Open Scope list_scope.
Local Open Scope R_scope.

(** [d] may be null; the determinant is that of the edges and the direction *)
Theorem C42_triangle : forall o d x y z t0, length o = 3%nat -> length d = 3%nat -> length x = 3%nat -> length y = 3%nat -> length z = 3%nat ->
  let det := rdot (vsub y x) (vcross d (vsub z x)) in
  exists r t1,
  computes RS glm_ray_triangle [In (fl o); In (fl d); In (fl x); In (fl y); In (fl z); InOut (fl [t0])] (VB r) [fl [t1]] /\
  computes RS glm_ray_triangle [In (fl o); In (fl d); In (fl x); In (fl y); In (fl z); Val VNull] (VB r) [] /\
  (r = true -> 1 / 1000000 < t1 /\ in_triangle o d x y z t1) /\
  (1 / 1000000 <= Rabs det -> forall t, in_triangle o d x y z t -> t1 = t /\ (r = true <-> 1 / 1000000 < t)) /\
  (Rabs det < 1 / 1000000 \/ (forall t, ~ in_triangle o d x y z t) -> r = false /\ t1 = t0).
Proof. exact Sphere.C42_triangle_ok. Qed.
Print Assumptions C42_triangle.

Example C42_triangle_example : exists o d x y z, 1 / 1000000 <= Rabs (rdot (vsub y x) (vcross d (vsub z x))) /\ in_triangle o d x y z 2.
Proof. exact Sphere.C42_triangle_ex. Qed.

(** the point of the ray at parameter [t] *)
Theorem C42_at : forall o d t, length o = 3%nat -> length d = 3%nat ->
  computes RS glm_ray_at [InA (fl o); InA (fl d); Val (VF t); Out 3] VVoid [fl (vadd o (vscale t d))].
Proof. exact Sphere.C42_at_ok. Qed.
Print Assumptions C42_at.
