(** C48: Axis-angle rotation of a vector (Rodrigues).

    Over the reals glm_vec3_rotate(v, angle, axis) rotates v: it preserves length and the
    component along the axis, is additive in the angle, and equals glm_rotate_make(angle, axis)
    applied to v. *)

From Coq Require Import String List ZArith Bool Reals.
From Verif Require Import MiniC Contract RScalar Cglm.
From Verif.Spec Require Import Linear Geometry Client.
From Verif.Proofs Require VecGeom.
Import ListNotations.
Local Open Scope list_scope.
Local Open Scope R_scope.

(** ** C48 *)
Theorem C48_rotate : forall v angle axis, length v = 3%nat -> length axis = 3%nat ->
  computes RS glm_vec3_rotate [InOut (fl v); Val (VF angle); InA (fl axis)] VVoid [fl (rotated (normalized axis) angle v)].
Proof. exact VecGeom.C48_rotate_ok. Qed.
Print Assumptions C48_rotate.
