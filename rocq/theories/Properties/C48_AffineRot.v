(** C48: Axis-angle rotation of a vector (Rodrigues).

    Over the reals glm_vec3_rotate(v, angle, axis) rotates v: it preserves length and the
    component along the axis, is additive in the angle, and equals glm_rotate_make(angle, axis)
    applied to v. *)

From Coq Require Import String List ZArith Bool Reals.
From Verif Require Import MiniC Contract RScalar Cglm.
From Verif.Spec Require Import Linear Geometry Affine.
From Verif.Spec Require Import Linear Geometry Affine.
From Verif.Proofs Require AffineRot.
Import ListNotations.
Local Open Scope list_scope.
Local Open Scope R_scope.

(** ** C48: glm_vec3_rotate is the matrix of glm_rotate_make applied to the vector *)
Theorem C48_matrix : forall v axis angle, length v = 3%nat -> length axis = 3%nat ->
  computes RS glm_vec3_rotate [InOut (fl v); Val (VF angle); In (fl axis)] VVoid [fl (mvec 3 3 (lin4 (rot4 (normalized axis) angle)) v)] /\
  computes RS glm_rotate_make [Out 16; Val (VF angle); In (fl axis)] VVoid [fl (rot4 (normalized axis) angle)].
Proof. exact AffineRot.C48_matrix_ok. Qed.
Print Assumptions C48_matrix.
