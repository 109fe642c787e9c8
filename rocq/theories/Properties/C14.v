(** C14: Rotation matrices are rotations.

    Over the reals, for every axis of length >= FLT_EPSILON, the 3x3 part of glm_rotate_make(m,
    angle, axis) is orthogonal with determinant 1, fixes the axis, and rotating by a then by b
    about the same axis equals rotating by a+b. *)

From Coq Require Import String List ZArith Bool Reals.
From Verif Require Import MiniC Contract RScalar Cglm.
From Verif.Spec Require Import Linear Geometry Affine.
From Verif.Spec Require Import Linear Geometry Affine.
From Verif.Proofs Require AffineRot.
Import ListNotations.
Local Open Scope list_scope.
Local Open Scope R_scope.

(** the matrix of a rotation about a unit axis *)
Theorem C14_rotation : forall k a b, length k = 3%nat -> norm2 k = 1 ->
  rotation (rotmat k a) /\ mvec 3 3 (rotmat k a) k = k /\
  mmul 3 (rotmat k b) (rotmat k a) = rotmat k (a + b) /\ rotmat k 0 = mid 3.
Proof. exact AffineRot.C14_rotation_ok. Qed.
Print Assumptions C14_rotation.

Example C14_unit_example : norm2 [2/3; 1/3; 2/3] = 1.
Proof. exact AffineRot.C14_unit_ex. Qed.

(** so the 3x3 part of glm_rotate_make (theorem C13_rotate_make) is a rotation, and
    turning by [a] and then by [b] is turning by their sum *)
Theorem C14_rotate_make : forall axis a b, length axis = 3%nat -> eps <= norm axis ->
  let k := normalized axis in
  computes RS glm_rotate_make [Out 16; Val (VF a); In (fl axis)] VVoid [fl (rot4 k a)] /\
  rotation (lin4 (rot4 k a)) /\ moves (rot4 k a) axis axis /\
  mmul 4 (rot4 k b) (rot4 k a) = rot4 k (a + b) /\
  computes RS glm_rotate [InOut (fl (rot4 k b)); Val (VF a); In (fl axis)] VVoid [fl (rot4 k (a + b))].
Proof. exact AffineRot.C14_rotate_make_ok. Qed.
Print Assumptions C14_rotate_make.

Example C14_axis_example : eps <= norm [3; 0; 4].
Proof. exact AffineRot.C14_axis_ex. Qed.
