(** C17: Post-transform rotations lose the translation.

    The documentation calls glm_rotated, glm_rotated_x/y/z post transforms ('applies to
    existing transform as last transform'). Over the reals they write R*M for matrices M
    without translation, but for every M with translation the result keeps column 3 of the
    rotation instead of rotating the translation of M: they differ from R*M exactly when the
    translation is non-zero. *)

From Coq Require Import String List ZArith Bool Reals.
From Verif Require Import MiniC Contract RScalar Cglm.
From Verif.Spec Require Import Linear Geometry Affine.
From Verif.Spec Require Import Linear Geometry Affine.
From Verif.Proofs Require AffineRot.
Import ListNotations.
Local Open Scope list_scope.
Local Open Scope R_scope.

(** for an affine matrix with linear part [r] the functions return the rotated linear part
    and no translation at all *)
Theorem C17_rotated_any :
  (forall r t angle axis, length r = 9%nat -> length t = 3%nat -> length axis = 3%nat ->
     computes RS glm_rotated [InOut (fl (aff r t)); Val (VF angle); In (fl axis)] VVoid
       [fl (aff (mmul 3 (rotmat (normalized axis) angle) r) [0; 0; 0])]) /\
  (forall r t angle, length r = 9%nat -> length t = 3%nat ->
     computes RS glm_rotated_x [InA (fl (aff r t)); Val (VF angle); Out 16] VVoid [fl (aff (mmul 3 (rotmat [1; 0; 0] angle) r) [0; 0; 0])]) /\
  (forall r t angle, length r = 9%nat -> length t = 3%nat ->
     computes RS glm_rotated_y [InA (fl (aff r t)); Val (VF angle); Out 16] VVoid [fl (aff (mmul 3 (rotmat [0; 1; 0] angle) r) [0; 0; 0])]) /\
  (forall r t angle, length r = 9%nat -> length t = 3%nat ->
     computes RS glm_rotated_z [InA (fl (aff r t)); Val (VF angle); Out 16] VVoid [fl (aff (mmul 3 (rotmat [0; 0; 1] angle) r) [0; 0; 0])]).
Proof. exact AffineRot.C17_rotated_any_ok. Qed.
Print Assumptions C17_rotated_any.

(** the documented result, rotation times matrix, agrees with that exactly when the matrix
    has no translation *)
Theorem C17_exactly : forall r t k angle, length r = 9%nat -> length t = 3%nat -> length k = 3%nat -> norm2 k = 1 ->
  (aff (mmul 3 (rotmat k angle) r) [0; 0; 0] = mmul 4 (rot4 k angle) (aff r t) <-> t = [0; 0; 0]).
Proof. exact AffineRot.C17_exactly_ok. Qed.
Print Assumptions C17_exactly.

Theorem C17_refuted : exists r t angle, length r = 9%nat /\ length t = 3%nat /\
  ~ computes RS glm_rotated_z [InA (fl (aff r t)); Val (VF angle); Out 16] VVoid [fl (mmul 4 (rot4 [0; 0; 1] angle) (aff r t))].
Proof. exact AffineRot.C17_refuted_ok. Qed.
Print Assumptions C17_refuted.
