(** C18: Rotation about a pivot and spinning.

    Over the reals glm_rotate_at(m, p, angle, axis) multiplies m on the right by T(p)R T(-p),
    and glm_rotate_atm builds that matrix, so the pivot is a fixed point; glm_spinned keeps the
    position of the transform, whereas glm_spin, documented as 'not affected by position',
    moves it for some matrices. *)

From Coq Require Import String List ZArith Bool Reals.
From Verif Require Import MiniC Contract RScalar Cglm.
From Verif.Spec Require Import Linear Geometry Affine.
From Verif.Spec Require Import Linear Geometry Affine.
From Verif.Proofs Require AffineRot.
Import ListNotations.
Local Open Scope list_scope.
Local Open Scope R_scope.

Theorem C18_rotate_at : forall m p angle axis, length m = 16%nat -> length p = 3%nat -> length axis = 3%nat ->
  computes RS glm_rotate_at [InOut (fl m); In (fl p); Val (VF angle); In (fl axis)] VVoid
    [fl (mmul 4 m (rot_about p (normalized axis) angle))].
Proof. exact AffineRot.C18_rotate_at_ok. Qed.
Print Assumptions C18_rotate_at.

Theorem C18_rotate_atm : forall p angle axis, length p = 3%nat -> length axis = 3%nat ->
  computes RS glm_rotate_atm [Out 16; In (fl p); Val (VF angle); In (fl axis)] VVoid
    [fl (rot_about p (normalized axis) angle)].
Proof. exact AffineRot.C18_rotate_atm_ok. Qed.
Print Assumptions C18_rotate_atm.

(** the pivot is a fixed point *)
Theorem C18_pivot : forall p k angle, length p = 3%nat -> length k = 3%nat -> moves (rot_about p k angle) p p.
Proof. exact AffineRot.C18_pivot_ok. Qed.
Print Assumptions C18_pivot.

Theorem C18_spinned : forall r t angle axis, length r = 9%nat -> length t = 3%nat -> length axis = 3%nat ->
  let k := normalized axis in
  computes RS glm_spinned [InOut (fl (aff r t)); Val (VF angle); In (fl axis)] VVoid
    [fl (mmul 4 (rot_about t k angle) (aff r t))] /\
  mmul 4 (rot_about t k angle) (aff r t) = aff (mmul 3 (rotmat k angle) r) t.
Proof. exact AffineRot.C18_spinned_ok. Qed.
Print Assumptions C18_spinned.

(** glm_spin multiplies on the right by the rotation about the point (translation of m), which moves
    the position by r(t - Rt) *)
Theorem C18_spin : forall r t angle axis, length r = 9%nat -> length t = 3%nat -> length axis = 3%nat ->
  let k := normalized axis in
  computes RS glm_spin [InOut (fl (aff r t)); Val (VF angle); In (fl axis)] VVoid
    [fl (mmul 4 (aff r t) (rot_about t k angle))] /\
  mmul 4 (aff r t) (rot_about t k angle) =
  aff (mmul 3 r (rotmat k angle)) (vadd t (mvec 3 3 r (vsub t (mvec 3 3 (rotmat k angle) t)))).
Proof. exact AffineRot.C18_spin_ok. Qed.
Print Assumptions C18_spin.

(** half a turn about z of the translation by (1,0,0): the position becomes (3,0,0) *)
Theorem C18_spin_refuted : exists r t angle axis r' t', length r = 9%nat /\ length t = 3%nat /\ length axis = 3%nat /\
  eps <= norm axis /\
  computes RS glm_spin [InOut (fl (aff r t)); Val (VF angle); In (fl axis)] VVoid [fl (aff r' t')] /\ t' <> t.
Proof. exact AffineRot.C18_spin_refuted_ok. Qed.
Print Assumptions C18_spin_refuted.

(** glm_rotated_at: the translation of the matrix is lost, and only the opposite of the pivot is left *)
Theorem C18_rotated_at : forall r t p angle axis, length r = 9%nat -> length t = 3%nat -> length p = 3%nat -> length axis = 3%nat ->
  computes RS glm_rotated_at [InOut (fl (aff r t)); In (fl p); Val (VF angle); In (fl axis)] VVoid
    [fl (aff (mmul 3 (rotmat (normalized axis) angle) r) (neg p))].
Proof. exact AffineRot.C18_rotated_at_ok. Qed.
Print Assumptions C18_rotated_at.

Theorem C18_rotated_at_refuted : exists r t p angle axis, length r = 9%nat /\ length t = 3%nat /\ length p = 3%nat /\ length axis = 3%nat /\
  ~ computes RS glm_rotated_at [InOut (fl (aff r t)); In (fl p); Val (VF angle); In (fl axis)] VVoid
    [fl (mmul 4 (rot_about p (normalized axis) angle) (aff r t))].
Proof. exact AffineRot.C18_rotated_at_refuted_ok. Qed.
Print Assumptions C18_rotated_at_refuted.
