(** C26: Shortest rotation between two vectors.

    Over the reals glm_quat_from_vecs of two unit vectors returns a unit quaternion that
    rotates the first onto the second when their dot product lies strictly between the
    thresholds; for opposite vectors the auxiliary orthogonal vector of glm_vec3_ortho is
    orthogonal to its input but may be the zero vector for some non-zero input. *)

From Coq Require Import String List ZArith Bool Reals.
From Verif Require Import MiniC Contract RScalar Cglm.
From Verif.Spec Require Import Linear Geometry Affine Client.
From Verif.Spec Require Import Linear Geometry Affine Client.
From Verif.Spec Require Import Quaternion ScalarSpec.
From Verif.Proofs Require QuatSlerp.
Import ListNotations.
Local Open Scope list_scope.
Local Open Scope R_scope.

(** glm_vec3_ortho: orthogonal to its input (also in place), and not zero if the input is a unit vector *)
Theorem C26_ortho : forall v, length v = 3%nat -> exists o, length o = 3%nat /\
  computes RS glm_vec3_ortho [InA (fl v); Out 3] VVoid [fl o] /\ rdot v o = 0 /\ (norm2 v = 1 -> norm2 o <> 0).
Proof. exact QuatSlerp.C26_ortho_ok. Qed.
Print Assumptions C26_ortho.

(** but it is zero for some non-zero vectors *)
Theorem C26_ortho_zero_refuted : exists v, length v = 3%nat /\ norm2 v <> 0 /\
  computes RS glm_vec3_ortho [InA (fl v); Out 3] VVoid [fl [0; 0; 0]].
Proof. exact QuatSlerp.C26_ortho_zero_refuted_ok. Qed.
Print Assumptions C26_ortho_zero_refuted.

(** unit vectors that are neither nearly equal nor nearly opposite: a unit quaternion rotating the
    first onto the second *)
Theorem C26_from_vecs : forall a b, length a = 3%nat -> length b = 3%nat -> norm2 a = 1 -> norm2 b = 1 ->
  -1 + tol <= rdot a b < 1 - tol -> exists q, length q = 4%nat /\
  computes RS glm_quat_from_vecs [In (fl a); In (fl b); Out 4] VVoid [fl q] /\ norm2 q = 1 /\ qrot q a = b.
Proof. exact QuatSlerp.C26_from_vecs_ok. Qed.
Print Assumptions C26_from_vecs.

Example C26_from_vecs_example : norm2 [1; 0; 0] = 1 /\ norm2 [3/5; 4/5; 0] = 1 /\ -1 + tol <= rdot [1; 0; 0] [3/5; 4/5; 0] < 1 - tol.
Proof. exact QuatSlerp.C26_from_vecs_ex. Qed.

(** nearly equal: the identity *)
Theorem C26_equal : forall a b, length a = 3%nat -> length b = 3%nat -> 1 - tol <= rdot a b ->
  computes RS glm_quat_from_vecs [In (fl a); In (fl b); Out 4] VVoid [fl qone].
Proof. exact QuatSlerp.C26_equal_ok. Qed.
Print Assumptions C26_equal.

(** nearly opposite unit vectors: half a turn about an axis orthogonal to the first, which goes to
    its opposite *)
Theorem C26_opposite : forall a b, length a = 3%nat -> length b = 3%nat -> norm2 a = 1 -> rdot a b < -1 + tol ->
  exists q, length q = 4%nat /\ computes RS glm_quat_from_vecs [In (fl a); In (fl b); Out 4] VVoid [fl q] /\
  norm2 q = 1 /\ re q = 0 /\ qrot q a = neg a.
Proof. exact QuatSlerp.C26_opposite_ok. Qed.
Print Assumptions C26_opposite.

Example C26_opposite_example : norm2 [0; 1; 0] = 1 /\ rdot [0; 1; 0] [0; -1; 0] < -1 + tol.
Proof. exact QuatSlerp.C26_opposite_ex. Qed.
