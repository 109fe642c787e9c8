(** C23: Quaternion to rotation matrix and back.

    Over the reals, for every unit quaternion, glm_quat_mat4/mat3 give an orthogonal matrix of
    determinant 1 acting on vectors exactly as q v q*, glm_quat_mat4t/mat3t its transpose;
    glm_mat4_quat and glm_mat3_quat applied to the result return q or -q, without division by
    zero or root of a negative number; for non-unit quaternions the matrix is in general not a
    rotation; every rotation matrix is the matrix of a unit quaternion and glm_mat3_quat /
    glm_mat4_quat return one. *)

From Coq Require Import String List ZArith Bool Reals.
From Verif Require Import MiniC Contract RScalar Cglm.
From Verif.Spec Require Import Linear Geometry Affine Quaternion.
From Verif.Spec Require Import Linear Geometry Affine Quaternion.
From Verif.Spec Require Import Linear Geometry Affine Quaternion.
From Verif.Proofs Require RotQuat.
Import ListNotations.
Local Open Scope list_scope.
Local Open Scope R_scope.

(** ** C23: every rotation matrix *)
Theorem C23_from_rotation : forall m, length m = 9%nat -> rotation m -> exists q, length q = 4%nat /\ norm2 q = 1 /\ qmat q = m /\
  computes RS glm_mat3_quat [In (fl m); Out 4] VVoid [fl q] /\ computes RS glm_mat4_quat [In (fl (aff m [0; 0; 0])); Out 4] VVoid [fl q].
Proof. exact RotQuat.C23_from_rotation_ok. Qed.
Print Assumptions C23_from_rotation.

Example C23_from_rotation_example : rotation [0; 1; 0; -1; 0; 0; 0; 0; 1] /\ rotation [-1; 0; 0; 0; 1; 0; 0; 0; -1].
Proof. exact RotQuat.C23_from_rotation_ex. Qed.
