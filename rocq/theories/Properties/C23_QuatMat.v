(** C23: Quaternion to rotation matrix and back.

    Over the reals, for every unit quaternion, glm_quat_mat4/mat3 give an orthogonal matrix of
    determinant 1 acting on vectors exactly as q v q*, glm_quat_mat4t/mat3t its transpose;
    glm_mat4_quat and glm_mat3_quat applied to the result return q or -q, without division by
    zero or root of a negative number; for non-unit quaternions the matrix is in general not a
    rotation; every rotation matrix is the matrix of a unit quaternion and glm_mat3_quat /
    glm_mat4_quat return one. *)

From Coq Require Import String List ZArith Bool Reals.
From Verif Require Import MiniC Contract RScalar Cglm.
From Verif.Spec Require Import Linear Geometry Affine Client.
From Verif.Spec Require Import Linear Geometry Affine Client.
From Verif.Spec Require Import Quaternion.
From Verif.Proofs Require QuatMat.
Import ListNotations.
Local Open Scope list_scope.
Local Open Scope R_scope.

Theorem C23_mat4 : forall q, length q = 4%nat -> norm2 q = 1 ->
  computes RS glm_quat_mat4 [In (fl q); Out 16] VVoid [fl (aff (qmat q) [0; 0; 0])].
Proof. exact QuatMat.C23_mat4_ok. Qed.
Print Assumptions C23_mat4.

Theorem C23_mat4t : forall q, length q = 4%nat -> norm2 q = 1 ->
  computes RS glm_quat_mat4t [In (fl q); Out 16] VVoid [fl (aff (transp 3 3 (qmat q)) [0; 0; 0])].
Proof. exact QuatMat.C23_mat4t_ok. Qed.
Print Assumptions C23_mat4t.

Theorem C23_mat3 : forall q, length q = 4%nat -> norm2 q = 1 ->
  computes RS glm_quat_mat3 [In (fl q); Out 9] VVoid [fl (qmat q)].
Proof. exact QuatMat.C23_mat3_ok. Qed.
Print Assumptions C23_mat3.

Theorem C23_mat3t : forall q, length q = 4%nat -> norm2 q = 1 ->
  computes RS glm_quat_mat3t [In (fl q); Out 9] VVoid [fl (transp 3 3 (qmat q))].
Proof. exact QuatMat.C23_mat3t_ok. Qed.
Print Assumptions C23_mat3t.

Theorem C23_rotation : forall q v, length q = 4%nat -> length v = 3%nat -> norm2 q = 1 ->
  rotation (qmat q) /\ mvec 3 3 (qmat q) v = qrot q v.
Proof. exact QuatMat.C23_rotation_ok. Qed.
Print Assumptions C23_rotation.

Example C23_unit_example : norm2 [1/2; 1/2; 1/2; 1/2] = 1 /\ norm2 [2/3; 0; 1/3; -2/3] = 1.
Proof. exact QuatMat.C23_unit_ex. Qed.

(** a non-unit quaternion: the matrix written is not orthogonal *)
Theorem C23_nonunit_refuted : exists q m, length q = 4%nat /\ norm2 q <> 0 /\ length m = 9%nat /\
  computes RS glm_quat_mat3 [In (fl q); Out 9] VVoid [fl m] /\ ~ orthonormal m.
Proof. exact QuatMat.C23_nonunit_refuted_ok. Qed.
Print Assumptions C23_nonunit_refuted.

(** the quaternion is recovered up to sign in every branch of the conversion, and the conversion
    never divides by zero nor takes the root of a negative number *)
Theorem C23_back : forall q, length q = 4%nat -> norm2 q = 1 -> exists sg, (sg = 1 \/ sg = -1) /\
  computes RS glm_mat3_quat [In (fl (qmat q)); Out 4] VVoid [fl (vscale sg q)] /\
  computes RS glm_mat4_quat [In (fl (aff (qmat q) [0; 0; 0])); Out 4] VVoid [fl (vscale sg q)].
Proof. exact QuatMat.C23_back_ok. Qed.
Print Assumptions C23_back.
