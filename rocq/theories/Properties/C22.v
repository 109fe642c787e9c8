(** C22: Quaternion inverse and conjugate.

    Over the reals, for every non-zero quaternion glm_quat_inv is a two-sided inverse for
    glm_quat_mul and glm_quat_conjugate negates exactly the imaginary part, both also in place;
    for the zero quaternion the inverse divides by zero. *)

From Coq Require Import String List ZArith Bool Reals.
From Verif Require Import MiniC Contract RScalar Cglm.
From Verif.Spec Require Import Linear Geometry Affine Client.
From Verif.Spec Require Import Linear Geometry Affine Client.
From Verif.Spec Require Import Quaternion.
From Verif.Proofs Require Quat.
Import ListNotations.
Local Open Scope list_scope.
Local Open Scope R_scope.

(** ** C22 *)
Theorem C22_conjugate : forall q, length q = 4%nat -> computes RS glm_quat_conjugate [InA (fl q); Out 4] VVoid [fl (qconj q)].
Proof. exact Quat.C22_conjugate_ok. Qed.
Print Assumptions C22_conjugate.

Theorem C22_inv : forall q, length q = 4%nat -> norm2 q <> 0 -> exists r, length r = 4%nat /\
  computes RS glm_quat_inv [InA (fl q); Out 4] VVoid [fl r] /\ qmul q r = qone /\ qmul r q = qone.
Proof. exact Quat.C22_inv_ok. Qed.
Print Assumptions C22_inv.

Theorem C22_inv_zero : forall q, length q = 4%nat -> norm2 q = 0 -> aborts RS glm_quat_inv [InA (fl q); Out 4] XFloatDomain.
Proof. exact Quat.C22_inv_zero_ok. Qed.
Print Assumptions C22_inv_zero.

Example C22_inv_example : norm2 [1; 2; 3; 4] <> 0 /\ norm2 [0; 0; 0; 0] = 0.
Proof. exact Quat.C22_inv_ex. Qed.
