(** C28: Euler angles extraction.

    Over the reals glm_euler_angles applied to glm_euler_xyz(a) returns angles whose
    glm_euler_xyz matrix is the same matrix, including at gimbal lock. When the x and z angles
    lie in (-pi, pi] and the y angle strictly between -pi/2 and pi/2, the angles that come back
    are exactly the ones that went in. *)

From Coq Require Import String List ZArith Bool Reals.
From Verif Require Import MiniC Contract RScalar Cglm.
From Verif.Spec Require Import Linear Geometry Affine Quaternion Euler.
From Verif.Spec Require Import Linear Geometry Affine Quaternion Euler.
From Verif.Proofs Require Euler.
Import ListNotations.
Local Open Scope list_scope.
Local Open Scope R_scope.

(** the result describes the rotation exactly, whatever the translation part; also at gimbal lock *)
Theorem C28_angles : forall r t, length r = 9%nat -> length t = 3%nat -> rotation r ->
  exists a, length a = 3%nat /\ computes RS glm_euler_angles [In (fl (aff r t)); Out 3] VVoid [fl a] /\
  euler (0, 1, 2)%nat a = r.
Proof. exact Euler.C28_angles_ok. Qed.
Print Assumptions C28_angles.

Example C28_angles_example : rotation [0; 1; 0; 0; 0; 1; 1; 0; 0] /\ rotation [2/3; 2/3; -1/3; -1/3; 2/3; 2/3; 2/3; -1/3; 2/3].
Proof. exact Euler.C28_angles_ex. Qed.

Theorem C28_roundtrip : forall a, length a = 3%nat -> exists b, length b = 3%nat /\
  computes RS glm_euler_xyz [In (fl a); Out 16] VVoid [fl (euler4 (0, 1, 2)%nat a)] /\
  computes RS glm_euler_angles [In (fl (euler4 (0, 1, 2)%nat a)); Out 3] VVoid [fl b] /\
  computes RS glm_euler_xyz [In (fl b); Out 16] VVoid [fl (euler4 (0, 1, 2)%nat a)].
Proof. exact Euler.C28_roundtrip_ok. Qed.
Print Assumptions C28_roundtrip.
