(** C29: Euler angles to quaternions.

    Over the reals each glm_euler_XYZ_quat_rh (and lh variant) is a unit quaternion whose
    rotation is that of the matrix function of the same order (the lh variant with z angle
    negated), and glm_euler_by_order-style dispatchers agree. *)

From Coq Require Import String List ZArith Bool Reals.
From Verif Require Import MiniC Contract RScalar Cglm.
From Verif.Spec Require Import Linear Geometry Affine Quaternion Euler.
From Verif.Spec Require Import Linear Geometry Affine Quaternion Euler.
From Verif.Proofs Require Euler.
Import ListNotations.
Local Open Scope list_scope.
Local Open Scope R_scope.

(** the product quaternion is the rotation of the matrix of the same order *)
Theorem C29_meaning : forall o a, List.In o axis_orders -> length a = 3%nat ->
  norm2 (qeuler o a) = 1 /\ qmat (qeuler o a) = euler o a.
Proof. exact Euler.C29_meaning_ok. Qed.
Print Assumptions C29_meaning.

Theorem C29_rh : forall a, length a = 3%nat ->
  computes RS glm_euler_xyz_quat_rh [In (fl a); Out 4] VVoid [fl (qeuler (0, 1, 2)%nat a)] /\
  computes RS glm_euler_xzy_quat_rh [In (fl a); Out 4] VVoid [fl (qeuler (0, 2, 1)%nat a)] /\
  computes RS glm_euler_yxz_quat_rh [In (fl a); Out 4] VVoid [fl (qeuler (1, 0, 2)%nat a)] /\
  computes RS glm_euler_yzx_quat_rh [In (fl a); Out 4] VVoid [fl (qeuler (1, 2, 0)%nat a)] /\
  computes RS glm_euler_zxy_quat_rh [In (fl a); Out 4] VVoid [fl (qeuler (2, 0, 1)%nat a)] /\
  computes RS glm_euler_zyx_quat_rh [In (fl a); Out 4] VVoid [fl (qeuler (2, 1, 0)%nat a)].
Proof. exact Euler.C29_rh_ok. Qed.
Print Assumptions C29_rh.

Theorem C29_lh : forall a, length a = 3%nat ->
  computes RS glm_euler_xyz_quat_lh [In (fl a); Out 4] VVoid [fl (qeuler (0, 1, 2)%nat (flip_z a))] /\
  computes RS glm_euler_xzy_quat_lh [In (fl a); Out 4] VVoid [fl (qeuler (0, 2, 1)%nat (flip_z a))] /\
  computes RS glm_euler_yxz_quat_lh [In (fl a); Out 4] VVoid [fl (qeuler (1, 0, 2)%nat (flip_z a))] /\
  computes RS glm_euler_yzx_quat_lh [In (fl a); Out 4] VVoid [fl (qeuler (1, 2, 0)%nat (flip_z a))] /\
  computes RS glm_euler_zxy_quat_lh [In (fl a); Out 4] VVoid [fl (qeuler (2, 0, 1)%nat (flip_z a))] /\
  computes RS glm_euler_zyx_quat_lh [In (fl a); Out 4] VVoid [fl (qeuler (2, 1, 0)%nat (flip_z a))].
Proof. exact Euler.C29_lh_ok. Qed.
Print Assumptions C29_lh.

(** the names without a suffix are the right-handed ones in the default build *)
Theorem C29_default : forall a, length a = 3%nat ->
  computes RS glm_euler_xyz_quat [In (fl a); Out 4] VVoid [fl (qeuler (0, 1, 2)%nat a)] /\
  computes RS glm_euler_xzy_quat [In (fl a); Out 4] VVoid [fl (qeuler (0, 2, 1)%nat a)] /\
  computes RS glm_euler_yxz_quat [In (fl a); Out 4] VVoid [fl (qeuler (1, 0, 2)%nat a)] /\
  computes RS glm_euler_yzx_quat [In (fl a); Out 4] VVoid [fl (qeuler (1, 2, 0)%nat a)] /\
  computes RS glm_euler_zxy_quat [In (fl a); Out 4] VVoid [fl (qeuler (2, 0, 1)%nat a)] /\
  computes RS glm_euler_zyx_quat [In (fl a); Out 4] VVoid [fl (qeuler (2, 1, 0)%nat a)].
Proof. exact Euler.C29_default_ok. Qed.
Print Assumptions C29_default.
