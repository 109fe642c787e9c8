(** C27: Euler angles: matrices by order.

    Over the reals each glm_euler_xyz ... glm_euler_zyx equals the product of the axis
    rotations in the named order, glm_euler_by_order(angles, ord) equals the function of that
    order for each of the six order constants, and leaves the 3x3 part unwritten for any other
    value. *)

From Coq Require Import String List ZArith Bool Reals.
From Verif Require Import MiniC Contract RScalar Cglm.
From Verif.Spec Require Import Linear Geometry Affine Quaternion Euler.
From Verif.Spec Require Import Linear Geometry Affine Quaternion Euler.
From Verif.Proofs Require Euler.
Import ListNotations.
Local Open Scope list_scope.
Local Open Scope R_scope.

Theorem C27_matrices : forall a, length a = 3%nat ->
  computes RS glm_euler_xyz [In (fl a); Out 16] VVoid [fl (euler4 (0, 1, 2)%nat a)] /\
  computes RS glm_euler_xzy [In (fl a); Out 16] VVoid [fl (euler4 (0, 2, 1)%nat a)] /\
  computes RS glm_euler_yxz [In (fl a); Out 16] VVoid [fl (euler4 (1, 0, 2)%nat a)] /\
  computes RS glm_euler_yzx [In (fl a); Out 16] VVoid [fl (euler4 (1, 2, 0)%nat a)] /\
  computes RS glm_euler_zxy [In (fl a); Out 16] VVoid [fl (euler4 (2, 0, 1)%nat a)] /\
  computes RS glm_euler_zyx [In (fl a); Out 16] VVoid [fl (euler4 (2, 1, 0)%nat a)] /\
  computes RS glm_euler [In (fl a); Out 16] VVoid [fl (euler4 (0, 1, 2)%nat a)].
Proof. exact Euler.C27_matrices_ok. Qed.
Print Assumptions C27_matrices.

(** each of these is a rotation *)
Theorem C27_rotation : forall o a, List.In o axis_orders -> length a = 3%nat -> rotation (euler o a).
Proof. exact Euler.C27_rotation_ok. Qed.
Print Assumptions C27_rotation.

Theorem C27_by_order : forall o a, List.In o axis_orders -> length a = 3%nat ->
  computes RS glm_euler_by_order [In (fl a); Val (VI (order_code o)); Out 16] VVoid [fl (euler4 o a)].
Proof. exact Euler.C27_by_order_ok. Qed.
Print Assumptions C27_by_order.

(** any other value of the order leaves the 3x3 part as it was *)
Theorem C27_no_order : forall z a d, ~ List.In z (map order_code axis_orders) -> length a = 3%nat -> length d = 16%nat ->
  computes RS glm_euler_by_order [In (fl a); Val (VI z); InOut (fl d)] VVoid [fl (aff (lin4 d) [0; 0; 0])].
Proof. exact Euler.C27_no_order_ok. Qed.
Print Assumptions C27_no_order.

Example C27_no_order_example : ~ List.In 0%Z (map order_code axis_orders).
Proof. exact Euler.C27_no_order_ex. Qed.

(** the order number of three axis numbers *)
Theorem C27_order : forall i j k, (i < 3)%nat -> (j < 3)%nat -> (k < 3)%nat ->
  computes RS glm_euler_order [In (il [Z.of_nat i; Z.of_nat j; Z.of_nat k])] (VI (order_code (i, j, k))) [].
Proof. exact Euler.C27_order_ok. Qed.
Print Assumptions C27_order.
