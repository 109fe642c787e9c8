(** C67: Axis, angle and direction of quaternions.

    Over the reals, for every unit quaternion whose imaginary part has length at least
    FLT_EPSILON, glm_quat_axis and glm_quat_angle return a unit axis and an angle in [0, 2 pi]
    whose quaternion is the argument; conversely they return the arguments of glm_quatv.
    glm_quat_for (glm_quat_forp) gives, for a direction and an up vector not parallel to it, a
    unit quaternion that takes the negative z axis to the direction, the x axis to a vector
    orthogonal to up and the y axis to the side of up. *)

From Coq Require Import String List ZArith Bool Reals.
From Verif Require Import MiniC Contract RScalar Cglm.
From Verif.Spec Require Import Linear Geometry Affine Quaternion.
From Verif.Spec Require Import Linear Geometry Affine Quaternion.
From Verif.Spec Require Import Linear Geometry Affine Quaternion.
From Verif.Proofs Require RotQuat.
Import ListNotations.
Local Open Scope list_scope.
Local Open Scope R_scope.

Theorem C67_imag : forall q, length q = 4%nat ->
  computes RS glm_quat_imagn [InA (fl q); Out 3] VVoid [fl (normalized (im q))] /\
  computes RS glm_quat_axis [InA (fl q); Out 3] VVoid [fl (normalized (im q))] /\
  computes RS glm_quat_imaglen [In (fl q)] (VF (norm (im q))) [].
Proof. exact RotQuat.C67_imag_ok. Qed.
Print Assumptions C67_imag.

(** glm_quat_axis and glm_quat_angle recover the axis and the angle of a unit quaternion *)
Theorem C67_axis_angle : forall q, length q = 4%nat -> norm2 q = 1 -> eps <= norm (im q) -> exists k a,
  computes RS glm_quat_axis [InA (fl q); Out 3] VVoid [fl k] /\ computes RS glm_quat_angle [In (fl q)] (VF a) [] /\
  length k = 3%nat /\ norm2 k = 1 /\ 0 <= a <= 2 * PI /\ axis_angle k a = q.
Proof. exact RotQuat.C67_axis_angle_ok. Qed.
Print Assumptions C67_axis_angle.

Example C67_axis_angle_example : let q := [0; 3/5; 0; -(4/5)] in norm2 q = 1 /\ eps <= norm (im q).
Proof. exact RotQuat.C67_axis_angle_ex. Qed.

(** and conversely return the arguments of glm_quatv, for angles between 0 and a full turn *)
Theorem C67_of_axis_angle : forall k a, length k = 3%nat -> norm2 k = 1 -> 0 <= a <= 2 * PI ->
  computes RS glm_quat_angle [In (fl (axis_angle k a))] (VF a) [] /\
  (eps <= sin (a / 2) -> computes RS glm_quat_axis [InA (fl (axis_angle k a)); Out 3] VVoid [fl k]).
Proof. exact RotQuat.C67_of_axis_angle_ok. Qed.
Print Assumptions C67_of_axis_angle.

Example C67_of_axis_angle_example : norm2 [0; 1; 0] = 1 /\ 0 <= PI <= 2 * PI /\ eps <= sin (PI / 2).
Proof. exact RotQuat.C67_of_axis_angle_ex. Qed.

(** viewer axes: the negative z axis goes to [dir], the x axis becomes orthogonal to [up] and the
    y axis lies on the side of [up] *)
Theorem C67_for : forall dir up, length dir = 3%nat -> length up = 3%nat -> eps <= norm dir -> eps <= norm (vcross (normalized dir) up) ->
  exists q, length q = 4%nat /\ computes RS glm_quat_for [In (fl dir); In (fl up); Out 4] VVoid [fl q] /\
  norm2 q = 1 /\ vscale (norm dir) (qrot q [0; 0; -1]) = dir /\ rdot (qrot q [1; 0; 0]) up = 0 /\ 0 < rdot (qrot q [0; 1; 0]) up.
Proof. exact RotQuat.C67_for_ok. Qed.
Print Assumptions C67_for.

Example C67_for_example : let dir := [0; 0; 2] in let up := [0; 3; 1] in
  eps <= norm dir /\ eps <= norm (vcross (normalized dir) up).
Proof. exact RotQuat.C67_for_ex. Qed.

(** glm_quat_make copies *)
Theorem C67_make : forall (S : Scalar) q, length q = 4%nat -> computes S glm_quat_make [In (fl q); Out 4] VVoid [fl q].
Proof. exact RotQuat.C67_make_ok. Qed.
Print Assumptions C67_make.
