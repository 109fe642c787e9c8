(** C67: Axis, angle and direction of quaternions.

    Over the reals, for every unit quaternion whose imaginary part has length at least
    FLT_EPSILON, glm_quat_axis and glm_quat_angle return a unit axis and an angle in [0, 2 pi]
    whose quaternion is the argument; conversely they return the arguments of glm_quatv.
    glm_quat_for (glm_quat_forp) gives, for a direction and an up vector not parallel to it, a
    unit quaternion that takes the negative z axis to the direction, the x axis to a vector
    orthogonal to up and the y axis to the side of up. *)

From Coq Require Import String List ZArith Bool Reals.
From Verif Require Import MiniC Contract RScalar Cglm.
From Verif.Spec Require Import Linear Geometry Affine Quaternion.
From Verif.Spec Require Import Linear Geometry Affine Quaternion.
From Verif.Spec Require Import Linear Geometry Affine Quaternion.
From Verif.Proofs Require RotQuatP.
Import ListNotations.
Local Open Scope list_scope.
Local Open Scope R_scope.

Theorem C67_forp : forall from to up, length from = 3%nat -> length to = 3%nat -> length up = 3%nat ->
  let dir := vsub to from in eps <= norm dir -> eps <= norm (vcross (normalized dir) up) ->
  exists q, length q = 4%nat /\ computes RS glm_quat_forp [In (fl from); In (fl to); In (fl up); Out 4] VVoid [fl q] /\
  norm2 q = 1 /\ vscale (norm dir) (qrot q [0; 0; -1]) = dir /\ rdot (qrot q [1; 0; 0]) up = 0 /\ 0 < rdot (qrot q [0; 1; 0]) up.
Proof. exact RotQuatP.C67_forp_ok. Qed.
Print Assumptions C67_forp.

Example C67_forp_example : let from := [1; 1; 1] in let to := [1; 1; 3] in let dir := vsub to from in
  eps <= norm dir /\ eps <= norm (vcross (normalized dir) [0; 3; 1]).
Proof. exact RotQuatP.C67_forp_ex. Qed.
