(** C48: Axis-angle rotation of a vector (Rodrigues).

    Over the reals glm_vec3_rotate(v, angle, axis) rotates v: it preserves length and the
    component along the axis, is additive in the angle, and equals glm_rotate_make(angle, axis)
    applied to v. *)

From Coq Require Import String List ZArith Bool Reals.
From Verif Require Import MiniC Contract RScalar Cglm.
From Verif.Spec Require Import Linear Geometry Client.
From Verif.Proofs Require VecRot.
Import ListNotations.
Local Open Scope list_scope.
Local Open Scope R_scope.

(** the rotation about a unit axis: length, axis component and axis itself are kept, it
    acts linearly by the matrix [rotmat], angles add up, and angle 0 does nothing *)
Theorem C48_rotation : forall k v a b, length k = 3%nat -> length v = 3%nat -> norm2 k = 1 ->
  norm2 (rotated k a v) = norm2 v /\ rdot k (rotated k a v) = rdot k v /\ rotated k a k = k /\
  rotated k a v = mvec 3 3 (rotmat k a) v /\ rotated k b (rotated k a v) = rotated k (a + b) v /\ rotated k 0 v = v.
Proof. exact VecRot.C48_rotation_ok. Qed.
Print Assumptions C48_rotation.

(** and it turns: the cosine of the angle between an orthogonal vector and its image is cos a *)
Theorem C48_turns : forall k v a, length k = 3%nat -> length v = 3%nat -> norm2 k = 1 -> rdot k v = 0 ->
  rdot v (rotated k a v) = cos a * norm2 v /\ rdot k (vcross v (rotated k a v)) = sin a * norm2 v.
Proof. exact VecRot.C48_turns_ok. Qed.
Print Assumptions C48_turns.

Example C48_unit_axis_example : norm2 [2/3; 1/3; 2/3] = 1 /\ rdot [2/3; 1/3; 2/3] [1; -2; 0] = 0.
Proof. exact VecRot.C48_unit_axis_ex. Qed.

(** vec2: the plane rotation, counter-clockwise, also in place *)
Theorem C48_vec2_rotate : forall v angle, length v = 2%nat ->
  computes RS glm_vec2_rotate [InA (fl v); Val (VF angle); Out 2] VVoid
    [fl [cos angle * at_ v 0 - sin angle * at_ v 1; sin angle * at_ v 0 + cos angle * at_ v 1]].
Proof. exact VecRot.C48_vec2_rotate_ok. Qed.
Print Assumptions C48_vec2_rotate.

(** glm_vec3_rotate_m3: the matrix with its columns normalised, applied to the vector *)
Theorem C48_rotate_m3 : forall x y z v, length x = 3%nat -> length y = 3%nat -> length z = 3%nat -> length v = 3%nat ->
  computes RS glm_vec3_rotate_m3 [In (fl (x ++ y ++ z)); InA (fl v); Out 3] VVoid
    [fl (mvec 3 3 (normalized x ++ normalized y ++ normalized z) v)].
Proof. exact VecRot.C48_rotate_m3_ok. Qed.
Print Assumptions C48_rotate_m3.

Theorem C48_rotate_m4 : forall x y z w v, length x = 4%nat -> length y = 4%nat -> length z = 4%nat -> length w = 4%nat -> length v = 3%nat ->
  computes RS glm_vec3_rotate_m4 [In (fl (x ++ y ++ z ++ w)); InA (fl v); Out 3] VVoid
    [fl (firstn 3 (mvec 3 4 (normalized x ++ normalized y ++ normalized z) v))].
Proof. exact VecRot.C48_rotate_m4_ok. Qed.
Print Assumptions C48_rotate_m4.
