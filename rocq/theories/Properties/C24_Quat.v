(** C24: Rotating a vector by a quaternion.

    Over the reals glm_quat_rotatev(q, v, dest) writes the imaginary part of p v p* with p =
    q/|q| (in place too), preserves lengths, and for unit q agrees with glm_quat_mat3(q) times
    v; glm_quatv(q, angle, axis) is the unit quaternion whose rotation is
    glm_rotate_make(angle, axis). *)

From Coq Require Import String List ZArith Bool Reals.
From Verif Require Import MiniC Contract RScalar Cglm.
From Verif.Spec Require Import Linear Geometry Affine Client.
From Verif.Spec Require Import Linear Geometry Affine Client.
From Verif.Spec Require Import Quaternion.
From Verif.Proofs Require Quat.
Import ListNotations.
Local Open Scope list_scope.
Local Open Scope R_scope.

(** glm_quat_normalize(_to) *)
Theorem C24_normalize :
  (forall q, length q = 4%nat -> computes RS glm_quat_normalize_to [InA (fl q); Out 4] VVoid [fl (qnormalized q)]) /\
  (forall q, length q = 4%nat -> computes RS glm_quat_normalize [InOut (fl q)] VVoid [fl (qnormalized q)]).
Proof. exact Quat.C24_normalize_ok. Qed.
Print Assumptions C24_normalize.

(** unchanged for unit quaternions, and of unit length always *)
Theorem C24_normalized : forall q, length q = 4%nat ->
  norm2 (qnormalized q) = 1 /\ (norm2 q = 1 -> qnormalized q = q).
Proof. exact Quat.C24_normalized_ok. Qed.
Print Assumptions C24_normalized.

(** glm_quat_rotatev: p v p* for the normalised quaternion p; the vector may be rotated in place *)
Theorem C24_rotatev : forall q v, length q = 4%nat -> length v = 3%nat ->
  computes RS glm_quat_rotatev [In (fl q); InA (fl v); Out 3] VVoid [fl (qrot (qnormalized q) v)].
Proof. exact Quat.C24_rotatev_ok. Qed.
Print Assumptions C24_rotatev.

(** for a unit quaternion p v p* is the image of v under the matrix [qmat p], and has the length of v *)
Theorem C24_rotation : forall p v, length p = 4%nat -> length v = 3%nat -> norm2 p = 1 ->
  qrot p v = mvec 3 3 (qmat p) v /\ norm2 (qrot p v) = norm2 v /\ re (qmul (qmul p (quat v 0)) (qconj p)) = 0.
Proof. exact Quat.C24_rotation_ok. Qed.
Print Assumptions C24_rotation.

Example C24_unit_example : norm2 [1/2; 1/2; 1/2; 1/2] = 1 /\ norm2 [2/3; 0; 1/3; -2/3] = 1.
Proof. exact Quat.C24_unit_ex. Qed.

(** glm_quatv, glm_quat: the quaternion of the rotation by [angle] about the normalised axis *)
Theorem C24_quatv :
  (forall axis angle, length axis = 3%nat ->
     computes RS glm_quatv [Out 4; Val (VF angle); In (fl axis)] VVoid [fl (axis_angle (normalized axis) angle)]) /\
  (forall x y z angle,
     computes RS glm_quat [Out 4; Val (VF angle); Val (VF x); Val (VF y); Val (VF z)] VVoid [fl (axis_angle (normalized [x; y; z]) angle)]).
Proof. exact Quat.C24_quatv_ok. Qed.
Print Assumptions C24_quatv.

(** that quaternion has unit length and rotates exactly as [rotated], i.e. as glm_rotate_make and
    glm_vec3_rotate (C13, C48) *)
Theorem C24_axis_angle : forall k angle v, length k = 3%nat -> length v = 3%nat -> norm2 k = 1 ->
  norm2 (axis_angle k angle) = 1 /\ qrot (axis_angle k angle) v = rotated k angle v /\ qmat (axis_angle k angle) = rotmat k angle.
Proof. exact Quat.C24_axis_angle_ok. Qed.
Print Assumptions C24_axis_angle.

Example C24_axis_example : norm2 [2/3; 1/3; 2/3] = 1.
Proof. exact Quat.C24_axis_ex. Qed.
