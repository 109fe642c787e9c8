(** C24: Rotating a vector by a quaternion.

    Over the reals glm_quat_rotatev(q, v, dest) writes the imaginary part of p v p* with p =
    q/|q| (in place too), preserves lengths, and for unit q agrees with glm_quat_mat3(q) times
    v; glm_quatv(q, angle, axis) is the unit quaternion whose rotation is
    glm_rotate_make(angle, axis). *)

From Coq Require Import String List ZArith Bool Reals.
From Verif Require Import MiniC Contract RScalar Cglm.
From Verif.Spec Require Import Linear Geometry Affine Client.
From Verif.Spec Require Import Linear Geometry Affine Client.
From Verif.Spec Require Import Quaternion.
From Verif.Proofs Require QuatMat.
Import ListNotations.
Local Open Scope list_scope.
Local Open Scope R_scope.

Theorem C24_rotate : forall m q, length m = 16%nat -> length q = 4%nat -> norm2 q = 1 ->
  computes RS glm_quat_rotate [InA (fl m); In (fl q); Out 16] VVoid [fl (mmul 4 m (aff (qmat q) [0; 0; 0]))].
Proof. exact QuatMat.C24_rotate_ok. Qed.
Print Assumptions C24_rotate.

Theorem C24_rotate_at : forall m q p, length m = 16%nat -> length q = 4%nat -> length p = 3%nat -> norm2 q = 1 ->
  computes RS glm_quat_rotate_at [InOut (fl m); In (fl q); In (fl p)] VVoid
    [fl (mmul 4 m (aff (qmat q) (vsub p (qrot q p))))].
Proof. exact QuatMat.C24_rotate_at_ok. Qed.
Print Assumptions C24_rotate_at.

Theorem C24_rotate_atm : forall q p, length q = 4%nat -> length p = 3%nat -> norm2 q = 1 ->
  computes RS glm_quat_rotate_atm [Out 16; In (fl q); In (fl p)] VVoid [fl (aff (qmat q) (vsub p (qrot q p)))] /\
  moves (aff (qmat q) (vsub p (qrot q p))) p p.
Proof. exact QuatMat.C24_rotate_atm_ok. Qed.
Print Assumptions C24_rotate_atm.

(** glm_quat_look: world to view transform of a viewer at [eye] with orientation [q] *)
Theorem C24_look : forall eye q, length eye = 3%nat -> length q = 4%nat -> norm2 q = 1 ->
  let r := transp 3 3 (qmat q) in
  computes RS glm_quat_look [In (fl eye); In (fl q); Out 16] VVoid [fl (aff r (neg (mvec 3 3 r eye)))] /\
  moves (aff r (neg (mvec 3 3 r eye))) eye [0; 0; 0].
Proof. exact QuatMat.C24_look_ok. Qed.
Print Assumptions C24_look.
