(** C25: Spherical interpolation.

    Over the reals, for unit quaternions with |cos| < 1 and sin >= 0.001, glm_quat_slerp
    returns a unit quaternion for every t, equals +-from at t=0 and to at t=1; in the nearly
    antipodal branch it linearly interpolates between from and to without the sign flip, so the
    result can be far from unit length (midpoint near zero). glm_quat_slerp_longest does the
    same along the longer arc: unit length, from the opposite one of +-from (whose dot product
    with to is not positive) to to. glm_quat_lerpc interpolates with t clamped to [0,1];
    glm_quat_init and glm_quat_copy store the given components. *)

From Coq Require Import String List ZArith Bool Reals.
From Verif Require Import MiniC Contract RScalar Cglm.
From Verif.Spec Require Import Linear Geometry Affine Client.
From Verif.Spec Require Import Linear Geometry Affine Client.
From Verif.Spec Require Import Quaternion ScalarSpec.
From Verif.Proofs Require QuatSlerp.
Import ListNotations.
Local Open Scope list_scope.
Local Open Scope R_scope.

(** away from parallel: the combination of (plus or minus) [from] and [to] with sine weights *)
Theorem C25_slerp : forall p q t, length p = 4%nat -> length q = 4%nat -> Rabs (rdot p q) < 1 ->
  1 / 1000 <= sqrt (1 - Rabs (rdot p q) * Rabs (rdot p q)) ->
  computes RS glm_quat_slerp [InA (fl p); InA (fl q); Val (VF t); Out 4] VVoid [fl (sphere_mix p q t)].
Proof. exact QuatSlerp.C25_slerp_ok. Qed.
Print Assumptions C25_slerp.

(** which for unit quaternions has unit length, starts at (plus or minus) [from] and ends at [to] *)
Theorem C25_unit : forall p q t, length p = 4%nat -> length q = 4%nat -> norm2 p = 1 -> norm2 q = 1 -> Rabs (rdot p q) < 1 ->
  norm2 (sphere_mix p q t) = 1 /\ sphere_mix p q 0 = vscale (sign_of (rdot p q)) p /\ sphere_mix p q 1 = q.
Proof. exact QuatSlerp.C25_unit_ok. Qed.
Print Assumptions C25_unit.

(** parallel: [from]; nearly parallel or nearly opposite: straight-line interpolation of [from] and [to] *)
Theorem C25_parallel : forall p q t, length p = 4%nat -> length q = 4%nat -> 1 <= Rabs (rdot p q) ->
  computes RS glm_quat_slerp [InA (fl p); InA (fl q); Val (VF t); Out 4] VVoid [fl p].
Proof. exact QuatSlerp.C25_parallel_ok. Qed.
Print Assumptions C25_parallel.

Theorem C25_nearly : forall p q t, length p = 4%nat -> length q = 4%nat -> Rabs (rdot p q) < 1 ->
  sqrt (1 - Rabs (rdot p q) * Rabs (rdot p q)) < 1 / 1000 ->
  computes RS glm_quat_slerp [InA (fl p); InA (fl q); Val (VF t); Out 4] VVoid [fl (mix p q t)].
Proof. exact QuatSlerp.C25_nearly_ok. Qed.
Print Assumptions C25_nearly.

(** so for nearly opposite unit quaternions the result can be far from unit length *)
Theorem C25_antipodal_refuted : exists p q t r, length p = 4%nat /\ length q = 4%nat /\ length r = 4%nat /\ norm2 p = 1 /\ norm2 q = 1 /\
  computes RS glm_quat_slerp [InA (fl p); InA (fl q); Val (VF t); Out 4] VVoid [fl r] /\ norm2 r < 1 / 1000000.
Proof. exact QuatSlerp.C25_antipodal_refuted_ok. Qed.
Print Assumptions C25_antipodal_refuted.

Theorem C25_lerp :
  (forall p q t, length p = 4%nat -> length q = 4%nat ->
     computes RS glm_quat_lerp [InA (fl p); InA (fl q); Val (VF t); Out 4] VVoid [fl (mix p q t)]).
Proof. exact QuatSlerp.C25_lerp_ok. Qed.
Print Assumptions C25_lerp.

(** glm_quat_nlerp: normalised straight-line interpolation with the sign flip *)
Theorem C25_nlerp : forall p q t, length p = 4%nat -> length q = 4%nat ->
  computes RS glm_quat_nlerp [In (fl p); In (fl q); Val (VF t); Out 4] VVoid
    [fl (qnormalized (mix p (vscale (sign_of (rdot p q)) q) t))].
Proof. exact QuatSlerp.C25_nlerp_ok. Qed.
Print Assumptions C25_nlerp.
