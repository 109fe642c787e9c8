(** C25: Spherical interpolation.

    Over the reals, for unit quaternions with |cos| < 1 and sin >= 0.001, glm_quat_slerp
    returns a unit quaternion for every t, equals +-from at t=0 and to at t=1; in the nearly
    antipodal branch it linearly interpolates between from and to without the sign flip, so the
    result can be far from unit length (midpoint near zero). glm_quat_slerp_longest does the
    same along the longer arc: unit length, from the opposite one of +-from (whose dot product
    with to is not positive) to to. glm_quat_lerpc interpolates with t clamped to [0,1];
    glm_quat_init and glm_quat_copy store the given components. *)

From Coq Require Import String List ZArith Bool Reals.
From Verif Require Import MiniC Contract RScalar Cglm.
From Verif.Spec Require Import Linear Geometry Affine Client Clip Frustum Limits Types Agree Builds View.
From Verif.Spec Require Import Linear Geometry Affine Client Clip Frustum Limits Types Agree Builds View.
From Verif.Spec Require Import Quaternion ScalarSpec Clip Frustum Limits Types Agree Builds View.
From Verif.Proofs Require Gaps.
Import ListNotations.
Local Open Scope list_scope.
Local Open Scope R_scope.

(** ** C25 *)
Theorem C25_lerpc : forall p q t, length p = 4%nat -> length q = 4%nat ->
  computes RS glm_quat_lerpc [InA (fl p); InA (fl q); Val (VF t); Out 4] VVoid [fl (mix p q (clamped 0 1 t))].
Proof. exact Gaps.C25_lerpc_ok. Qed.
Print Assumptions C25_lerpc.

(** the interpolation along the longer arc *)
Theorem C25_longest : forall p q t, length p = 4%nat -> length q = 4%nat -> Rabs (rdot p q) < 1 ->
  1 / 1000 <= sqrt (1 - Rabs (rdot p q) * Rabs (rdot p q)) ->
  computes RS glm_quat_slerp_longest [InA (fl p); InA (fl q); Val (VF t); Out 4] VVoid [fl (long_mix p q t)].
Proof. exact Gaps.C25_longest_ok. Qed.
Print Assumptions C25_longest.

Theorem C25_longest_unit : forall p q t, length p = 4%nat -> length q = 4%nat -> norm2 p = 1 -> norm2 q = 1 -> Rabs (rdot p q) < 1 ->
  norm2 (long_mix p q t) = 1 /\ long_mix p q 0 = vscale (- sign_of (rdot p q)) p /\ long_mix p q 1 = q /\ rdot (long_mix p q 0) q <= 0.
Proof. exact Gaps.C25_longest_unit_ok. Qed.
Print Assumptions C25_longest_unit.

Theorem C25_longest_parallel : forall p q t, length p = 4%nat -> length q = 4%nat -> 1 <= Rabs (rdot p q) ->
  computes RS glm_quat_slerp_longest [InA (fl p); InA (fl q); Val (VF t); Out 4] VVoid [fl p].
Proof. exact Gaps.C25_longest_parallel_ok. Qed.
Print Assumptions C25_longest_parallel.

Theorem C25_longest_nearly : forall p q t, length p = 4%nat -> length q = 4%nat -> Rabs (rdot p q) < 1 ->
  sqrt (1 - Rabs (rdot p q) * Rabs (rdot p q)) < 1 / 1000 ->
  computes RS glm_quat_slerp_longest [InA (fl p); InA (fl q); Val (VF t); Out 4] VVoid [fl (mix p q t)].
Proof. exact Gaps.C25_longest_nearly_ok. Qed.
Print Assumptions C25_longest_nearly.

(** the hypotheses hold for the two quaternions of C25_ex *)
Theorem C25_init_copy :
  (forall x y z w, computes RS glm_quat_init [Out 4; Val (VF x); Val (VF y); Val (VF z); Val (VF w)] VVoid [fl [x; y; z; w]]) /\
  (forall q, length q = 4%nat -> computes RS glm_quat_copy [InA (fl q); Out 4] VVoid [fl q]).
Proof. exact Gaps.C25_init_copy_ok. Qed.
Print Assumptions C25_init_copy.
