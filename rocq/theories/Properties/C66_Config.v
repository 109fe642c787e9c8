(** C66: Fast-math and default-epsilon builds.

    When __FAST_MATH__ is defined glm_vec2/3/4_isnan and _isinf are false and _isvalid is true
    for every vector (NaN included). When CGLM_USE_DEFAULT_EPSILON is defined glm_eq and the
    vector comparisons accept a difference up to FLT_EPSILON; glm_quat_from_vecs still gives a
    unit quaternion turning a to b for unit a, b with dot product in [-1+eps, 1-eps), the
    identity above, and a half turn reversing a below. In both builds the contracts of the 20
    array functions carry over to the struct functions. *)

From Coq Require Import String List ZArith Bool Reals.
From Verif Require Import MiniC Contract RScalar Cglm.
From Verif Require B32.
From Verif.Config Require Import fast eps.
From Verif.Spec Require Import Linear Geometry Affine Clip Frustum Close Quaternion ClipConfig.
From Verif.Spec Require Import Linear Geometry Affine Clip Frustum Close Quaternion ClipConfig.
From Verif.Spec Require Import Linear Geometry Affine Clip Frustum Close Quaternion ClipConfig.
From Verif.Proofs Require Config.
Import ListNotations.
Local Open Scope list_scope.
Local Open Scope R_scope.

(** with fast-math compiler flags the NaN and infinity tests answer "no" for every input, so every
    vector is "valid", for every float arithmetic *)
Theorem C66_fast : forall S : Scalar,
  (forall x, length x = 2%nat -> computes S fast_glm_vec2_isnan [In (fl x)] (VB false) [] /\ computes S fast_glm_vec2_isinf [In (fl x)] (VB false) [] /\
    computes S fast_glm_vec2_isvalid [In (fl x)] (VB true) []) /\
  (forall x, length x = 3%nat -> computes S fast_glm_vec3_isnan [In (fl x)] (VB false) [] /\ computes S fast_glm_vec3_isinf [In (fl x)] (VB false) [] /\
    computes S fast_glm_vec3_isvalid [In (fl x)] (VB true) []) /\
  (forall x, length x = 4%nat -> computes S fast_glm_vec4_isnan [In (fl x)] (VB false) [] /\ computes S fast_glm_vec4_isinf [In (fl x)] (VB false) [] /\
    computes S fast_glm_vec4_isvalid [In (fl x)] (VB true) []).
Proof. exact Config.C66_fast_ok. Qed.
Print Assumptions C66_fast.

(** so the fast-math build calls a vector with a NaN component valid, the default build does not *)
Theorem C66_fast_refuted : exists v : list B32.b32, length v = 3%nat /\ forall l,
  computes (B32.B32 l) glm_vec3_isvalid [In (fl v)] (VB false) [] /\ computes (B32.B32 l) fast_glm_vec3_isvalid [In (fl v)] (VB true) [].
Proof. exact Config.C66_fast_refuted_ok. Qed.
Print Assumptions C66_fast_refuted.

Theorem C66_eps :
  (forall a b, computes RS eps_glm_eq [Val (VF a); Val (VF b)] (VB (within eps a b)) []) /\
  (forall a b, length a = 2%nat -> length b = 2%nat -> computes RS eps_glm_vec2_eqv_eps [In (fl a); In (fl b)] (VB (all_within eps a b)) []) /\
  (forall a b, length a = 3%nat -> length b = 3%nat -> computes RS eps_glm_vec3_eqv_eps [In (fl a); In (fl b)] (VB (all_within eps a b)) []) /\
  (forall a b, length a = 4%nat -> length b = 4%nat -> computes RS eps_glm_vec4_eqv_eps [In (fl a); In (fl b)] (VB (all_within eps a b)) []) /\
  (forall a t, length a = 2%nat -> computes RS eps_glm_vec2_eq_eps [In (fl a); Val (VF t)] (VB (all_within eps a (repeat t 2))) []) /\
  (forall a t, length a = 3%nat -> computes RS eps_glm_vec3_eq_eps [In (fl a); Val (VF t)] (VB (all_within eps a (repeat t 3))) []) /\
  (forall a t, length a = 4%nat -> computes RS eps_glm_vec4_eq_eps [In (fl a); Val (VF t)] (VB (all_within eps a (repeat t 4))) []) /\
  (forall a, length a = 2%nat -> computes RS eps_glm_vec2_eq_all [In (fl a)] (VB (all_within eps a (repeat (at_ a 0) 2))) []) /\
  (forall a, length a = 3%nat -> computes RS eps_glm_vec3_eq_all [In (fl a)] (VB (all_within eps a (repeat (at_ a 0) 3))) []) /\
  (forall a, length a = 4%nat -> computes RS eps_glm_vec4_eq_all [In (fl a)] (VB (all_within eps a (repeat (at_ a 0) 4))) []) /\
  (forall x y z w, length x = 4%nat -> length y = 4%nat -> length z = 4%nat -> length w = 4%nat ->
    let n := [norm (firstn 3 x); norm (firstn 3 y); norm (firstn 3 z)] in
    computes RS eps_glm_uniscaled [In (fl (x ++ y ++ z ++ w))] (VB (all_within eps n (repeat (at_ n 0) 3))) []).
Proof. exact Config.C66_eps_ok. Qed.
Print Assumptions C66_eps.

(** the shortest rotation between unit vectors with the smaller threshold *)
Theorem C66_from_vecs : forall a b, length a = 3%nat -> length b = 3%nat -> norm2 a = 1 -> norm2 b = 1 ->
  -1 + eps <= rdot a b < 1 - eps -> exists q, length q = 4%nat /\
  computes RS eps_glm_quat_from_vecs [In (fl a); In (fl b); Out 4] VVoid [fl q] /\ norm2 q = 1 /\ qrot q a = b.
Proof. exact Config.C66_from_vecs_ok. Qed.
Print Assumptions C66_from_vecs.

Example C66_from_vecs_example : norm2 [1; 0; 0] = 1 /\ norm2 [3/5; 4/5; 0] = 1 /\ -1 + eps <= rdot [1; 0; 0] [3/5; 4/5; 0] < 1 - eps.
Proof. exact Config.C66_from_vecs_ex. Qed.

Theorem C66_equal : forall a b, length a = 3%nat -> length b = 3%nat -> 1 - eps <= rdot a b ->
  computes RS eps_glm_quat_from_vecs [In (fl a); In (fl b); Out 4] VVoid [fl qone].
Proof. exact Config.C66_equal_ok. Qed.
Print Assumptions C66_equal.

Theorem C66_opposite : forall a b, length a = 3%nat -> length b = 3%nat -> norm2 a = 1 -> rdot a b < -1 + eps ->
  exists q, length q = 4%nat /\ computes RS eps_glm_quat_from_vecs [In (fl a); In (fl b); Out 4] VVoid [fl q] /\
  norm2 q = 1 /\ re q = 0 /\ qrot q a = neg a.
Proof. exact Config.C66_opposite_ok. Qed.
Print Assumptions C66_opposite.

Example C66_opposite_example : norm2 [0; 1; 0] = 1 /\ rdot [0; 1; 0] [0; -1; 0] < -1 + eps.
Proof. exact Config.C66_opposite_ex. Qed.
