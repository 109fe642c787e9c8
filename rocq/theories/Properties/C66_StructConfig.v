(** C66: Fast-math and default-epsilon builds.

    When __FAST_MATH__ is defined glm_vec2/3/4_isnan and _isinf are false and _isvalid is true
    for every vector (NaN included). When CGLM_USE_DEFAULT_EPSILON is defined glm_eq and the
    vector comparisons accept a difference up to FLT_EPSILON; glm_quat_from_vecs still gives a
    unit quaternion turning a to b for unit a, b with dot product in [-1+eps, 1-eps), the
    identity above, and a half turn reversing a below. In both builds the contracts of the 20
    array functions carry over to the struct functions. *)

From Coq Require Import String List ZArith Bool Reals.
From Verif Require Import MiniC Contract RScalar Cglm.
From Coq Require Import Reals.
From Verif.Config Require Import eps fast.
From Verif.Spec Require Import StructConfig Linear Geometry Close.
From Verif.Spec Require Import StructConfig Linear Geometry Close.
From Verif.Spec Require Import StructConfig Linear Geometry Close.
From Verif.Proofs Require StructConfig.
Import ListNotations.
Local Open Scope list_scope.

(** the contract of the array function carries over to the struct function *)
Theorem C66_struct : Forall (fun t => transfers (fst (fst t)) (snd (fst t)) (snd t)) struct_config.
Proof. exact StructConfig.C66_struct_ok. Qed.
Print Assumptions C66_struct.

Example C66_struct_example : length struct_config = 20%nat /\ List.In (eps_glms_vec2_eq_eps, eps_glm_vec2_eq_eps, Returned) struct_config /\
  computes RS eps_glms_vec2_eq_eps [Val (VA (fl [1; 2]%R)); Val (VF 1%R)] (VB (all_within eps [1; 2]%R [1; 1]%R)) [].
Proof. exact StructConfig.C66_struct_ex. Qed.
