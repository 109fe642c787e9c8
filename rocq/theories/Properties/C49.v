(** C49: Projection and angle.

    Over the reals glm_vec3_proj(a,b) is the orthogonal projection (a-proj orthogonal to b) and
    divides by zero only for b=0; glm_vec3_angle of non-zero vectors is the angle in [0,pi]
    whose cosine is a.b/(|a||b|). *)

From Coq Require Import String List ZArith Bool Reals.
From Verif Require Import MiniC Contract RScalar Cglm.
From Verif.Spec Require Import Linear Geometry Client.
From Verif.Proofs Require VecRot.
Import ListNotations.
Local Open Scope list_scope.
Local Open Scope R_scope.

(** ** C49 *)
Theorem C49_proj : forall a b, length a = 3%nat -> length b = 3%nat -> norm2 b <> 0 ->
  computes RS glm_vec3_proj [InA (fl a); InA (fl b); Out 3] VVoid [fl (vscale (rdot a b / norm2 b) b)] /\
  rdot (vsub a (vscale (rdot a b / norm2 b) b)) b = 0.
Proof. exact VecRot.C49_proj_ok. Qed.
Print Assumptions C49_proj.

Theorem C49_proj_zero : forall a b, length a = 3%nat -> length b = 3%nat -> norm2 b = 0 ->
  aborts RS glm_vec3_proj [InA (fl a); InA (fl b); Out 3] XFloatDomain.
Proof. exact VecRot.C49_proj_zero_ok. Qed.
Print Assumptions C49_proj_zero.

Example C49_proj_example : norm2 [1; 2; 3] <> 0 /\ norm2 [0; 0; 0] = 0.
Proof. exact VecRot.C49_proj_ex. Qed.

Theorem C49_angle : forall a b, length a = 3%nat -> length b = 3%nat -> norm2 a <> 0 -> norm2 b <> 0 ->
  computes RS glm_vec3_angle [In (fl a); In (fl b)] (VF (acos (rdot a b / (norm a * norm b)))) [] /\
  0 <= acos (rdot a b / (norm a * norm b)) <= PI /\
  cos (acos (rdot a b / (norm a * norm b))) = rdot a b / (norm a * norm b).
Proof. exact VecRot.C49_angle_ok. Qed.
Print Assumptions C49_angle.

(** parallel, opposite and orthogonal vectors *)
Example C49_angle_example : norm2 [3; 0; 4] <> 0 /\ norm2 [0; 2; 0] <> 0 /\ rdot [3; 0; 4] [0; 2; 0] / (norm [3; 0; 4] * norm [0; 2; 0]) = 0.
Proof. exact VecRot.C49_angle_ex. Qed.

(** a zero vector: division by zero *)
Theorem C49_angle_zero : forall a b, length a = 3%nat -> length b = 3%nat -> norm2 a = 0 \/ norm2 b = 0 ->
  aborts RS glm_vec3_angle [In (fl a); In (fl b)] XFloatDomain.
Proof. exact VecRot.C49_angle_zero_ok. Qed.
Print Assumptions C49_angle_zero.
