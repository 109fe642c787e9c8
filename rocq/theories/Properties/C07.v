(** C07: Determinant.

    Over the reals glm_mat2_det, glm_mat3_det and glm_mat4_det return the Leibniz determinant;
    it is multiplicative over glm_matN_mul and invariant under glm_matN_transpose. *)

From Coq Require Import String List ZArith Bool Reals.
From Verif Require Import MiniC Contract RScalar Cglm.
From Verif.Spec Require Import Linear Client.
From Verif.Proofs Require Matrix.
Import ListNotations.
Local Open Scope list_scope.
Local Open Scope R_scope.

Theorem C07_det :
  (forall A, length A = 4%nat -> computes RS glm_mat2_det [In (fl A)] (VF (det 2 A)) []) /\
  (forall A, length A = 9%nat -> computes RS glm_mat3_det [In (fl A)] (VF (det 3 A)) []) /\
  (forall A, length A = 16%nat -> computes RS glm_mat4_det [In (fl A)] (VF (det 4 A)) []).
Proof. exact Matrix.C07_det_ok. Qed.
Print Assumptions C07_det.

(** multiplicative over the product computed by glm_matN_mul, and invariant under transposition *)
Theorem C07_multiplicative : forall n, (n = 2 \/ n = 3 \/ n = 4)%nat ->
  forall A B, length A = (n * n)%nat -> length B = (n * n)%nat ->
  det n (mmul n A B) = det n A * det n B /\ det n (transp n n A) = det n A /\ det n (mid n) = 1.
Proof. exact Matrix.C07_multiplicative_ok. Qed.
Print Assumptions C07_multiplicative.

Theorem C07_trace :
  (forall A, length A = 4%nat -> computes RS glm_mat2_trace [In (fl A)] (VF (Rsum 2 (fun i => ent 2 A i i))) []) /\
  (forall A, length A = 9%nat -> computes RS glm_mat3_trace [In (fl A)] (VF (Rsum 3 (fun i => ent 3 A i i))) []) /\
  (forall A, length A = 16%nat -> computes RS glm_mat4_trace [In (fl A)] (VF (Rsum 4 (fun i => ent 4 A i i))) []) /\
  (forall A, length A = 16%nat -> computes RS glm_mat4_trace3 [In (fl A)] (VF (Rsum 3 (fun i => ent 4 A i i))) []).
Proof. exact Matrix.C07_trace_ok. Qed.
Print Assumptions C07_trace.
