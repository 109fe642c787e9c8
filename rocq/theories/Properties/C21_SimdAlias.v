(** C21: Quaternion product.

    Over the reals glm_quat_mul writes the Hamilton product when the destination is neither
    factor; it is associative, norm-multiplicative, has the identity quaternion as unit; in the
    scalar build, when the destination is one of the factors the result is in general not the
    product, while SSE, NEON and WASM builds are safe. *)

From Coq Require Import String List ZArith Bool Reals.
From Verif Require Import MiniC Contract RScalar Cglm.
From Verif.Spec Require Import Linear Geometry Affine Client Agree Types Quaternion.
From Verif.Simd Require Import sse2 avx fma neon neon32 wasm.
From Verif.Spec Require Import Linear Geometry Affine Client Agree Types Builds Quaternion.
From Verif.Spec Require Import Linear Geometry Affine Client Agree Types Quaternion.
From Verif.Proofs Require SimdAlias.
Import ListNotations.
Local Open Scope list_scope.
Local Open Scope R_scope.

(** SIMD builds: the destination may be either factor, or both *)
Theorem C21_simd : Forall (fun f => forall p q, length p = 4%nat -> length q = 4%nat ->
    computes RS f [InA (fl p); InA (fl q); Out 4] VVoid [fl (qmul p q)])
  [sse2_glm_quat_mul; avx_glm_quat_mul; fma_glm_quat_mul; neon_glm_quat_mul; neon32_glm_quat_mul; wasm_glm_quat_mul].
Proof. exact SimdAlias.C21_simd_ok. Qed.
Print Assumptions C21_simd.

Example C21_simd_example : qmul [1; 0; 0; 1] [0; 1; 0; 1] = [1; 1; 1; 1].
Proof. exact SimdAlias.C21_simd_ex. Qed.
