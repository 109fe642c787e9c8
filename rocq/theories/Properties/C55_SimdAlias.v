(** C55: SIMD mat4 and vec4 code agrees with the scalar code.

    Over the reals the SSE2, AVX, FMA, NEON (64 and 32 bit) and WebAssembly versions of the
    inline functions that differ from the scalar build (vec3, vec4, mat2, mat3, mat4,
    quaternion, affine, camera, box, frustum, ray and noise functions) have the same outcome as
    the scalar version on the same inputs, including where an operation is undefined; those
    that do the same operations in the same order agree for every float arithmetic. Exceptions:
    in-place glm_mat4_transpose_to, glm_mat2_transpose_to and glm_quat_mul (C08, C21), the vec4
    normalisation gap (C04), glm_inv_tr off bottom row 0 0 0 1, and AVX glm_mul when the first
    three columns of the right factor do not end in 0; there they differ. *)

From Coq Require Import String List ZArith Bool Reals.
From Verif Require Import MiniC Contract RScalar Cglm.
From Verif.Spec Require Import Linear Geometry Affine Client Agree Types Quaternion.
From Verif.Simd Require Import sse2 avx fma neon neon32 wasm.
From Verif.Spec Require Import Linear Geometry Affine Client Agree Types Builds Quaternion.
From Verif.Spec Require Import Linear Geometry Affine Client Agree Types Quaternion.
From Verif.Proofs Require SimdAlias.
Import ListNotations.
Local Open Scope list_scope.
Local Open Scope R_scope.

(** every build of glm_inv_tr agrees with the scalar one when the bottom row is 0 0 0 1 ... *)
Theorem C55_inv_tr : Forall (fun f => forall r t, length r = 9%nat -> length t = 3%nat -> agree RS glm_inv_tr f [InOut (fl (aff r t))])
  [sse2_glm_inv_tr; avx_glm_inv_tr; fma_glm_inv_tr; neon_glm_inv_tr; neon32_glm_inv_tr; wasm_glm_inv_tr].
Proof. exact SimdAlias.C55_inv_tr_ok. Qed.
Print Assumptions C55_inv_tr.

(** ... but not in general: the bottom row is kept by the scalar build and overwritten by the others *)
Theorem C55_inv_tr_refuted : exists m, length m = 16%nat /\
  Forall (fun f => ~ agree RS glm_inv_tr f [InOut (fl m)])
    [sse2_glm_inv_tr; avx_glm_inv_tr; fma_glm_inv_tr; neon_glm_inv_tr; neon32_glm_inv_tr; wasm_glm_inv_tr].
Proof. exact SimdAlias.C55_inv_tr_refuted_ok. Qed.
Print Assumptions C55_inv_tr_refuted.

(** so it agrees with the scalar one when the first three columns of the right factor end in 0 ... *)
Theorem C55_avx_mul : Forall (fun f => forall a r t w, length a = 16%nat -> length r = 9%nat -> length t = 3%nat ->
    agree RS glm_mul f [InA (fl a); InA (fl (firstn 15 (aff r t) ++ [w])); Out 16]) [avx_glm_mul; fma_glm_mul].
Proof. exact SimdAlias.C55_avx_mul_ok. Qed.
Print Assumptions C55_avx_mul.

(** ... and differs otherwise *)
Theorem C55_avx_mul_refuted : exists a b, length a = 16%nat /\ length b = 16%nat /\
  Forall (fun f => ~ agree RS glm_mul f [InA (fl a); InA (fl b); Out 16]) [avx_glm_mul; fma_glm_mul].
Proof. exact SimdAlias.C55_avx_mul_refuted_ok. Qed.
Print Assumptions C55_avx_mul_refuted.
