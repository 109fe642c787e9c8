(** C15: Affine product shortcuts agree with the full product exactly on the documented shapes.

    Over the reals glm_mul equals glm_mat4_mul whenever the bottom rows of the right factor are
    (0,0,0,w), and glm_mul_rot equals it whenever the right factor is a pure rotation block;
    without the shape hypothesis they differ. *)

From Coq Require Import String List ZArith Bool Reals.
From Verif Require Import MiniC Contract RScalar Cglm.
From Verif.Spec Require Import Linear Geometry Affine Client Agree Types Quaternion.
From Verif.Simd Require Import sse2 avx fma neon neon32 wasm.
From Verif.Spec Require Import Linear Geometry Affine Client Agree Types Builds Quaternion.
From Verif.Spec Require Import Linear Geometry Affine Client Agree Types Quaternion.
From Verif.Proofs Require SimdAlias.
Import ListNotations.
Local Open Scope list_scope.
Local Open Scope R_scope.

(** AVX: glm_mul is the full matrix product, whatever the shape of the right factor *)
Theorem C15_avx_mul : Forall (fun f => forall a b, length a = 16%nat -> length b = 16%nat ->
    computes RS f [InA (fl a); InA (fl b); Out 16] VVoid [fl (mmul 4 a b)]) [avx_glm_mul; fma_glm_mul].
Proof. exact SimdAlias.C15_avx_mul_ok. Qed.
Print Assumptions C15_avx_mul.
