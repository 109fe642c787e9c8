(** C16: Rigid inverse shortcut.

    Over the reals glm_inv_tr replaces a rigid transform (orthonormal 3x3 part, bottom row 0 0
    0 1) by its inverse. *)

From Coq Require Import String List ZArith Bool Reals.
From Verif Require Import MiniC Contract RScalar Cglm.
From Verif.Spec Require Import Linear Geometry Affine Client Agree Types Quaternion.
From Verif.Simd Require Import sse2 avx fma neon neon32 wasm.
From Verif.Spec Require Import Linear Geometry Affine Client Agree Types Builds Quaternion.
From Verif.Spec Require Import Linear Geometry Affine Client Agree Types Quaternion.
From Verif.Proofs Require SimdAlias.
Import ListNotations.
Local Open Scope list_scope.
Local Open Scope R_scope.

(** C16 for the SIMD builds: a rigid transform is replaced by its two-sided inverse *)
Theorem C16_simd : Forall (fun f => forall r t, length r = 9%nat -> length t = 3%nat -> orthonormal r ->
    exists m, length m = 16%nat /\ computes RS f [InOut (fl (aff r t))] VVoid [fl m] /\
    mmul 4 m (aff r t) = mid 4 /\ mmul 4 (aff r t) m = mid 4)
  [sse2_glm_inv_tr; avx_glm_inv_tr; fma_glm_inv_tr; neon_glm_inv_tr; neon32_glm_inv_tr; wasm_glm_inv_tr].
Proof. exact SimdAlias.C16_simd_ok. Qed.
Print Assumptions C16_simd.
