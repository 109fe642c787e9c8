(** C54: Perlin noise vanishes on the lattice and is periodic.

    Over the reals glm_perlin_vec2/3/4 computes gradient noise (the fade-weighted multilinear
    blend of hashed corner gradients dotted with the offset from the corner) at every point; it
    is 0 at every point with integer coordinates and is periodic with period 289 in every
    coordinate. The SIMD builds compute the same noise. *)

From Coq Require Import String List ZArith Bool Reals.
From Verif Require Import MiniC Contract RScalar Cglm.
From Verif.Spec Require Import Types Agree Builds NoiseBuilds Linear Noise.
From Verif.Simd Require Import sse2 avx fma neon neon32 wasm.
From Verif.Spec Require Import Types Agree Builds NoiseBuilds Linear Noise.
From Verif.Spec Require Import Types Agree Builds NoiseBuilds Linear Noise.
From Verif.Proofs Require SimdNoise.
Import ListNotations.
Local Open Scope list_scope.
Local Open Scope R_scope.

(** so every build computes the noise of [Spec/Noise.v] *)
Theorem C54_simd :
  Forall (fun f => forall x y, computes RS f [In (fl [x; y])] (VF (perlin grad2 (23 / 10) [x; y])) [])
    [sse2_glm_perlin_vec2; avx_glm_perlin_vec2; fma_glm_perlin_vec2; neon_glm_perlin_vec2; neon32_glm_perlin_vec2; wasm_glm_perlin_vec2] /\
  Forall (fun f => forall x y z, computes RS f [In (fl [x; y; z])] (VF (perlin grad3 (11 / 5) [x; y; z])) [])
    [sse2_glm_perlin_vec3; avx_glm_perlin_vec3; fma_glm_perlin_vec3; neon_glm_perlin_vec3; neon32_glm_perlin_vec3; wasm_glm_perlin_vec3] /\
  Forall (fun f => forall x y z w, computes RS f [In (fl [x; y; z; w])] (VF (perlin grad4 (11 / 5) [x; y; z; w])) [])
    [sse2_glm_perlin_vec4; avx_glm_perlin_vec4; fma_glm_perlin_vec4; neon_glm_perlin_vec4; neon32_glm_perlin_vec4; wasm_glm_perlin_vec4].
Proof. exact SimdNoise.C54_simd_ok. Qed.
Print Assumptions C54_simd.
