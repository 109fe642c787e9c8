(** * The noise functions of the scalar build and of the SIMD builds (C55) *)

From Coq Require Import List.
From Verif Require Import MiniC Cglm.
From Verif.Spec Require Import Types.
From Verif.Simd Require sse2 avx fma neon neon32 wasm.
Import ListNotations.

(** same operations in the same order *)
Definition noise_exact : list (fundef * fundef * list param) :=
  [ (glm_perlin_vec3, sse2.sse2_glm_perlin_vec3, [Apart Flt 3]);
    (glm_perlin_vec3, avx.avx_glm_perlin_vec3, [Apart Flt 3]);
    (glm_perlin_vec3, fma.fma_glm_perlin_vec3, [Apart Flt 3]);
    (glm_perlin_vec3, neon.neon_glm_perlin_vec3, [Apart Flt 3]);
    (glm_perlin_vec3, neon32.neon32_glm_perlin_vec3, [Apart Flt 3]);
    (glm_perlin_vec3, wasm.wasm_glm_perlin_vec3, [Apart Flt 3]) ].
(** division by a constant instead of multiplication by its inverse, and sums in another order *)
Definition noise_real : list (fundef * fundef * list param) :=
  [ (glm_perlin_vec2, sse2.sse2_glm_perlin_vec2, [Apart Flt 2]);
    (glm_perlin_vec4, sse2.sse2_glm_perlin_vec4, [Apart Flt 4]);
    (glm_perlin_vec2, avx.avx_glm_perlin_vec2, [Apart Flt 2]);
    (glm_perlin_vec4, avx.avx_glm_perlin_vec4, [Apart Flt 4]);
    (glm_perlin_vec2, fma.fma_glm_perlin_vec2, [Apart Flt 2]);
    (glm_perlin_vec4, fma.fma_glm_perlin_vec4, [Apart Flt 4]);
    (glm_perlin_vec2, neon.neon_glm_perlin_vec2, [Apart Flt 2]);
    (glm_perlin_vec4, neon.neon_glm_perlin_vec4, [Apart Flt 4]);
    (glm_perlin_vec2, neon32.neon32_glm_perlin_vec2, [Apart Flt 2]);
    (glm_perlin_vec4, neon32.neon32_glm_perlin_vec4, [Apart Flt 4]);
    (glm_perlin_vec2, wasm.wasm_glm_perlin_vec2, [Apart Flt 2]);
    (glm_perlin_vec4, wasm.wasm_glm_perlin_vec4, [Apart Flt 4]) ].
