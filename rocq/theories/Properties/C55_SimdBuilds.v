(** C55: SIMD mat4 and vec4 code agrees with the scalar code.

    Over the reals the SSE2, AVX, FMA, NEON (64 and 32 bit) and WebAssembly versions of the
    inline functions that differ from the scalar build (vec3, vec4, mat2, mat3, mat4,
    quaternion, affine, camera, box, frustum, ray and noise functions) have the same outcome as
    the scalar version on the same inputs, including where an operation is undefined; those
    that do the same operations in the same order agree for every float arithmetic. Exceptions:
    in-place glm_mat4_transpose_to, glm_mat2_transpose_to and glm_quat_mul (C08, C21), the vec4
    normalisation gap (C04), glm_inv_tr off bottom row 0 0 0 1, and AVX glm_mul when the first
    three columns of the right factor do not end in 0; there they differ. *)

From Coq Require Import String List ZArith Bool Reals.
From Verif Require Import MiniC Contract RScalar Cglm.
From Verif.Spec Require Import Types Agree Builds.
From Verif.Proofs Require SimdBuilds.
Import ListNotations.
Local Open Scope list_scope.

(** SSE2 build: the functions that do the same operations in the same order agree with the
    scalar ones for every arithmetic. *)
Theorem C55_sse2_exact : Forall (fun p => forall S, agree_on S p) sse2_exact.
Proof. exact SimdBuilds.C55_sse2_exact_ok. Qed.
Print Assumptions C55_sse2_exact.

(** SSE2 build: the functions that reorder operations agree with the scalar ones over the
    reals, including on where an operation is undefined. *)
Theorem C55_sse2_real : Forall (agree_on RS) sse2_real.
Proof. exact SimdBuilds.C55_sse2_real_ok. Qed.
Print Assumptions C55_sse2_real.

(** AVX build: the functions that do the same operations in the same order agree with the
    scalar ones for every arithmetic. *)
Theorem C55_avx_exact : Forall (fun p => forall S, agree_on S p) avx_exact.
Proof. exact SimdBuilds.C55_avx_exact_ok. Qed.
Print Assumptions C55_avx_exact.

(** AVX build: the functions that reorder operations agree with the scalar ones over the
    reals, including on where an operation is undefined. *)
Theorem C55_avx_real : Forall (agree_on RS) avx_real.
Proof. exact SimdBuilds.C55_avx_real_ok. Qed.
Print Assumptions C55_avx_real.

(** FMA (with AVX) build: the functions that do the same operations in the same order agree with the
    scalar ones for every arithmetic. *)
Theorem C55_fma_exact : Forall (fun p => forall S, agree_on S p) fma_exact.
Proof. exact SimdBuilds.C55_fma_exact_ok. Qed.
Print Assumptions C55_fma_exact.

(** FMA (with AVX) build: the functions that reorder operations agree with the scalar ones over the
    reals, including on where an operation is undefined. *)
Theorem C55_fma_real : Forall (agree_on RS) fma_real.
Proof. exact SimdBuilds.C55_fma_real_ok. Qed.
Print Assumptions C55_fma_real.

(** NEON, 64-bit build: the functions that do the same operations in the same order agree with the
    scalar ones for every arithmetic. *)
Theorem C55_neon_exact : Forall (fun p => forall S, agree_on S p) neon_exact.
Proof. exact SimdBuilds.C55_neon_exact_ok. Qed.
Print Assumptions C55_neon_exact.

(** NEON, 64-bit build: the functions that reorder operations agree with the scalar ones over the
    reals, including on where an operation is undefined. *)
Theorem C55_neon_real : Forall (agree_on RS) neon_real.
Proof. exact SimdBuilds.C55_neon_real_ok. Qed.
Print Assumptions C55_neon_real.

(** NEON, 32-bit build: the functions that do the same operations in the same order agree with the
    scalar ones for every arithmetic. *)
Theorem C55_neon32_exact : Forall (fun p => forall S, agree_on S p) neon32_exact.
Proof. exact SimdBuilds.C55_neon32_exact_ok. Qed.
Print Assumptions C55_neon32_exact.

(** NEON, 32-bit build: the functions that reorder operations agree with the scalar ones over the
    reals, including on where an operation is undefined. *)
Theorem C55_neon32_real : Forall (agree_on RS) neon32_real.
Proof. exact SimdBuilds.C55_neon32_real_ok. Qed.
Print Assumptions C55_neon32_real.

(** WebAssembly build: the functions that do the same operations in the same order agree with the
    scalar ones for every arithmetic. *)
Theorem C55_wasm_exact : Forall (fun p => forall S, agree_on S p) wasm_exact.
Proof. exact SimdBuilds.C55_wasm_exact_ok. Qed.
Print Assumptions C55_wasm_exact.

(** WebAssembly build: the functions that reorder operations agree with the scalar ones over the
    reals, including on where an operation is undefined. *)
Theorem C55_wasm_real : Forall (agree_on RS) wasm_real.
Proof. exact SimdBuilds.C55_wasm_real_ok. Qed.
Print Assumptions C55_wasm_real.

Example C55_builds_example :
  map (@length _) [sse2_exact; avx_exact; fma_exact; neon_exact; neon32_exact; wasm_exact] = [100; 100; 96; 105; 108; 108]%nat /\
  map (@length _) [sse2_real; avx_real; fma_real; neon_real; neon32_real; wasm_real] = [84; 83; 87; 76; 73; 83]%nat /\
  List.In (glm_mat4_inv, sse2.sse2_glm_mat4_inv, [Reads Flt 16; Writes 16]) sse2_real /\
  List.In (glm_vec4_addadd, neon.neon_glm_vec4_addadd, [Reads Flt 4; Reads Flt 4; Updates Flt 4]) neon_exact /\
  Forall2 (@fits R) [Reads Flt 4; Float] [InA (fl [1; 2; 3; 4]%R); Val (VF (1 / 2)%R)].
Proof. exact SimdBuilds.C55_builds_ex. Qed.
