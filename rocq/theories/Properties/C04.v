(** C04: The SIMD vec4 normalisation uses a different zero threshold from the scalar one.

    The SSE and WebAssembly builds of glm_vec4_normalize_to return zero when the squared length
    is below FLT_EPSILON while the scalar and NEON builds return zero when the length is below
    FLT_EPSILON: they agree for all vectors with squared length >= FLT_EPSILON or length <
    FLT_EPSILON, and there are vectors in between on which they return different results (zero
    versus a unit vector). *)

From Coq Require Import String List ZArith Bool Reals.
From Verif Require Import MiniC Contract RScalar Cglm.
From Verif.Spec Require Import Linear Geometry Affine Client Agree Types Quaternion Gap.
From Verif.Simd Require Import sse2 avx fma neon neon32 wasm.
From Verif.Spec Require Import Linear Geometry Affine Client Agree Types Builds Quaternion Gap.
From Verif.Spec Require Import Linear Geometry Affine Client Agree Types Quaternion Gap.
From Verif.Proofs Require SimdExc.
Import ListNotations.
Local Open Scope list_scope.
Local Open Scope R_scope.

(** SSE2, AVX, FMA and WebAssembly builds: the squared length is compared with FLT_EPSILON *)
Theorem C04_normalize :
  Forall (fun f => forall x, length x = 4%nat -> computes RS f [InA (fl x); Out 4] VVoid [fl (normalized_sq x)])
    [sse2_glm_vec4_normalize_to; avx_glm_vec4_normalize_to; fma_glm_vec4_normalize_to; wasm_glm_vec4_normalize_to] /\
  Forall (fun f => forall x, length x = 4%nat -> computes RS f [InOut (fl x)] VVoid [fl (normalized_sq x)])
    [sse2_glm_vec4_normalize; avx_glm_vec4_normalize; fma_glm_vec4_normalize; wasm_glm_vec4_normalize].
Proof. exact SimdExc.C04_normalize_ok. Qed.
Print Assumptions C04_normalize.

(** scalar and both NEON builds: the length is compared *)
Theorem C04_scalar_neon :
  Forall (fun f => forall x, length x = 4%nat -> computes RS f [InA (fl x); Out 4] VVoid [fl (normalized x)])
    [glm_vec4_normalize_to; neon_glm_vec4_normalize_to; neon32_glm_vec4_normalize_to] /\
  Forall (fun f => forall x, length x = 4%nat -> computes RS f [InOut (fl x)] VVoid [fl (normalized x)])
    [glm_vec4_normalize; neon_glm_vec4_normalize; neon32_glm_vec4_normalize].
Proof. exact SimdExc.C04_scalar_neon_ok. Qed.
Print Assumptions C04_scalar_neon.

(** the two thresholds give the same vector exactly when the length is outside the gap;
    inside it one is zero and the other a unit vector *)
Theorem C04_gap : forall x, (in_gap x <-> normalized x <> normalized_sq x) /\
  (~ in_gap x <-> norm x < eps \/ eps <= norm2 x) /\
  (in_gap x -> norm (normalized x) = 1 /\ norm (normalized_sq x) = 0).
Proof. exact SimdExc.C04_gap_ok. Qed.
Print Assumptions C04_gap.

(** so the builds agree off the gap ... *)
Theorem C04_agree : Forall (fun p => let '(to, inp, m3, m4) := p in
    (forall x, length x = 4%nat -> ~ in_gap x ->
       agree RS glm_vec4_normalize_to to [InA (fl x); Out 4] /\ agree RS glm_vec4_normalize inp [InOut (fl x)]) /\
    (forall x y z v, length x = 3%nat -> length y = 3%nat -> length z = 3%nat -> length v = 3%nat -> ~ in_gap x -> ~ in_gap y -> ~ in_gap z ->
       agree RS glm_vec3_rotate_m3 m3 [In (fl (x ++ y ++ z)); InA (fl v); Out 3]) /\
    (forall x y z w v, length x = 4%nat -> length y = 4%nat -> length z = 4%nat -> length w = 4%nat -> length v = 3%nat -> ~ in_gap x -> ~ in_gap y -> ~ in_gap z ->
       agree RS glm_vec3_rotate_m4 m4 [In (fl (x ++ y ++ z ++ w)); InA (fl v); Out 3]))
  [(sse2_glm_vec4_normalize_to, sse2_glm_vec4_normalize, sse2_glm_vec3_rotate_m3, sse2_glm_vec3_rotate_m4);
   (avx_glm_vec4_normalize_to, avx_glm_vec4_normalize, avx_glm_vec3_rotate_m3, avx_glm_vec3_rotate_m4);
   (fma_glm_vec4_normalize_to, fma_glm_vec4_normalize, fma_glm_vec3_rotate_m3, fma_glm_vec3_rotate_m4);
   (wasm_glm_vec4_normalize_to, wasm_glm_vec4_normalize, wasm_glm_vec3_rotate_m3, wasm_glm_vec3_rotate_m4)].
Proof. exact SimdExc.C04_agree_ok. Qed.
Print Assumptions C04_agree.

(** ... and differ on it, for instance on (1/4096, 0, 0, 0) *)
Theorem C04_agree_refuted : exists x, length x = 4%nat /\ in_gap x /\
  Forall (fun f => ~ agree RS glm_vec4_normalize_to f [InA (fl x); Out 4])
    [sse2_glm_vec4_normalize_to; avx_glm_vec4_normalize_to; fma_glm_vec4_normalize_to; wasm_glm_vec4_normalize_to].
Proof. exact SimdExc.C04_agree_refuted_ok. Qed.
Print Assumptions C04_agree_refuted.
