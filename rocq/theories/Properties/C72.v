(** C72: Rounding error bounds in the SIMD builds.

    In IEEE binary32, the SIMD versions (SSE2, AVX, FMA, NEON 64 and 32 bit, WebAssembly) of
    the 4-vector dot product, the product of a 4x4 matrix and a vector, the products of 2x2,
    3x3 and 4x4 matrices and of quaternions, which add in other orders and with other roundings
    than the scalar code, meet the same bound: every entry that does not overflow is within
    ((1+2^-24)^n - 1) times the sum of the absolute values of the products plus n tiny of the
    exact product, n being the dimension; nothing overflows if all entries are at most 2^60.
    glmm_fmadd and its relatives round once with FMA and on 64-bit NEON; without, the result
    can be wholly wrong (0 for 2^-24). *)

From Coq Require Import String List ZArith Bool Reals.
From Verif Require Import MiniC Contract RScalar Cglm.
From Coq Require Import Reals Floats.SpecFloat.
From Verif Require Import B32.
From Verif.Simd Require Import sse2 avx fma neon neon32 wasm.
From Verif.Spec Require Import Float32 Bounds Lanes.
From Verif.Spec Require Import Linear Quaternion Float32 Bounds Lanes.
From Verif.Spec Require Import Float32 Bounds Lanes.
From Verif.Proofs Require SimdErr.
Import ListNotations.
Local Open Scope list_scope.
Local Open Scope R_scope.

Theorem C72_dot : forall l, Forall (close_dot l 4) [sse2_glm_vec4_dot; avx_glm_vec4_dot; fma_glm_vec4_dot; neon_glm_vec4_dot; neon32_glm_vec4_dot; wasm_glm_vec4_dot].
Proof. exact SimdErr.C72_dot_ok. Qed.
Print Assumptions C72_dot.

Theorem C72_mulv : forall l, Forall (close_mvec l 4) [sse2_glm_mat4_mulv; avx_glm_mat4_mulv; fma_glm_mat4_mulv; neon_glm_mat4_mulv; neon32_glm_mat4_mulv; wasm_glm_mat4_mulv].
Proof. exact SimdErr.C72_mulv_ok. Qed.
Print Assumptions C72_mulv.

Theorem C72_mat2_mul : forall l, Forall (close_mmul l 2) [sse2_glm_mat2_mul; avx_glm_mat2_mul; fma_glm_mat2_mul; neon_glm_mat2_mul; neon32_glm_mat2_mul; wasm_glm_mat2_mul].
Proof. exact SimdErr.C72_mat2_mul_ok. Qed.
Print Assumptions C72_mat2_mul.

Theorem C72_mat3_mul : forall l, Forall (close_mmul l 3) [sse2_glm_mat3_mul; avx_glm_mat3_mul; fma_glm_mat3_mul; wasm_glm_mat3_mul].
Proof. exact SimdErr.C72_mat3_mul_ok. Qed.
Print Assumptions C72_mat3_mul.

Theorem C72_quat_mul : forall l, Forall (close_qmul l) [sse2_glm_quat_mul; avx_glm_quat_mul; fma_glm_quat_mul; neon_glm_quat_mul; neon32_glm_quat_mul; wasm_glm_quat_mul].
Proof. exact SimdErr.C72_quat_mul_ok. Qed.
Print Assumptions C72_quat_mul.

Theorem C72_mat4_mul : forall l, Forall (close_mmul l 4) [sse2_glm_mat4_mul; avx_glm_mat4_mul; fma_glm_mat4_mul; neon_glm_mat4_mul; neon32_glm_mat4_mul; wasm_glm_mat4_mul].
Proof. exact SimdErr.C72_mat4_mul_ok. Qed.
Print Assumptions C72_mat4_mul.

Theorem C72_fused : forall l a b c, four a -> four b -> four c -> Forall number a -> Forall number b -> Forall number c ->
  Forall (fun f => exists r, takes (B32 l) f [a; b; c] (lanes r) /\ Forall2 once r (each3 (fun x y z => rval x * rval y + rval z) a b c)) [fma_glmm_fmadd; neon_glmm_fmadd] /\
  Forall (fun f => exists r, takes (B32 l) f [a; b; c] (lanes r) /\ Forall2 once r (each3 (fun x y z => - (rval x * rval y) + rval z) a b c)) [fma_glmm_fnmadd; neon_glmm_fnmadd] /\
  Forall (fun f => exists r, takes (B32 l) f [a; b; c] (lanes r) /\ Forall2 once r (each3 (fun x y z => rval x * rval y - rval z) a b c)) [fma_glmm_fmsub; neon_glmm_fmsub] /\
  Forall (fun f => exists r, takes (B32 l) f [a; b; c] (lanes r) /\ Forall2 once r (each3 (fun x y z => - (rval x * rval y) - rval z) a b c)) [fma_glmm_fnmsub].
Proof. exact SimdErr.C72_fused_ok. Qed.
Print Assumptions C72_fused.

Theorem C72_unfused_refuted : forall l, Forall (fun f => exists a b c r, four a /\ four b /\ four c /\ Forall number a /\ Forall number b /\ Forall number c /\
  takes (B32 l) f [a; b; c] (lanes r) /\ Forall (fun x => finite x = true) r /\ ~ Forall2 once r (each3 (fun x y z => rval x * rval y + rval z) a b c))
  [sse2_glmm_fmadd; avx_glmm_fmadd; neon32_glmm_fmadd; wasm_glmm_fmadd].
Proof. exact SimdErr.C72_unfused_refuted_ok. Qed.
Print Assumptions C72_unfused_refuted.

Example C72_dot_example : let x := S754_finite false 8388609 (-23) in
  Forall moderate [x; x; x; x] /\ rval (SFmul prec emax x x) <> rval x * rval x.
Proof. exact SimdErr.C72_dot_ex. Qed.

Example C72_mulv_example : let x := S754_finite false 8388609 (-23) in
  length (repeat x 16) = 16%nat /\ Forall moderate (repeat x 16 ++ repeat x 4) /\ rval (SFmul prec emax x x) <> rval x * rval x.
Proof. exact SimdErr.C72_mulv_ex. Qed.

Example C72_mat4_mul_example : let x := S754_finite false 8388609 (-23) in
  length (repeat x 16) = 16%nat /\ Forall moderate (repeat x 16 ++ repeat x 16) /\ rval (SFmul prec emax x x) <> rval x * rval x.
Proof. exact SimdErr.C72_mat4_mul_ex. Qed.

Example C72_fused_example : let x := S754_finite false 8390656 (-23) in let z := S754_finite true 8392704 (-23) in
  four (repeat x 4) /\ four (repeat z 4) /\ Forall number (repeat x 4) /\ Forall number (repeat z 4) /\
  rval x * rval x + rval z = / 16777216 /\ finite (b_fma x x z) = true /\ 0 < rval (b_fma x x z).
Proof. exact SimdErr.C72_fused_ex. Qed.
