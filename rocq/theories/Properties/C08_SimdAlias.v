(** C08: Transposition, and its aliasing trap.

    glm_matN_transpose transposes in place for every float arithmetic, and
    glm_matN_transpose_to writes the transpose when source and destination do not overlap; but
    in the scalar build glm_mat2_transpose_to, glm_mat3_transpose_to and glm_mat4_transpose_to
    called with source == destination do not produce the transpose (the lower half is lost),
    although the SIMD builds of glm_mat4_transpose_to do. *)

From Coq Require Import String List ZArith Bool Reals.
From Verif Require Import MiniC Contract RScalar Cglm.
From Verif.Spec Require Import Linear Geometry Affine Client Agree Types Quaternion.
From Verif.Simd Require Import sse2 avx fma neon neon32 wasm.
From Verif.Spec Require Import Linear Geometry Affine Client Agree Types Builds Quaternion.
From Verif.Spec Require Import Linear Geometry Affine Client Agree Types Quaternion.
From Verif.Proofs Require SimdAlias.
Import ListNotations.
Local Open Scope list_scope.
Local Open Scope R_scope.

(** SIMD builds: the destination may be the source, for every float arithmetic *)
Theorem C08_simd : forall (S : Scalar) (d : T S),
  Forall (fun f => forall A, length A = 16%nat -> computes S f [InA (fl A); Out 16] VVoid [fl (transpose d 4 4 A)])
    [sse2_glm_mat4_transpose_to; avx_glm_mat4_transpose_to; fma_glm_mat4_transpose_to; neon_glm_mat4_transpose_to; neon32_glm_mat4_transpose_to; wasm_glm_mat4_transpose_to] /\
  Forall (fun f => forall A, length A = 16%nat -> computes S f [InOut (fl A)] VVoid [fl (transpose d 4 4 A)])
    [sse2_glm_mat4_transpose; avx_glm_mat4_transpose; fma_glm_mat4_transpose; neon_glm_mat4_transpose; neon32_glm_mat4_transpose; wasm_glm_mat4_transpose] /\
  Forall (fun f => forall A, length A = 4%nat -> computes S f [InA (fl A); Out 4] VVoid [fl (transpose d 2 2 A)])
    [sse2_glm_mat2_transpose_to; avx_glm_mat2_transpose_to; fma_glm_mat2_transpose_to; wasm_glm_mat2_transpose_to].
Proof. exact SimdAlias.C08_simd_ok. Qed.
Print Assumptions C08_simd.

Example C08_simd_example : transpose 0 4 4 [1;2;3;4; 5;6;7;8; 9;10;11;12; 13;14;15;16] = [1;5;9;13; 2;6;10;14; 3;7;11;15; 4;8;12;16].
Proof. exact SimdAlias.C08_simd_ex. Qed.
