(** * SIMD builds: in-place transposition and quaternion product, affine shape (C08, C15, C16, C21, C55) *)

From Coq Require Import String List ZArith Bool Reals Lra Lia.
From Verif Require Import MiniC RScalar Contract Cglm Sym SymCall.
From Verif.Proofs Require Import AffTac Affine AffineMul Quat.
From Verif.Spec Require Import Linear Geometry Affine Client Agree Types Builds Quaternion.
From Verif.Proofs Require Import RExact SimdTac SimdExc.
From Verif.Simd Require Import sse2 avx fma neon neon32 wasm.
Import ListNotations.
Local Open Scope R_scope.
(* props: From Verif.Spec Require Import Linear Geometry Affine Client Agree Types Quaternion. *)
(* props: From Verif.Simd Require Import sse2 avx fma neon neon32 wasm. *)

Ltac alltac t := repeat (apply Forall_cons; [t|]); apply Forall_nil.
(** SIMD builds: the destination may be the source, for every float arithmetic *)
Lemma C08_simd_ok : forall (S : Scalar) (d : T S),
  Forall (fun f => forall A, length A = 16%nat -> computes S f [InA (fl A); Out 16] VVoid [fl (transpose d 4 4 A)])
    [sse2_glm_mat4_transpose_to; avx_glm_mat4_transpose_to; fma_glm_mat4_transpose_to; neon_glm_mat4_transpose_to; neon32_glm_mat4_transpose_to; wasm_glm_mat4_transpose_to] /\
  Forall (fun f => forall A, length A = 16%nat -> computes S f [InOut (fl A)] VVoid [fl (transpose d 4 4 A)])
    [sse2_glm_mat4_transpose; avx_glm_mat4_transpose; fma_glm_mat4_transpose; neon_glm_mat4_transpose; neon32_glm_mat4_transpose; wasm_glm_mat4_transpose] /\
  Forall (fun f => forall A, length A = 4%nat -> computes S f [InA (fl A); Out 4] VVoid [fl (transpose d 2 2 A)])
    [sse2_glm_mat2_transpose_to; avx_glm_mat2_transpose_to; fma_glm_mat2_transpose_to; wasm_glm_mat2_transpose_to].
Proof. intros S d. repeat split; alltac go. Qed.
Lemma C08_simd_ex : transpose 0 4 4 [1;2;3;4; 5;6;7;8; 9;10;11;12; 13;14;15;16] = [1;5;9;13; 2;6;10;14; 3;7;11;15; 4;8;12;16].
Proof. reflexivity. Qed.

(** SIMD builds: the destination may be either factor, or both *)
Lemma C21_simd_ok : Forall (fun f => forall p q, length p = 4%nat -> length q = 4%nat ->
    computes RS f [InA (fl p); InA (fl q); Out 4] VVoid [fl (qmul p q)])
  [sse2_glm_quat_mul; avx_glm_quat_mul; fma_glm_quat_mul; neon_glm_quat_mul; neon32_glm_quat_mul; wasm_glm_quat_mul].
Proof. alltac qgo. Qed.
Lemma C21_simd_ex : qmul [1; 0; 0; 1] [0; 1; 0; 1] = [1; 1; 1; 1].
Proof. qu. lcbv. cells ltac:(try ring). Qed.

Lemma inv_tr_any : forall r t, length r = 9%nat -> length t = 3%nat ->
  computes RS glm_inv_tr [InOut (fl (aff r t))] VVoid [fl (aff (transp 3 3 r) (neg (mvec 3 3 (transp 3 3 r) t)))].
Proof. lgo. Qed.
(** every build of glm_inv_tr agrees with the scalar one when the bottom row is 0 0 0 1 ... *)
Lemma C55_inv_tr_ok : Forall (fun f => forall r t, length r = 9%nat -> length t = 3%nat -> agree RS glm_inv_tr f [InOut (fl (aff r t))])
  [sse2_glm_inv_tr; avx_glm_inv_tr; fma_glm_inv_tr; neon_glm_inv_tr; neon32_glm_inv_tr; wasm_glm_inv_tr].
Proof. alltac ltac:(intros r t L1 L2; eapply agree_computes; [apply inv_tr_any; auto | revert r t L1 L2; lgo]). Qed.
(** ... but not in general: the bottom row is kept by the scalar build and overwritten by the others *)
Lemma C55_inv_tr_refuted_ok : exists m, length m = 16%nat /\
  Forall (fun f => ~ agree RS glm_inv_tr f [InOut (fl m)])
    [sse2_glm_inv_tr; avx_glm_inv_tr; fma_glm_inv_tr; neon_glm_inv_tr; neon32_glm_inv_tr; wasm_glm_inv_tr].
Proof.
  set (m := [1; 0; 0; 5; 0; 1; 0; 0; 0; 0; 1; 0; 0; 0; 0; 1]). exists m. split; [reflexivity|].
  eassert (E : computes RS glm_inv_tr [InOut (fl m)] VVoid [fl [_; _; _; _; _; _; _; _; _; _; _; _; _; _; _; _]]) by (unfold m; symr; rprep; cells reflexivity).
  alltac ltac:(intros A; pose proof (computes_agree _ _ _ _ _ _ A E) as B; unfold m in B;
    match type of B with computes _ ?f _ _ _ =>
      eassert (C : computes RS f [InOut (fl [1; 0; 0; 5; 0; 1; 0; 0; 0; 0; 1; 0; 0; 0; 0; 1])] VVoid [fl [_; _; _; _; _; _; _; _; _; _; _; _; _; _; _; _]]) by (symr; rprep; cells reflexivity) end;
    differs B C).
Qed.
(** AVX: glm_mul is the full matrix product, whatever the shape of the right factor *)
Lemma C15_avx_mul_ok : Forall (fun f => forall a b, length a = 16%nat -> length b = 16%nat ->
    computes RS f [InA (fl a); InA (fl b); Out 16] VVoid [fl (mmul 4 a b)]) [avx_glm_mul; fma_glm_mul].
Proof. alltac lgo. Qed.
(** so it agrees with the scalar one when the first three columns of the right factor end in 0 ... *)
Lemma C55_avx_mul_ok : Forall (fun f => forall a r t w, length a = 16%nat -> length r = 9%nat -> length t = 3%nat ->
    agree RS glm_mul f [InA (fl a); InA (fl (firstn 15 (aff r t) ++ [w])); Out 16]) [avx_glm_mul; fma_glm_mul].
Proof.
  pose proof C15_avx_mul_ok as P. revert P. apply Forall_impl. intros f P a r t w L1 L2 L3.
  eapply agree_computes; [apply C15_mul_ok; auto|apply P; auto].
Qed.
(** ... and differs otherwise *)
Lemma C55_avx_mul_refuted_ok : exists a b, length a = 16%nat /\ length b = 16%nat /\
  Forall (fun f => ~ agree RS glm_mul f [InA (fl a); InA (fl b); Out 16]) [avx_glm_mul; fma_glm_mul].
Proof.
  destruct C15_mul_refuted_ok as (a & b & L1 & L2 & H). exists a, b. repeat split; auto.
  pose proof C15_avx_mul_ok as P. revert P. apply Forall_impl. intros f P A. apply H.
  apply (computes_agree RS f). { intros m ps Hl. symmetry. apply A. auto. } apply P; auto.
Qed.
(** C16 for the SIMD builds: a rigid transform is replaced by its two-sided inverse *)
Lemma C16_simd_ok : Forall (fun f => forall r t, length r = 9%nat -> length t = 3%nat -> orthonormal r ->
    exists m, length m = 16%nat /\ computes RS f [InOut (fl (aff r t))] VVoid [fl m] /\
    mmul 4 m (aff r t) = mid 4 /\ mmul 4 (aff r t) m = mid 4)
  [sse2_glm_inv_tr; avx_glm_inv_tr; fma_glm_inv_tr; neon_glm_inv_tr; neon32_glm_inv_tr; wasm_glm_inv_tr].
Proof.
  pose proof C55_inv_tr_ok as P. revert P. apply Forall_impl. intros f P r t L1 L2 O.
  destruct (C16_inv_tr_ok r t L1 L2 O) as (m & M1 & M2 & M3). exists m. split; auto. split; auto.
  apply (computes_agree RS glm_inv_tr); auto.
Qed.
