(** * Agreement of the noise functions of the SIMD builds with the scalar ones (C55) *)
(* props: From Verif.Spec Require Import Types Agree Builds NoiseBuilds Linear Noise. *)

From Coq Require Import List ZArith Reals.
From Verif Require Import MiniC RScalar Contract Cglm.
From Verif.Spec Require Import Types Agree Builds NoiseBuilds Linear Noise.
From Verif.Proofs Require Import Safe RNorm SimdTac Noise.
(* props: From Verif.Simd Require Import sse2 avx fma neon neon32 wasm. *)
From Verif.Simd Require Import sse2 avx fma neon neon32 wasm.
Import ListNotations.
Local Open Scope R_scope.

(** The three-dimensional noise does the same operations in the same order in every build, so
    it agrees for every arithmetic. *)
Lemma C55_noise_exact_ok : Forall (fun p => forall S, agree_on S p) noise_exact.
Proof.
  assert (X : Forall (fun p => forall S, agree_on S p)
    [(glm_perlin_vec3, sse2_glm_perlin_vec3, [Apart Flt 3]); (glm_perlin_vec3, neon_glm_perlin_vec3, [Apart Flt 3]); (glm_perlin_vec3, wasm_glm_perlin_vec3, [Apart Flt 3])]) by exact_all 12%nat.
  rewrite !Forall_cons_iff in X. destruct X as (X1 & X2 & X3 & _). unfold noise_exact. rewrite !Forall_cons_iff.
  exact (conj X1 (conj X1 (conj X1 (conj X2 (conj X2 (conj X3 (Forall_nil _))))))).
Qed.
Fixpoint remove_at {A} (n : nat) (l : list A) : list A :=
  match l, n with [], _ => [] | _ :: l', O => l' | x :: l', S n' => x :: remove_at n' l' end.
Definition noise_via : list (fundef * fundef * list param) :=
  [ (sse2.sse2_glm_perlin_vec4, wasm.wasm_glm_perlin_vec4, [Apart Flt 4]) ].
(** The two- and four-dimensional noise agrees over the reals. *)
Lemma C55_noise_real_ok : Forall (agree_on RS) noise_real.
Proof.
  assert (T : forall f g h ps, agree_on RS (f, g, ps) -> agree_on RS (g, h, ps) -> agree_on RS (f, h, ps)).
  { intros f g h ps A B args F m xs L. rewrite (A args F m xs L). exact (B args F m xs L). }
  assert (D : Forall (agree_on RS) (remove_at 11 (remove_at 5 noise_real))). { unfold noise_real. cbv [remove_at]. coarse_all 12%nat. }
  assert (X : Forall (fun p => forall S, agree_on S p) noise_via) by exact_all 12%nat.
  unfold noise_real in D. cbv [remove_at] in D. rewrite !Forall_cons_iff in D. destruct D as (D1 & D2 & D3 & D4 & D5 & D7 & D8 & D9 & D10 & D11 & _).
  unfold noise_via in X. rewrite !Forall_cons_iff in X. destruct X as (X2 & _).
  unfold noise_real. rewrite !Forall_cons_iff.
  exact (conj D1 (conj D2 (conj D3 (conj D4 (conj D5 (conj D4 (conj D7 (conj D8 (conj D9 (conj D10 (conj D11 (conj (T _ _ _ _ D2 (X2 RS)) (Forall_nil _))))))))))))).
Qed.

(** so every build computes the noise of [Spec/Noise.v] *)
Lemma C54_simd_ok :
  Forall (fun f => forall x y, computes RS f [In (fl [x; y])] (VF (perlin grad2 (23 / 10) [x; y])) [])
    [sse2_glm_perlin_vec2; avx_glm_perlin_vec2; fma_glm_perlin_vec2; neon_glm_perlin_vec2; neon32_glm_perlin_vec2; wasm_glm_perlin_vec2] /\
  Forall (fun f => forall x y z, computes RS f [In (fl [x; y; z])] (VF (perlin grad3 (11 / 5) [x; y; z])) [])
    [sse2_glm_perlin_vec3; avx_glm_perlin_vec3; fma_glm_perlin_vec3; neon_glm_perlin_vec3; neon32_glm_perlin_vec3; wasm_glm_perlin_vec3] /\
  Forall (fun f => forall x y z w, computes RS f [In (fl [x; y; z; w])] (VF (perlin grad4 (11 / 5) [x; y; z; w])) [])
    [sse2_glm_perlin_vec4; avx_glm_perlin_vec4; fma_glm_perlin_vec4; neon_glm_perlin_vec4; neon32_glm_perlin_vec4; wasm_glm_perlin_vec4].
Proof.
  assert (V : forall f g ps args r o, agree_on RS (f, g, ps) -> Forall2 fits ps args -> computes RS f args r o -> computes RS g args r o).
  { intros f g ps args r o A F C m xs L. rewrite <- (A args F m xs L). apply C. auto. }
  assert (F2 : forall x y : R, Forall2 fits [Apart Flt 2] [In (fl [x; y])]) by (repeat constructor; exists (fl [x; y]); split; [exists [x; y]; auto|reflexivity]).
  assert (F3 : forall x y z : R, Forall2 fits [Apart Flt 3] [In (fl [x; y; z])]) by (repeat constructor; exists (fl [x; y; z]); split; [exists [x; y; z]; auto|reflexivity]).
  assert (F4 : forall x y z w : R, Forall2 fits [Apart Flt 4] [In (fl [x; y; z; w])]) by (repeat constructor; exists (fl [x; y; z; w]); split; [exists [x; y; z; w]; auto|reflexivity]).
  pose proof C55_noise_exact_ok as X. unfold noise_exact in X. rewrite !Forall_cons_iff in X. destruct X as (X1 & X2 & X3 & X4 & X5 & X6 & _).
  pose proof C55_noise_real_ok as Y. unfold noise_real in Y. rewrite !Forall_cons_iff in Y. destruct Y as (Y1 & Y2 & Y3 & Y4 & Y5 & Y6 & Y7 & Y8 & Y9 & Y10 & Y11 & Y12 & _).
  rewrite !Forall_cons_iff.
  pose proof (fun g A x y => V _ g _ _ _ _ A (F2 x y) (value2 x y)) as W2.
  pose proof (fun g A x y z => V _ g _ _ _ _ A (F3 x y z) (value3 x y z)) as W3.
  pose proof (fun g A x y z w => V _ g _ _ _ _ A (F4 x y z w) (value4 x y z w)) as W4.
  exact (conj (conj (W2 _ Y1) (conj (W2 _ Y3) (conj (W2 _ Y5) (conj (W2 _ Y7) (conj (W2 _ Y9) (conj (W2 _ Y11) (Forall_nil _)))))))
    (conj (conj (W3 _ (X1 RS)) (conj (W3 _ (X2 RS)) (conj (W3 _ (X3 RS)) (conj (W3 _ (X4 RS)) (conj (W3 _ (X5 RS)) (conj (W3 _ (X6 RS)) (Forall_nil _)))))))
      (conj (W4 _ Y2) (conj (W4 _ Y4) (conj (W4 _ Y6) (conj (W4 _ Y8) (conj (W4 _ Y10) (conj (W4 _ Y12) (Forall_nil _))))))))).
Qed.
