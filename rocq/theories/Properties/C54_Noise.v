(** C54: Perlin noise vanishes on the lattice and is periodic.

    Over the reals glm_perlin_vec2/3/4 computes gradient noise (the fade-weighted multilinear
    blend of hashed corner gradients dotted with the offset from the corner) at every point; it
    is 0 at every point with integer coordinates and is periodic with period 289 in every
    coordinate. The SIMD builds compute the same noise. *)

From Coq Require Import String List ZArith Bool Reals.
From Verif Require Import MiniC Contract RScalar Cglm.
From Verif.Spec Require Import Linear Noise.
From Verif.Spec Require Import Linear Noise.
From Verif.Spec Require Import Linear Noise.
From Verif.Proofs Require Noise.
Import ListNotations.
Local Open Scope list_scope.
Local Open Scope R_scope.

(** the value of the noise functions *)
Theorem C54_value : forall x y z w,
  computes RS glm_perlin_vec2 [In (fl [x; y])] (VF (perlin grad2 (23 / 10) [x; y])) [] /\
  computes RS glm_perlin_vec3 [In (fl [x; y; z])] (VF (perlin grad3 (11 / 5) [x; y; z])) [] /\
  computes RS glm_perlin_vec4 [In (fl [x; y; z; w])] (VF (perlin grad4 (11 / 5) [x; y; z; w])) [].
Proof. exact Noise.C54_value_ok. Qed.
Print Assumptions C54_value.

Theorem C54_lattice : forall i j k l : Z,
  computes RS glm_perlin_vec2 [In (fl [IZR i; IZR j])] (VF 0) [] /\
  computes RS glm_perlin_vec3 [In (fl [IZR i; IZR j; IZR k])] (VF 0) [] /\
  computes RS glm_perlin_vec4 [In (fl [IZR i; IZR j; IZR k; IZR l])] (VF 0) [].
Proof. exact Noise.C54_lattice_ok. Qed.
Print Assumptions C54_lattice.

Theorem C54_periodic : forall x y z w (a b c d : Z),
  (exists v, computes RS glm_perlin_vec2 [In (fl [x; y])] v [] /\
             computes RS glm_perlin_vec2 [In (fl [x + 289 * IZR a; y + 289 * IZR b])] v []) /\
  (exists v, computes RS glm_perlin_vec3 [In (fl [x; y; z])] v [] /\
             computes RS glm_perlin_vec3 [In (fl [x + 289 * IZR a; y + 289 * IZR b; z + 289 * IZR c])] v []) /\
  (exists v, computes RS glm_perlin_vec4 [In (fl [x; y; z; w])] v [] /\
             computes RS glm_perlin_vec4 [In (fl [x + 289 * IZR a; y + 289 * IZR b; z + 289 * IZR c; w + 289 * IZR d])] v []).
Proof. exact Noise.C54_periodic_ok. Qed.
Print Assumptions C54_periodic.

Example C54_value_example : exists v, v <> 0 /\ computes RS glm_perlin_vec2 [In (fl [1 / 2; 0])] (VF v) [].
Proof. exact Noise.C54_value_ex. Qed.

(** a negative lattice point, and a point in a cell of negative coordinates moved into one of positive coordinates *)
Example C54_lattice_example : computes RS glm_perlin_vec3 [In (fl [-3; 290; 0])] (VF 0) [].
Proof. exact Noise.C54_lattice_ex. Qed.

Example C54_periodic_example : exists v, v <> 0 /\ computes RS glm_perlin_vec2 [In (fl [- (577 / 2); 0])] (VF v) [].
Proof. exact Noise.C54_periodic_ex. Qed.
