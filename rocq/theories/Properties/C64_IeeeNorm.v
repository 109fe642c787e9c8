(** C64: Rounding error bounds in single precision.

    In IEEE binary32, for all finite inputs, every component of a dot product of size n, of
    matrix times vector, of matrix products (glm_mat2/3/4_mul, glm_mat2/3/4_mulv), of
    glm_vec3_cross and of glm_quat_mul that does not overflow differs from the exact value by
    at most ((1+2^-24)^n - 1) times the same expression on absolute values plus n*2^-149, and
    none overflows when the inputs are at most 2^60 in magnitude; glm_vec2/3/4_normalize(_to)
    and glm_quat_normalize(_to) of a vector of length between 2^-22 and 2^60 give each
    component within relative error 6*2^-24 (plus 2^-149) of the exact one, and a vector of
    length within 2^-20 of 1. *)

From Coq Require Import String List ZArith Bool Reals.
From Verif Require Import MiniC Contract RScalar Cglm.
From Coq Require Import Reals Floats.SpecFloat.
From Verif Require Import B32.
From Verif.Spec Require Import Linear Quaternion Float32.
From Verif.Spec Require Import Linear Quaternion Float32.
From Verif.Spec Require Import Linear Quaternion Float32.
From Verif.Proofs Require IeeeNorm.
Import ListNotations.
Local Open Scope list_scope.
Local Open Scope R_scope.

(** normalisation is accurate whenever the length is between 2^-22 and 2^60 *)
Theorem C64_normalize : forall l,
  (forall v, length v = 2%nat -> Forall number v -> powerRZ 2 (-22) <= norm (map rval v) <= powerRZ 2 60 ->
    exists r, computes (B32 l) glm_vec2_normalize [InOut (fl v)] VVoid [fl r] /\ scaled_near (norm (map rval v)) v r /\ Rabs (norm (map rval r) - 1) <= powerRZ 2 (-20)) /\
  (forall v, length v = 2%nat -> Forall number v -> powerRZ 2 (-22) <= norm (map rval v) <= powerRZ 2 60 ->
    exists r, computes (B32 l) glm_vec2_normalize_to [InA (fl v); Out 2] VVoid [fl r] /\ scaled_near (norm (map rval v)) v r /\ Rabs (norm (map rval r) - 1) <= powerRZ 2 (-20)) /\
  (forall v, length v = 3%nat -> Forall number v -> powerRZ 2 (-22) <= norm (map rval v) <= powerRZ 2 60 ->
    exists r, computes (B32 l) glm_vec3_normalize [InOut (fl v)] VVoid [fl r] /\ scaled_near (norm (map rval v)) v r /\ Rabs (norm (map rval r) - 1) <= powerRZ 2 (-20)) /\
  (forall v, length v = 3%nat -> Forall number v -> powerRZ 2 (-22) <= norm (map rval v) <= powerRZ 2 60 ->
    exists r, computes (B32 l) glm_vec3_normalize_to [InA (fl v); Out 3] VVoid [fl r] /\ scaled_near (norm (map rval v)) v r /\ Rabs (norm (map rval r) - 1) <= powerRZ 2 (-20)) /\
  (forall v, length v = 4%nat -> Forall number v -> powerRZ 2 (-22) <= norm (map rval v) <= powerRZ 2 60 ->
    exists r, computes (B32 l) glm_vec4_normalize [InOut (fl v)] VVoid [fl r] /\ scaled_near (norm (map rval v)) v r /\ Rabs (norm (map rval r) - 1) <= powerRZ 2 (-20)) /\
  (forall v, length v = 4%nat -> Forall number v -> powerRZ 2 (-22) <= norm (map rval v) <= powerRZ 2 60 ->
    exists r, computes (B32 l) glm_vec4_normalize_to [InA (fl v); Out 4] VVoid [fl r] /\ scaled_near (norm (map rval v)) v r /\ Rabs (norm (map rval r) - 1) <= powerRZ 2 (-20)) /\
  (forall v, length v = 4%nat -> Forall number v -> powerRZ 2 (-22) <= norm (map rval v) <= powerRZ 2 60 ->
    exists r, computes (B32 l) glm_quat_normalize [InOut (fl v)] VVoid [fl r] /\ scaled_near (norm (map rval v)) v r /\ Rabs (norm (map rval r) - 1) <= powerRZ 2 (-20)) /\
  (forall v, length v = 4%nat -> Forall number v -> powerRZ 2 (-22) <= norm (map rval v) <= powerRZ 2 60 ->
    exists r, computes (B32 l) glm_quat_normalize_to [InA (fl v); Out 4] VVoid [fl r] /\ scaled_near (norm (map rval v)) v r /\ Rabs (norm (map rval r) - 1) <= powerRZ 2 (-20)).
Proof. exact IeeeNorm.C64_normalize_ok. Qed.
Print Assumptions C64_normalize.

Example C64_normalize_example : let v := [S754_finite false 12582912 (-22); S754_finite false 8388608 (-21); b0] in
  Forall number v /\ norm (map rval v) = 5 /\ powerRZ 2 (-22) <= norm (map rval v) <= powerRZ 2 60.
Proof. exact IeeeNorm.C64_normalize_ex. Qed.
