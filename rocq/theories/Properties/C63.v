(** C63: Exact identities in single precision.

    In IEEE binary32, for all finite inputs, multiplying a matrix, vector or quaternion by the
    identity, scaling by one, translating by zero and adding or subtracting zero give results
    that compare equal (==) to the input component by component; vector sums, products, dot
    products and distances are symmetric in their arguments bit for bit, NaN and infinities
    included. *)

From Coq Require Import String List ZArith Bool Reals.
From Verif Require Import MiniC Contract RScalar Cglm.
From Coq Require Import Floats.SpecFloat.
From Verif Require Import B32.
From Verif.Spec Require Import Float32.
From Verif.Spec Require Import Float32.
From Verif.Spec Require Import Float32.
From Verif.Proofs Require IeeeId.
Import ListNotations.
Local Open Scope list_scope.

(** multiplication by the identity matrix *)
Theorem C63_mat_mul : forall l,
  (forall m, length m = 4%nat -> Forall number m ->
    exists r, computes (B32 l) glm_mat2_mul [InA (fl m); In (fl bI2); Out 4] VVoid [fl r] /\ Forall2 feq r m) /\
  (forall m, length m = 4%nat -> Forall number m ->
    exists r, computes (B32 l) glm_mat2_mul [In (fl bI2); InA (fl m); Out 4] VVoid [fl r] /\ Forall2 feq r m) /\
  (forall m, length m = 9%nat -> Forall number m ->
    exists r, computes (B32 l) glm_mat3_mul [InA (fl m); In (fl bI3); Out 9] VVoid [fl r] /\ Forall2 feq r m) /\
  (forall m, length m = 9%nat -> Forall number m ->
    exists r, computes (B32 l) glm_mat3_mul [In (fl bI3); InA (fl m); Out 9] VVoid [fl r] /\ Forall2 feq r m) /\
  (forall m, length m = 16%nat -> Forall number m ->
    exists r, computes (B32 l) glm_mat4_mul [InA (fl m); In (fl bI4); Out 16] VVoid [fl r] /\ Forall2 feq r m) /\
  (forall m, length m = 16%nat -> Forall number m ->
    exists r, computes (B32 l) glm_mat4_mul [In (fl bI4); InA (fl m); Out 16] VVoid [fl r] /\ Forall2 feq r m).
Proof. exact IeeeId.C63_mat_mul_ok. Qed.
Print Assumptions C63_mat_mul.

Example C63_mat_mul_example : number (S754_finite true 11184811 (-24)) /\ Forall number bI4 /\ number (S754_zero true) /\ ~ number nan /\ ~ number (S754_infinity true) /\
  feq (S754_zero true) b0 /\ ~ feq nan nan.
Proof. exact IeeeId.C63_mat_mul_ex. Qed.

Theorem C63_mulv : forall l,
  (forall v, length v = 2%nat -> Forall number v ->
    exists r, computes (B32 l) glm_mat2_mulv [In (fl bI2); In (fl v); Out 2] VVoid [fl r] /\ Forall2 feq r v) /\
  (forall v, length v = 3%nat -> Forall number v ->
    exists r, computes (B32 l) glm_mat3_mulv [In (fl bI3); InA (fl v); Out 3] VVoid [fl r] /\ Forall2 feq r v) /\
  (forall v, length v = 4%nat -> Forall number v ->
    exists r, computes (B32 l) glm_mat4_mulv [In (fl bI4); InA (fl v); Out 4] VVoid [fl r] /\ Forall2 feq r v) /\
  (forall v w, length v = 3%nat -> Forall number v -> number w ->
    exists r, computes (B32 l) glm_mat4_mulv3 [In (fl bI4); InA (fl v); Val (VF w); Out 3] VVoid [fl r] /\ Forall2 feq r v).
Proof. exact IeeeId.C63_mulv_ok. Qed.
Print Assumptions C63_mulv.

(** affine transforms by the identity *)
Theorem C63_affine : forall l,
  (forall m, length m = 16%nat -> Forall number m ->
    exists r, computes (B32 l) glm_mul [InA (fl m); In (fl bI4); Out 16] VVoid [fl r] /\
      (nth 3 m b1 = b0 /\ nth 7 m b1 = b0 /\ nth 11 m b1 = b0 -> Forall2 feq r m)) /\
  (forall m, length m = 16%nat -> Forall number m ->
    exists r, computes (B32 l) glm_translate [InOut (fl m); In (fl [b0; b0; b0])] VVoid [fl r] /\ Forall2 feq r m) /\
  (forall m, length m = 16%nat -> Forall number m ->
    exists r, computes (B32 l) glm_scale [InOut (fl m); In (fl [b1; b1; b1])] VVoid [fl r] /\ Forall2 feq r m) /\
  (forall m, length m = 16%nat -> Forall number m ->
    exists r, computes (B32 l) glm_scale_uni [InOut (fl m); Val (VF b1)] VVoid [fl r] /\ Forall2 feq r m) /\
  (forall m, length m = 16%nat -> Forall number m ->
    exists r, computes (B32 l) glm_mat4_scale [InOut (fl m); Val (VF b1)] VVoid [fl r] /\ Forall2 feq r m).
Proof. exact IeeeId.C63_affine_ok. Qed.
Print Assumptions C63_affine.

(** multiplication by the identity quaternion *)
Theorem C63_quat : forall l,
  (forall q, length q = 4%nat -> Forall number q ->
    exists r, computes (B32 l) glm_quat_mul [In (fl q); In (fl bIq); Out 4] VVoid [fl r] /\ Forall2 feq r q) /\
  (forall q, length q = 4%nat -> Forall number q ->
    exists r, computes (B32 l) glm_quat_mul [In (fl bIq); In (fl q); Out 4] VVoid [fl r] /\ Forall2 feq r q).
Proof. exact IeeeId.C63_quat_ok. Qed.
Print Assumptions C63_quat.

(** vectors: scaling by one, adding and subtracting zero *)
Theorem C63_vec : forall l,
  (forall v, length v = 2%nat -> Forall number v ->
    exists r, computes (B32 l) glm_vec2_scale [InA (fl v); Val (VF b1); Out 2] VVoid [fl r] /\ r = v) /\
  (forall v s, length v = 2%nat -> Forall number v ->
    exists r, computes (B32 l) glm_vec2_add [InA (fl v); In (fl (repeat (S754_zero s) 2)); Out 2] VVoid [fl r] /\ Forall2 feq r v) /\
  (forall v s, length v = 2%nat -> Forall number v ->
    exists r, computes (B32 l) glm_vec2_sub [InA (fl v); In (fl (repeat (S754_zero s) 2)); Out 2] VVoid [fl r] /\ Forall2 feq r v) /\
  (forall v, length v = 3%nat -> Forall number v ->
    exists r, computes (B32 l) glm_vec3_scale [InA (fl v); Val (VF b1); Out 3] VVoid [fl r] /\ r = v) /\
  (forall v s, length v = 3%nat -> Forall number v ->
    exists r, computes (B32 l) glm_vec3_add [InA (fl v); In (fl (repeat (S754_zero s) 3)); Out 3] VVoid [fl r] /\ Forall2 feq r v) /\
  (forall v s, length v = 3%nat -> Forall number v ->
    exists r, computes (B32 l) glm_vec3_sub [InA (fl v); In (fl (repeat (S754_zero s) 3)); Out 3] VVoid [fl r] /\ Forall2 feq r v) /\
  (forall v, length v = 4%nat -> Forall number v ->
    exists r, computes (B32 l) glm_vec4_scale [InA (fl v); Val (VF b1); Out 4] VVoid [fl r] /\ r = v) /\
  (forall v s, length v = 4%nat -> Forall number v ->
    exists r, computes (B32 l) glm_vec4_add [InA (fl v); In (fl (repeat (S754_zero s) 4)); Out 4] VVoid [fl r] /\ Forall2 feq r v) /\
  (forall v s, length v = 4%nat -> Forall number v ->
    exists r, computes (B32 l) glm_vec4_sub [InA (fl v); In (fl (repeat (S754_zero s) 4)); Out 4] VVoid [fl r] /\ Forall2 feq r v).
Proof. exact IeeeId.C63_vec_ok. Qed.
Print Assumptions C63_vec.

(** sums, products and dot products commute bit for bit, NaN and infinities included *)
Theorem C63_comm : forall l,
  (forall a b, length a = 2%nat -> length b = 2%nat -> exists r,
    computes (B32 l) glm_vec2_dot [In (fl a); In (fl b)] (VF r) [] /\ computes (B32 l) glm_vec2_dot [In (fl b); In (fl a)] (VF r) []) /\
  (forall a b, length a = 2%nat -> length b = 2%nat -> exists r,
    computes (B32 l) glm_vec2_add [InA (fl a); InA (fl b); Out 2] VVoid [fl r] /\ computes (B32 l) glm_vec2_add [InA (fl b); InA (fl a); Out 2] VVoid [fl r]) /\
  (forall a b, length a = 2%nat -> length b = 2%nat -> exists r,
    computes (B32 l) glm_vec2_mul [InA (fl a); InA (fl b); Out 2] VVoid [fl r] /\ computes (B32 l) glm_vec2_mul [InA (fl b); InA (fl a); Out 2] VVoid [fl r]) /\
  (forall a b, length a = 3%nat -> length b = 3%nat -> exists r,
    computes (B32 l) glm_vec3_dot [In (fl a); In (fl b)] (VF r) [] /\ computes (B32 l) glm_vec3_dot [In (fl b); In (fl a)] (VF r) []) /\
  (forall a b, length a = 3%nat -> length b = 3%nat -> exists r,
    computes (B32 l) glm_vec3_add [InA (fl a); InA (fl b); Out 3] VVoid [fl r] /\ computes (B32 l) glm_vec3_add [InA (fl b); InA (fl a); Out 3] VVoid [fl r]) /\
  (forall a b, length a = 3%nat -> length b = 3%nat -> exists r,
    computes (B32 l) glm_vec3_mul [InA (fl a); InA (fl b); Out 3] VVoid [fl r] /\ computes (B32 l) glm_vec3_mul [InA (fl b); InA (fl a); Out 3] VVoid [fl r]) /\
  (forall a b, length a = 4%nat -> length b = 4%nat -> exists r,
    computes (B32 l) glm_vec4_dot [In (fl a); In (fl b)] (VF r) [] /\ computes (B32 l) glm_vec4_dot [In (fl b); In (fl a)] (VF r) []) /\
  (forall a b, length a = 4%nat -> length b = 4%nat -> exists r,
    computes (B32 l) glm_vec4_add [InA (fl a); InA (fl b); Out 4] VVoid [fl r] /\ computes (B32 l) glm_vec4_add [InA (fl b); InA (fl a); Out 4] VVoid [fl r]) /\
  (forall a b, length a = 4%nat -> length b = 4%nat -> exists r,
    computes (B32 l) glm_vec4_mul [InA (fl a); InA (fl b); Out 4] VVoid [fl r] /\ computes (B32 l) glm_vec4_mul [InA (fl b); InA (fl a); Out 4] VVoid [fl r]).
Proof. exact IeeeId.C63_comm_ok. Qed.
Print Assumptions C63_comm.

(** distances are symmetric bit for bit *)
Theorem C63_distance : forall l,
  (forall a b, length a = 2%nat -> length b = 2%nat -> exists r,
    computes (B32 l) glm_vec2_distance [In (fl a); In (fl b)] (VF r) [] /\ computes (B32 l) glm_vec2_distance [In (fl b); In (fl a)] (VF r) []) /\
  (forall a b, length a = 2%nat -> length b = 2%nat -> exists r,
    computes (B32 l) glm_vec2_distance2 [In (fl a); In (fl b)] (VF r) [] /\ computes (B32 l) glm_vec2_distance2 [In (fl b); In (fl a)] (VF r) []) /\
  (forall a b, length a = 3%nat -> length b = 3%nat -> exists r,
    computes (B32 l) glm_vec3_distance [In (fl a); In (fl b)] (VF r) [] /\ computes (B32 l) glm_vec3_distance [In (fl b); In (fl a)] (VF r) []) /\
  (forall a b, length a = 3%nat -> length b = 3%nat -> exists r,
    computes (B32 l) glm_vec3_distance2 [In (fl a); In (fl b)] (VF r) [] /\ computes (B32 l) glm_vec3_distance2 [In (fl b); In (fl a)] (VF r) []) /\
  (forall a b, length a = 4%nat -> length b = 4%nat -> exists r,
    computes (B32 l) glm_vec4_distance [In (fl a); In (fl b)] (VF r) [] /\ computes (B32 l) glm_vec4_distance [In (fl b); In (fl a)] (VF r) []) /\
  (forall a b, length a = 4%nat -> length b = 4%nat -> exists r,
    computes (B32 l) glm_vec4_distance2 [In (fl a); In (fl b)] (VF r) [] /\ computes (B32 l) glm_vec4_distance2 [In (fl b); In (fl a)] (VF r) []).
Proof. exact IeeeId.C63_distance_ok. Qed.
Print Assumptions C63_distance.
