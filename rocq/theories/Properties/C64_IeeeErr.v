(** C64: Rounding error bounds in single precision.

    In IEEE binary32, for all finite inputs, every component of a dot product of size n, of
    matrix times vector, of matrix products (glm_mat2/3/4_mul, glm_mat2/3/4_mulv), of
    glm_vec3_cross and of glm_quat_mul that does not overflow differs from the exact value by
    at most ((1+2^-24)^n - 1) times the same expression on absolute values plus n*2^-149, and
    none overflows when the inputs are at most 2^60 in magnitude; glm_vec2/3/4_normalize(_to)
    and glm_quat_normalize(_to) of a vector of length between 2^-22 and 2^60 give each
    component within relative error 6*2^-24 (plus 2^-149) of the exact one, and a vector of
    length within 2^-20 of 1. *)

From Coq Require Import String List ZArith Bool Reals.
From Verif Require Import MiniC Contract RScalar Cglm.
From Coq Require Import Reals Floats.SpecFloat.
From Verif Require Import B32.
From Verif.Spec Require Import Linear Quaternion Float32.
From Verif.Spec Require Import Linear Quaternion Float32.
From Verif.Spec Require Import Linear Quaternion Float32.
From Verif.Proofs Require IeeeErr.
Import ListNotations.
Local Open Scope list_scope.
Local Open Scope R_scope.

(** dot products *)
Theorem C64_dot : forall l,
  (forall a b, length a = 2%nat -> length b = 2%nat -> Forall number a -> Forall number b ->
    exists r, computes (B32 l) glm_vec2_dot [In (fl a); In (fl b)] (VF r) [] /\ near1 2 r (rdot (map rval a) (map rval b)) (rdot (map rabs a) (map rabs b)) /\
      (Forall moderate a -> Forall moderate b -> finite r = true)) /\
  (forall a b, length a = 3%nat -> length b = 3%nat -> Forall number a -> Forall number b ->
    exists r, computes (B32 l) glm_vec3_dot [In (fl a); In (fl b)] (VF r) [] /\ near1 3 r (rdot (map rval a) (map rval b)) (rdot (map rabs a) (map rabs b)) /\
      (Forall moderate a -> Forall moderate b -> finite r = true)) /\
  (forall a b, length a = 4%nat -> length b = 4%nat -> Forall number a -> Forall number b ->
    exists r, computes (B32 l) glm_vec4_dot [In (fl a); In (fl b)] (VF r) [] /\ near1 4 r (rdot (map rval a) (map rval b)) (rdot (map rabs a) (map rabs b)) /\
      (Forall moderate a -> Forall moderate b -> finite r = true)).
Proof. exact IeeeErr.C64_dot_ok. Qed.
Print Assumptions C64_dot.

(** matrix times vector *)
Theorem C64_mulv : forall l,
  (forall m v, length m = 4%nat -> length v = 2%nat -> Forall number m -> Forall number v ->
    exists r, computes (B32 l) glm_mat2_mulv [In (fl m); In (fl v); Out 2] VVoid [fl r] /\
      near 2 r (mvec 2 2 (map rval m) (map rval v)) (mvec 2 2 (map rabs m) (map rabs v)) /\
      (Forall moderate m -> Forall moderate v -> Forall (fun x => finite x = true) r)) /\
  (forall m v, length m = 9%nat -> length v = 3%nat -> Forall number m -> Forall number v ->
    exists r, computes (B32 l) glm_mat3_mulv [In (fl m); InA (fl v); Out 3] VVoid [fl r] /\
      near 3 r (mvec 3 3 (map rval m) (map rval v)) (mvec 3 3 (map rabs m) (map rabs v)) /\
      (Forall moderate m -> Forall moderate v -> Forall (fun x => finite x = true) r)) /\
  (forall m v, length m = 16%nat -> length v = 4%nat -> Forall number m -> Forall number v ->
    exists r, computes (B32 l) glm_mat4_mulv [In (fl m); InA (fl v); Out 4] VVoid [fl r] /\
      near 4 r (mvec 4 4 (map rval m) (map rval v)) (mvec 4 4 (map rabs m) (map rabs v)) /\
      (Forall moderate m -> Forall moderate v -> Forall (fun x => finite x = true) r)).
Proof. exact IeeeErr.C64_mulv_ok. Qed.
Print Assumptions C64_mulv.

(** matrix products *)
Theorem C64_mat_mul : forall l,
  (forall a b, length a = 4%nat -> length b = 4%nat -> Forall number a -> Forall number b ->
    exists r, computes (B32 l) glm_mat2_mul [In (fl a); In (fl b); Out 4] VVoid [fl r] /\
      near 2 r (mmul 2 (map rval a) (map rval b)) (mmul 2 (map rabs a) (map rabs b)) /\
      (Forall moderate a -> Forall moderate b -> Forall (fun x => finite x = true) r)) /\
  (forall a b, length a = 9%nat -> length b = 9%nat -> Forall number a -> Forall number b ->
    exists r, computes (B32 l) glm_mat3_mul [In (fl a); In (fl b); Out 9] VVoid [fl r] /\
      near 3 r (mmul 3 (map rval a) (map rval b)) (mmul 3 (map rabs a) (map rabs b)) /\
      (Forall moderate a -> Forall moderate b -> Forall (fun x => finite x = true) r)) /\
  (forall a b, length a = 16%nat -> length b = 16%nat -> Forall number a -> Forall number b ->
    exists r, computes (B32 l) glm_mat4_mul [In (fl a); In (fl b); Out 16] VVoid [fl r] /\
      near 4 r (mmul 4 (map rval a) (map rval b)) (mmul 4 (map rabs a) (map rabs b)) /\
      (Forall moderate a -> Forall moderate b -> Forall (fun x => finite x = true) r)).
Proof. exact IeeeErr.C64_mat_mul_ok. Qed.
Print Assumptions C64_mat_mul.

(** cross and Hamilton products *)
Theorem C64_products : forall l,
  (forall a b, length a = 3%nat -> length b = 3%nat -> Forall number a -> Forall number b ->
    exists r, computes (B32 l) glm_vec3_cross [In (fl a); In (fl b); Out 3] VVoid [fl r] /\
      near 2 r (vcross (map rval a) (map rval b)) (cross_abs (map rabs a) (map rabs b)) /\
      (Forall moderate a -> Forall moderate b -> Forall (fun x => finite x = true) r)) /\
  (forall p q, length p = 4%nat -> length q = 4%nat -> Forall number p -> Forall number q ->
    exists r, computes (B32 l) glm_quat_mul [In (fl p); In (fl q); Out 4] VVoid [fl r] /\
      near 4 r (qmul (map rval p) (map rval q)) (qmul_abs (map rabs p) (map rabs q)) /\
      (Forall moderate p -> Forall moderate q -> Forall (fun x => finite x = true) r)).
Proof. exact IeeeErr.C64_products_ok. Qed.
Print Assumptions C64_products.

Example C64_dot_example : let x := S754_finite false 8388609 (-23) in
  Forall moderate [x; x; x] /\ rval (SFmul prec emax x x) <> rval x * rval x.
Proof. exact IeeeErr.C64_dot_ex. Qed.

Example C64_mulv_example : let x := S754_finite false 8388609 (-23) in
  Forall moderate [x; x; x; x] /\ rval (SFmul prec emax x x) <> rval x * rval x.
Proof. exact IeeeErr.C64_mulv_ex. Qed.

Example C64_mat_mul_example : let x := S754_finite false 8388609 (-23) in
  Forall moderate [x; x; x; x] /\ rval (SFmul prec emax x x) <> rval x * rval x.
Proof. exact IeeeErr.C64_mat_mul_ex. Qed.

Example C64_products_example : let x := S754_finite false 8388609 (-23) in
  Forall moderate [x; x; x; x] /\ rval (SFmul prec emax x x) <> rval x * rval x.
Proof. exact IeeeErr.C64_products_ex. Qed.
