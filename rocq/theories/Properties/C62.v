(** C62: Overflow, underflow and NaN in single precision.

    In IEEE binary32 glm_vec2/3/4_normalize and glm_quat_normalize write zeros for every finite
    vector or quaternion with a component of magnitude at least 2^64; glm_mat4_inv of a well
    conditioned matrix whose inverse is representable may contain NaN; glm_lerp at 0 is the
    first value unless the difference overflows (then NaN) and at 1 need not be the second;
    glm_vecN_isnan/isinf/isvalid classify exactly; glm_signf is 0 for zeros and NaN; glm_step
    is 1 when an argument is NaN. *)

From Coq Require Import String List ZArith Bool Reals.
From Verif Require Import MiniC Contract RScalar Cglm.
From Coq Require Import Reals Floats.SpecFloat.
From Verif Require Import B32.
From Verif.Spec Require Import Float32.
From Verif.Spec Require Import Float32.
From Verif.Spec Require Import Float32.
From Verif.Proofs Require IeeeOver.
Import ListNotations.
Local Open Scope list_scope.

(** a finite vector with a component of magnitude 2^64 or more is normalised to zero *)
Theorem C62_normalize_overflow : forall l,
  (forall v, length v = 2%nat -> Forall number v -> huge v ->
    exists r, computes (B32 l) glm_vec2_normalize [InOut (fl v)] VVoid [fl r] /\ Forall (fun x => feq x b0) r) /\
  (forall v, length v = 2%nat -> Forall number v -> huge v ->
    exists r, computes (B32 l) glm_vec2_normalize_to [InA (fl v); Out 2] VVoid [fl r] /\ Forall (fun x => feq x b0) r) /\
  (forall v, length v = 3%nat -> Forall number v -> huge v ->
    exists r, computes (B32 l) glm_vec3_normalize [InOut (fl v)] VVoid [fl r] /\ Forall (fun x => feq x b0) r) /\
  (forall v, length v = 3%nat -> Forall number v -> huge v ->
    exists r, computes (B32 l) glm_vec3_normalize_to [InA (fl v); Out 3] VVoid [fl r] /\ Forall (fun x => feq x b0) r) /\
  (forall v, length v = 4%nat -> Forall number v -> huge v ->
    exists r, computes (B32 l) glm_vec4_normalize [InOut (fl v)] VVoid [fl r] /\ Forall (fun x => feq x b0) r) /\
  (forall v, length v = 4%nat -> Forall number v -> huge v ->
    exists r, computes (B32 l) glm_vec4_normalize_to [InA (fl v); Out 4] VVoid [fl r] /\ Forall (fun x => feq x b0) r).
Proof. exact IeeeOver.C62_normalize_overflow_ok. Qed.
Print Assumptions C62_normalize_overflow.

Example C62_normalize_overflow_example : Forall number [S754_finite false 8388608 41; b0; b0] /\ huge [S754_finite false 8388608 41; b0; b0].
Proof. exact IeeeOver.C62_normalize_overflow_ex. Qed.

(** and such a quaternion is normalised to zero, not to the identity *)
Theorem C62_quat_normalize : forall l q, length q = 4%nat -> Forall number q -> huge q ->
  exists r, computes (B32 l) glm_quat_normalize_to [InA (fl q); Out 4] VVoid [fl r] /\ Forall (fun x => feq x b0) r.
Proof. exact IeeeOver.C62_quat_normalize_ok. Qed.
Print Assumptions C62_quat_normalize.

Theorem C62_inv_underflow_refuted : exists m n, length m = 16%nat /\ Forall number m /\ Forall number n /\ forall l,
  computes (B32 l) glm_mat4_mul [In (fl m); In (fl n); Out 16] VVoid [fl bI4] /\
  exists r, computes (B32 l) glm_mat4_inv [InA (fl m); Out 16] VVoid [fl r] /\ Exists (fun x => is_nan x = true) r.
Proof. exact IeeeOver.C62_inv_underflow_refuted_ok. Qed.
Print Assumptions C62_inv_underflow_refuted.

(** glm_lerp at 0 is the first value, unless the difference overflows *)
Theorem C62_lerp_zero : forall l a b, number a -> number b ->
  (finite (SFsub prec emax b a) = true -> exists r, computes (B32 l) glm_lerp [Val (VF a); Val (VF b); Val (VF b0)] (VF r) [] /\ feq r a) /\
  (finite (SFsub prec emax b a) = false -> computes (B32 l) glm_lerp [Val (VF a); Val (VF b); Val (VF b0)] (VF nan) []).
Proof. exact IeeeOver.C62_lerp_zero_ok. Qed.
Print Assumptions C62_lerp_zero.

Example C62_lerp_zero_example : finite (SFsub prec emax b1 b0) = true /\
  number (S754_finite false 16777215 104) /\ number (S754_finite true 16777215 104) /\
  finite (SFsub prec emax (S754_finite false 16777215 104) (S754_finite true 16777215 104)) = false.
Proof. exact IeeeOver.C62_lerp_zero_ex. Qed.

(** glm_lerp at 1 need not be the second value *)
Theorem C62_lerp_one_refuted : exists a b r, number a /\ number b /\ ~ feq r b /\
  forall l, computes (B32 l) glm_lerp [Val (VF a); Val (VF b); Val (VF b1)] (VF r) [].
Proof. exact IeeeOver.C62_lerp_one_refuted_ok. Qed.
Print Assumptions C62_lerp_one_refuted.

(** the classification functions *)
Theorem C62_classify : forall l,
  (forall v, length v = 2%nat ->
    computes (B32 l) glm_vec2_isnan [In (fl v)] (VB (existsb is_nan v)) [] /\
    computes (B32 l) glm_vec2_isinf [In (fl v)] (VB (existsb is_inf v)) [] /\
    computes (B32 l) glm_vec2_isvalid [In (fl v)] (VB (forallb finite v)) []) /\
  (forall v, length v = 3%nat ->
    computes (B32 l) glm_vec3_isnan [In (fl v)] (VB (existsb is_nan v)) [] /\
    computes (B32 l) glm_vec3_isinf [In (fl v)] (VB (existsb is_inf v)) [] /\
    computes (B32 l) glm_vec3_isvalid [In (fl v)] (VB (forallb finite v)) []) /\
  (forall v, length v = 4%nat ->
    computes (B32 l) glm_vec4_isnan [In (fl v)] (VB (existsb is_nan v)) [] /\
    computes (B32 l) glm_vec4_isinf [In (fl v)] (VB (existsb is_inf v)) [] /\
    computes (B32 l) glm_vec4_isvalid [In (fl v)] (VB (forallb finite v)) []).
Proof. exact IeeeOver.C62_classify_ok. Qed.
Print Assumptions C62_classify.

(** the sign of a binary32 value: zero for zeros and NaN *)
Theorem C62_signf : forall l x, computes (B32 l) glm_signf [Val (VF x)]
  (VF (match x with S754_zero _ | S754_nan => b0 | _ => if isign x then SFopp b1 else b1 end)) [].
Proof. exact IeeeOver.C62_signf_ok. Qed.
Print Assumptions C62_signf.

(** glm_step is 1 when either argument is NaN *)
Theorem C62_step : forall l e x, is_nan e = true \/ is_nan x = true -> computes (B32 l) glm_step [Val (VF e); Val (VF x)] (VF b1) [].
Proof. exact IeeeOver.C62_step_ok. Qed.
Print Assumptions C62_step.
