(** C60: Complex-number operations on vec2.

    Over the reals glm_vec2_complex_mul and glm_vec2_complex_div compute complex product and
    quotient with any aliasing and are inverse to each other for non-zero divisors. *)

From Coq Require Import String List ZArith Bool Reals.
From Verif Require Import MiniC Contract RScalar Cglm.
From Verif.Spec Require Import Linear Geometry Client.
From Verif.Proofs Require VecRot.
Import ListNotations.
Local Open Scope list_scope.
Local Open Scope R_scope.

(** ** C60 *)
Theorem C60_mul : forall a b, length a = 2%nat -> length b = 2%nat ->
  computes RS glm_vec2_complex_mul [InA (fl a); InA (fl b); Out 2] VVoid [fl (cmul a b)].
Proof. exact VecRot.C60_mul_ok. Qed.
Print Assumptions C60_mul.

(** the quotient is the number whose product with the divisor is the dividend *)
Theorem C60_div : forall a b, length a = 2%nat -> length b = 2%nat -> norm2 b <> 0 -> exists q,
  computes RS glm_vec2_complex_div [InA (fl a); InA (fl b); Out 2] VVoid [fl q] /\
  length q = 2%nat /\ cmul q b = a /\ cmul b q = a.
Proof. exact VecRot.C60_div_ok. Qed.
Print Assumptions C60_div.

Theorem C60_div_zero : forall a b, length a = 2%nat -> length b = 2%nat -> norm2 b = 0 ->
  aborts RS glm_vec2_complex_div [InA (fl a); InA (fl b); Out 2] XFloatDomain.
Proof. exact VecRot.C60_div_zero_ok. Qed.
Print Assumptions C60_div_zero.

Example C60_div_example : norm2 [3; 4] <> 0.
Proof. exact VecRot.C60_div_ex. Qed.

(** complex multiplication: a commutative ring structure, norm multiplicative, conjugate *)
Theorem C60_laws : forall a b c, length a = 2%nat -> length b = 2%nat -> length c = 2%nat ->
  cmul a b = cmul b a /\ cmul (cmul a b) c = cmul a (cmul b c) /\ cmul a (vadd b c) = vadd (cmul a b) (cmul a c) /\
  cmul [1; 0] a = a /\ norm2 (cmul a b) = norm2 a * norm2 b.
Proof. exact VecRot.C60_laws_ok. Qed.
Print Assumptions C60_laws.

Theorem C60_conjugate : forall a, length a = 2%nat ->
  computes RS glm_vec2_complex_conjugate [InA (fl a); Out 2] VVoid [fl [at_ a 0; - at_ a 1]].
Proof. exact VecRot.C60_conjugate_ok. Qed.
Print Assumptions C60_conjugate.
