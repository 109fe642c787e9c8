(** C46: Approximate equality.

    Over the reals glm_eq and the glm_vecN_eqv_eps functions are reflexive and symmetric but
    not transitive; glm_vecN_eqv decides exact equality of all components; over IEEE single
    precision glm_vecN_eqv of a vector with itself is false iff some component is NaN. *)

From Coq Require Import String List ZArith Bool Reals.
From Verif Require Import MiniC Contract RScalar Cglm.
From Coq Require Import Floats.SpecFloat.
From Verif Require Import B32.
From Verif.Spec Require Import Float32.
From Verif.Spec Require Import Float32.
From Verif.Spec Require Import Float32.
From Verif.Proofs Require Ieee.
Import ListNotations.
Local Open Scope list_scope.

Theorem C46_eqv_nan : forall l,
  (forall v, length v = 2%nat -> computes (B32 l) glm_vec2_eqv [InA (fl v); InA (fl v)] (VB (negb (existsb is_nan v))) []) /\
  (forall v, length v = 3%nat -> computes (B32 l) glm_vec3_eqv [InA (fl v); InA (fl v)] (VB (negb (existsb is_nan v))) []) /\
  (forall v, length v = 4%nat -> computes (B32 l) glm_vec4_eqv [InA (fl v); InA (fl v)] (VB (negb (existsb is_nan v))) []).
Proof. exact Ieee.C46_eqv_nan_ok. Qed.
Print Assumptions C46_eqv_nan.

Example C46_eqv_nan_example : existsb is_nan [b1; nan; b0] = true /\ existsb is_nan [b1; b0] = false.
Proof. exact Ieee.C46_eqv_nan_ex. Qed.

Theorem C46_eq_self : forall l x, computes (B32 l) glm_eq [Val (VF x); Val (VF x)] (VB (finite x)) [].
Proof. exact Ieee.C46_eq_self_ok. Qed.
Print Assumptions C46_eq_self.

Example C46_eq_self_example : finite (S754_infinity false) = false /\ finite b1 = true.
Proof. exact Ieee.C46_eq_self_ex. Qed.
