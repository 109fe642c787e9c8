(** C46: Approximate equality.

    Over the reals glm_eq and the glm_vecN_eqv_eps functions are reflexive and symmetric but
    not transitive; glm_vecN_eqv decides exact equality of all components; over IEEE single
    precision glm_vecN_eqv of a vector with itself is false iff some component is NaN. *)

From Coq Require Import String List ZArith Bool Reals.
From Verif Require Import MiniC Contract RScalar Cglm.
From Verif.Spec Require Import Linear Geometry ScalarSpec Client.
From Verif.Proofs Require Util.
Import ListNotations.
Local Open Scope list_scope.
Local Open Scope R_scope.

(** ** C46 (real part) *)
Theorem C46_eq : forall a b, computes RS glm_eq [Val (VF a); Val (VF b)] (VB (close a b)) [].
Proof. exact Util.C46_eq_ok. Qed.
Print Assumptions C46_eq.

(** reflexive and symmetric, but not transitive *)
Theorem C46_not_transitive_refuted : exists a b c,
  computes RS glm_eq [Val (VF a); Val (VF b)] (VB true) [] /\
  computes RS glm_eq [Val (VF b); Val (VF c)] (VB true) [] /\
  computes RS glm_eq [Val (VF a); Val (VF c)] (VB false) [].
Proof. exact Util.C46_not_transitive_refuted_ok. Qed.
Print Assumptions C46_not_transitive_refuted.

Theorem C46_refl_sym : forall a b,
  computes RS glm_eq [Val (VF a); Val (VF a)] (VB true) [] /\
  (forall r, computes RS glm_eq [Val (VF a); Val (VF b)] (VB r) [] -> computes RS glm_eq [Val (VF b); Val (VF a)] (VB r) []).
Proof. exact Util.C46_refl_sym_ok. Qed.
Print Assumptions C46_refl_sym.

(** the vector forms compare all components; exact comparison decides equality *)
Theorem C46_eqv :
  (forall a b, length a = 2%nat -> length b = 2%nat -> exists r, computes RS glm_vec2_eqv [In (fl a); In (fl b)] (VB r) [] /\ (r = true <-> a = b)) /\
  (forall a b, length a = 3%nat -> length b = 3%nat -> exists r, computes RS glm_vec3_eqv [In (fl a); In (fl b)] (VB r) [] /\ (r = true <-> a = b)) /\
  (forall a b, length a = 4%nat -> length b = 4%nat -> exists r, computes RS glm_vec4_eqv [In (fl a); In (fl b)] (VB r) [] /\ (r = true <-> a = b)).
Proof. exact Util.C46_eqv_ok. Qed.
Print Assumptions C46_eqv.

Theorem C46_eqv_eps :
  (forall a b, length a = 2%nat -> length b = 2%nat -> computes RS glm_vec2_eqv_eps [In (fl a); In (fl b)] (VB (all_close a b)) []) /\
  (forall a b, length a = 3%nat -> length b = 3%nat -> computes RS glm_vec3_eqv_eps [In (fl a); In (fl b)] (VB (all_close a b)) []) /\
  (forall a b, length a = 4%nat -> length b = 4%nat -> computes RS glm_vec4_eqv_eps [In (fl a); In (fl b)] (VB (all_close a b)) []) /\
  (forall a t, length a = 2%nat -> computes RS glm_vec2_eq_eps [In (fl a); Val (VF t)] (VB (all_close a (repeat t 2))) []) /\
  (forall a t, length a = 3%nat -> computes RS glm_vec3_eq_eps [In (fl a); Val (VF t)] (VB (all_close a (repeat t 3))) []) /\
  (forall a t, length a = 4%nat -> computes RS glm_vec4_eq_eps [In (fl a); Val (VF t)] (VB (all_close a (repeat t 4))) []) /\
  (forall a, length a = 2%nat -> computes RS glm_vec2_eq_all [In (fl a)] (VB (all_close a (repeat (at_ a 0) 2))) []) /\
  (forall a, length a = 3%nat -> computes RS glm_vec3_eq_all [In (fl a)] (VB (all_close a (repeat (at_ a 0) 3))) []) /\
  (forall a, length a = 4%nat -> computes RS glm_vec4_eq_all [In (fl a)] (VB (all_close a (repeat (at_ a 0) 4))) []).
Proof. exact Util.C46_eqv_eps_ok. Qed.
Print Assumptions C46_eqv_eps.

Theorem C46_close : forall a b, all_close a a = true /\ all_close a b = all_close b a.
Proof. exact Util.C46_close_ok. Qed.
Print Assumptions C46_close.

Theorem C46_eq_value :
  (forall a t, length a = 2%nat -> exists r, computes RS glm_vec2_eq [In (fl a); Val (VF t)] (VB r) [] /\ (r = true <-> a = repeat t 2)) /\
  (forall a t, length a = 3%nat -> exists r, computes RS glm_vec3_eq [In (fl a); Val (VF t)] (VB r) [] /\ (r = true <-> a = repeat t 3)) /\
  (forall a t, length a = 4%nat -> exists r, computes RS glm_vec4_eq [In (fl a); Val (VF t)] (VB r) [] /\ (r = true <-> a = repeat t 4)).
Proof. exact Util.C46_eq_value_ok. Qed.
Print Assumptions C46_eq_value.
