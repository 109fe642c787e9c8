(** C45: NaN behaviour of min/max/clamp.

    In IEEE single precision glm_min(a,b) and glm_max(a,b) return b whenever either argument is
    NaN, so they are not commutative; glm_clamp of NaN returns the lower bound clamped by the
    upper one, never NaN, for ordered bounds. *)

From Coq Require Import String List ZArith Bool Reals.
From Verif Require Import MiniC Contract RScalar Cglm.
From Coq Require Import Floats.SpecFloat.
From Verif Require Import B32.
From Verif.Spec Require Import Float32.
From Verif.Spec Require Import Float32.
From Verif.Spec Require Import Float32.
From Verif.Proofs Require Ieee.
Import ListNotations.
Local Open Scope list_scope.

Theorem C45_min_max_nan : forall l a b, is_nan a = true \/ is_nan b = true ->
  computes (B32 l) glm_min [Val (VF a); Val (VF b)] (VF b) [] /\
  computes (B32 l) glm_max [Val (VF a); Val (VF b)] (VF b) [].
Proof. exact Ieee.C45_min_max_nan_ok. Qed.
Print Assumptions C45_min_max_nan.

Example C45_min_max_nan_example : is_nan nan = true /\ is_nan b1 = false /\ inb32 b1 = true.
Proof. exact Ieee.C45_min_max_nan_ex. Qed.

(** so they are not commutative *)
Theorem C45_commutative_refuted : exists a b, inb32 a = true /\ inb32 b = true /\ a <> b /\ forall l,
  computes (B32 l) glm_min [Val (VF a); Val (VF b)] (VF b) [] /\ computes (B32 l) glm_min [Val (VF b); Val (VF a)] (VF a) [] /\
  computes (B32 l) glm_max [Val (VF a); Val (VF b)] (VF b) [] /\ computes (B32 l) glm_max [Val (VF b); Val (VF a)] (VF a) [].
Proof. exact Ieee.C45_commutative_refuted_ok. Qed.
Print Assumptions C45_commutative_refuted.

(** without NaN: the smaller and the larger argument *)
Theorem C45_min_max : forall l a b, is_nan a = false -> is_nan b = false ->
  (exists r, computes (B32 l) glm_min [Val (VF a); Val (VF b)] (VF r) [] /\ (r = a \/ r = b) /\ SFleb r a = true /\ SFleb r b = true) /\
  (exists r, computes (B32 l) glm_max [Val (VF a); Val (VF b)] (VF r) [] /\ (r = a \/ r = b) /\ SFleb a r = true /\ SFleb b r = true).
Proof. exact Ieee.C45_min_max_ok. Qed.
Print Assumptions C45_min_max.

Example C45_min_max_example : is_nan b0 = false /\ is_nan b1 = false /\ is_nan (S754_infinity true) = false.
Proof. exact Ieee.C45_min_max_ex. Qed.

(** glm_clamp of NaN is the lower bound (of two equal bounds, the upper one), never NaN *)
Theorem C45_clamp_nan : forall l lo hi, SFleb lo hi = true ->
  exists r, computes (B32 l) glm_clamp [Val (VF nan); Val (VF lo); Val (VF hi)] (VF r) [] /\ feq r lo /\ is_nan r = false /\ (r = lo \/ r = hi).
Proof. exact Ieee.C45_clamp_nan_ok. Qed.
Print Assumptions C45_clamp_nan.

Example C45_clamp_nan_example : SFleb b0 b1 = true /\ feq b0 (S754_zero true).
Proof. exact Ieee.C45_clamp_nan_ex. Qed.

(** glm_clamp_zo never returns NaN *)
Theorem C45_clamp_zo : forall l x, exists r, computes (B32 l) glm_clamp_zo [Val (VF x)] (VF r) [] /\ SFleb b0 r = true /\ SFleb r b1 = true.
Proof. exact Ieee.C45_clamp_zo_ok. Qed.
Print Assumptions C45_clamp_zo.
