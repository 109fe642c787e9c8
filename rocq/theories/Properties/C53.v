(** C53: De Casteljau solver.

    Over the reals glm_decasteljau terminates and returns a parameter in [0,1] for all inputs:
    0 or 1 when the target is not at least 1e-20 inside the end values, otherwise either a
    parameter whose curve value is within 1e-9 of the target, or (after all 1000 halvings) a
    parameter within 2^-1001 of an exact solution of B(s) = target in [0,1]. *)

From Coq Require Import String List ZArith Bool Reals.
From Verif Require Import MiniC Contract RScalar Cglm.
From Verif.Spec Require Import Linear Geometry ScalarSpec Curve.
From Verif.Proofs Require Curve.
Import ListNotations.
Local Open Scope list_scope.
Local Open Scope R_scope.
Local Open Scope string_scope.

(** the solver always returns a parameter in [0, 1]; outside the special cases at the two ends it is a parameter whose
    curve value is within 1e-9 of the target, or after 1000 halvings one that lies within 2^-1001 of an exact solution *)
Theorem C53_decasteljau : forall prm p0 c0 c1 p1, exists r,
  computes RS glm_decasteljau [Val (VF prm); Val (VF p0); Val (VF c0); Val (VF c1); Val (VF p1)] (VF r) [] /\ 0 <= r <= 1 /\
  (prm - p0 < 1/100000000000000000000 -> r = 0) /\
  (1/100000000000000000000 <= prm - p0 -> p1 - prm < 1/100000000000000000000 -> r = 1) /\
  (1/100000000000000000000 <= prm - p0 -> 1/100000000000000000000 <= p1 - prm ->
     Rabs (bernstein p0 c0 c1 p1 r - prm) < 1/1000000000 \/
     exists s, 0 <= s <= 1 /\ bernstein p0 c0 c1 p1 s = prm /\ Rabs (r - s) <= (/ 2) ^ 1001).
Proof. exact Curve.C53_decasteljau_ok. Qed.
Print Assumptions C53_decasteljau.

(** the two special cases and the general one do occur *)
Example C53_decasteljau_example : 1/100000000000000000000 <= 1/4 - 0 /\ 1/100000000000000000000 <= 1 - 1/4 /\
  bernstein 0 (1/3) (2/3) 1 (1/4) = 1/4 /\ 0 - 0 < 1/100000000000000000000 /\ 1 - 1 < 1/100000000000000000000.
Proof. exact Curve.C53_decasteljau_ex. Qed.
