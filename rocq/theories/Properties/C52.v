(** C52: Curves.

    Over the reals glm_bezier is the cubic Bernstein polynomial, glm_hermite interpolates
    endpoints with the given tangents, and glm_smc with the GLM_BEZIER_MAT / GLM_HERMITE_MAT
    bases equals them. *)

From Coq Require Import String List ZArith Bool Reals.
From Verif Require Import MiniC Contract RScalar Cglm.
From Verif.Spec Require Import Linear Geometry ScalarSpec Curve.
From Verif.Proofs Require Curve.
Import ListNotations.
Local Open Scope list_scope.
Local Open Scope R_scope.
Local Open Scope string_scope.

Theorem C52_bezier : forall s p0 c0 c1 p1,
  computes RS glm_bezier [Val (VF s); Val (VF p0); Val (VF c0); Val (VF c1); Val (VF p1)] (VF (bernstein p0 c0 c1 p1 s)) [].
Proof. exact Curve.C52_bezier_ok. Qed.
Print Assumptions C52_bezier.

Theorem C52_hermite : forall s p0 t0 t1 p1,
  computes RS glm_hermite [Val (VF s); Val (VF p0); Val (VF t0); Val (VF t1); Val (VF p1)] (VF (hermite p0 t0 t1 p1 s)) [].
Proof. exact Curve.C52_hermite_ok. Qed.
Print Assumptions C52_hermite.

(** both curves pass through their end points with the intended tangents *)
Theorem C52_ends : forall a b c d,
  bernstein a b c d 0 = a /\ bernstein a b c d 1 = d /\
  derivable_pt_lim (bernstein a b c d) 0 (3 * (b - a)) /\ derivable_pt_lim (bernstein a b c d) 1 (3 * (d - c)) /\
  hermite a b c d 0 = a /\ hermite a b c d 1 = d /\
  derivable_pt_lim (hermite a b c d) 0 b /\ derivable_pt_lim (hermite a b c d) 1 c.
Proof. exact Curve.C52_ends_ok. Qed.
Print Assumptions C52_ends.

Theorem C52_smc : forall s M c, length M = 16%nat -> length c = 4%nat ->
  computes RS glm_smc [Val (VF s); In (fl M); In (fl c)] (VF (rdot [s ^ 3; s ^ 2; s; 1] (mvec 4 4 M c))) [].
Proof. exact Curve.C52_smc_ok. Qed.
Print Assumptions C52_smc.

(** with the library's two basis matrices it is the curve itself *)
Theorem C52_bases : forall s a b c d,
  rdot [s ^ 3; s ^ 2; s; 1] (mvec 4 4 bezier_mat [a; b; c; d]) = bernstein a b c d s /\
  rdot [s ^ 3; s ^ 2; s; 1] (mvec 4 4 hermite_mat [a; b; c; d]) = hermite a c d b s.
Proof. exact Curve.C52_bases_ok. Qed.
Print Assumptions C52_bases.
