(** C02: Cross product.

    Over the reals glm_vec3_cross writes the vector product of its operands even if the
    destination is one of them; the result is orthogonal to both operands, its squared length
    is |a|^2|b|^2-(a.b)^2, it is antisymmetric, and glm_vec2_cross returns the z component of
    the embedded product. *)

From Coq Require Import String List ZArith Bool Reals.
From Verif Require Import MiniC Contract RScalar Cglm.
From Verif.Spec Require Import Linear Client.
From Verif.Proofs Require VecNorm.
Import ListNotations.
Local Open Scope list_scope.
Local Open Scope R_scope.

(** the destination may be either operand *)
Theorem C02_cross : forall x y, length x = 3%nat -> length y = 3%nat ->
  computes RS glm_vec3_cross [InA (fl x); InA (fl y); Out 3] VVoid [fl (vcross x y)].
Proof. exact VecNorm.C02_cross_ok. Qed.
Print Assumptions C02_cross.

(** orthogonality, Lagrange identity, antisymmetry *)
Theorem C02_laws : forall x y, length x = 3%nat -> length y = 3%nat ->
  rdot (vcross x y) x = 0 /\ rdot (vcross x y) y = 0 /\
  norm2 (vcross x y) = norm2 x * norm2 y - rdot x y * rdot x y /\
  vcross y x = vscale (-1) (vcross x y).
Proof. exact VecNorm.C02_laws_ok. Qed.
Print Assumptions C02_laws.

Theorem C02_vec2_cross : forall x y, length x = 2%nat -> length y = 2%nat ->
  computes RS glm_vec2_cross [In (fl x); In (fl y)] (VF (at_ (vcross (x ++ [0]) (y ++ [0])) 2)) [].
Proof. exact VecNorm.C02_vec2_cross_ok. Qed.
Print Assumptions C02_vec2_cross.
