(** C02: Cross product.

    Over the reals glm_vec3_cross writes the vector product of its operands even if the
    destination is one of them; the result is orthogonal to both operands, its squared length
    is |a|^2|b|^2-(a.b)^2, it is antisymmetric, and glm_vec2_cross returns the z component of
    the embedded product. *)

From Coq Require Import String List ZArith Bool Reals.
From Verif Require Import MiniC Contract RScalar Cglm.
From Verif.Spec Require Import Linear Geometry Affine Box Limits.
From Verif.Spec Require Import Linear Geometry Affine Clip Frustum Box Limits.
From Verif.Spec Require Import Linear Geometry Affine Box Limits.
From Verif.Proofs Require Rest.
Import ListNotations.
Local Open Scope list_scope.
Local Open Scope R_scope.

(** ** C02, C03: the deprecated names, and vectors of a given length *)
Theorem C02_alias : forall x y, length x = 3%nat -> length y = 3%nat ->
  computes RS glm_cross [InA (fl x); InA (fl y); Out 3] VVoid [fl (vcross x y)].
Proof. exact Rest.C02_alias_ok. Qed.
Print Assumptions C02_alias.
