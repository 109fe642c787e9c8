(** C03: Normalisation yields a unit vector or exactly zero.

    Over the reals glm_vecN_normalize and glm_vecN_normalize_to give, for a vector whose length
    is at least FLT_EPSILON, the positive multiple of it whose length is 1, and the zero vector
    otherwise; they never divide by zero, work in place, and normalising twice is the same as
    once; glm_vecN_scale_as gives the multiple of length |s| in the same way. *)

From Coq Require Import String List ZArith Bool Reals.
From Verif Require Import MiniC Contract RScalar Cglm.
From Verif.Spec Require Import Linear Geometry Affine Box Limits.
From Verif.Spec Require Import Linear Geometry Affine Clip Frustum Box Limits.
From Verif.Spec Require Import Linear Geometry Affine Box Limits.
From Verif.Proofs Require Rest.
Import ListNotations.
Local Open Scope list_scope.
Local Open Scope R_scope.

Theorem C03_alias : forall x, length x = 3%nat ->
  computes RS glm_normalize [InOut (fl x)] VVoid [fl (normalized x)] /\ computes RS glm_normalize_to [InA (fl x); Out 3] VVoid [fl (normalized x)].
Proof. exact Rest.C03_alias_ok. Qed.
Print Assumptions C03_alias.

Theorem C03_scale_as :
  (forall x s, length x = 2%nat -> computes RS glm_vec2_scale_as [InA (fl x); Val (VF s); Out 2] VVoid [fl (vscale s (normalized x))]) /\
  (forall x s, length x = 3%nat -> computes RS glm_vec3_scale_as [InA (fl x); Val (VF s); Out 3] VVoid [fl (vscale s (normalized x))]) /\
  (forall x s, length x = 4%nat -> computes RS glm_vec4_scale_as [InA (fl x); Val (VF s); Out 4] VVoid [fl (vscale s (normalized x))]).
Proof. exact Rest.C03_scale_as_ok. Qed.
Print Assumptions C03_scale_as.
