(** C47: Reflection and refraction.

    Over the reals glm_vecN_reflect(v,n) for unit n is an involution preserving length and
    reversing the normal component; glm_vecN_refract obeys Snell's law (eta scales the
    tangential component, unit result) when it returns true and writes zero and returns false
    on total internal reflection; glm_vecN_refract is wrong when the destination is the normal
    and glm_vec4_reflect leaves w wrong when the destination is v; glm_vec3_faceforward returns
    the normal or its opposite, facing away from the incident vector. *)

From Coq Require Import String List ZArith Bool Reals.
From Verif Require Import MiniC Contract RScalar Cglm.
From Verif.Spec Require Import Linear Geometry Affine Box Limits.
From Verif.Spec Require Import Linear Geometry Affine Clip Frustum Box Limits.
From Verif.Spec Require Import Linear Geometry Affine Box Limits.
From Verif.Proofs Require Rest.
Import ListNotations.
Local Open Scope list_scope.
Local Open Scope R_scope.

(** ** C47 *)
Theorem C47_faceforward : forall n v r, length n = 3%nat -> length v = 3%nat -> length r = 3%nat ->
  computes RS glm_vec3_faceforward [InA (fl n); In (fl v); In (fl r); Out 3] VVoid [fl (if Rlt_dec (rdot v r) 0 then n else neg n)].
Proof. exact Rest.C47_faceforward_ok. Qed.
Print Assumptions C47_faceforward.

(** facing away from [v] when the reference is the normal itself *)
Theorem C47_faceforward_side : forall n v, length n = 3%nat -> length v = 3%nat -> exists r, length r = 3%nat /\
  computes RS glm_vec3_faceforward [InA (fl n); In (fl v); In (fl n); Out 3] VVoid [fl r] /\ (r = n \/ r = neg n) /\ rdot v r <= 0.
Proof. exact Rest.C47_faceforward_side_ok. Qed.
Print Assumptions C47_faceforward_side.
