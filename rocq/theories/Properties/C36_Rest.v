(** C36: AABB algebra.

    Over the reals glm_aabb_merge gives the least box containing both operands, glm_aabb_crop
    the intersection, glm_aabb_contains and glm_aabb_point decide containment and glm_aabb_aabb
    decides non-empty intersection of closed boxes, all with any aliasing; glm_aabb_invalidate
    writes the empty box, neutral for merging, which glm_aabb_isvalid rejects, although that
    accepts boxes whose lower corner is above the upper one. *)

From Coq Require Import String List ZArith Bool Reals.
From Verif Require Import MiniC Contract RScalar Cglm.
From Verif.Spec Require Import Linear Geometry Affine Box Limits.
From Verif.Spec Require Import Linear Geometry Affine Clip Frustum Box Limits.
From Verif.Spec Require Import Linear Geometry Affine Box Limits.
From Verif.Proofs Require Rest.
Import ListNotations.
Local Open Scope list_scope.
Local Open Scope R_scope.

(** ** C36 *)
Theorem C36_zero_copy :
  computes RS glm_aabb2d_zero [Out 4] VVoid [fl [0; 0; 0; 0]] /\
  (forall b, length b = 4%nat -> computes RS glm_aabb2d_copy [InA (fl b); Out 4] VVoid [fl b]).
Proof. exact Rest.C36_zero_copy_ok. Qed.
Print Assumptions C36_zero_copy.

(** the empty box, the neutral element of merging, and the test for it *)
Theorem C36_invalid :
  computes RS glm_aabb_invalidate [Out 6] VVoid [fl (repeat flt_max 3 ++ repeat (- flt_max) 3)] /\
  computes RS glm_aabb2d_invalidate [Out 4] VVoid [fl (repeat flt_max 2 ++ repeat (- flt_max) 2)] /\
  computes RS glm_aabb_isvalid [In (fl (repeat flt_max 3 ++ repeat (- flt_max) 3))] (VB false) [] /\
  computes RS glm_aabb2d_isvalid [In (fl (repeat flt_max 2 ++ repeat (- flt_max) 2))] (VB false) [] /\
  (forall b, length b = 6%nat -> (forall i, (i < 3)%nat -> at_ b i < flt_max) -> (forall i, (3 <= i < 6)%nat -> - flt_max < at_ b i) ->
    computes RS glm_aabb_isvalid [In (fl b)] (VB true) []) /\
  (forall b, length b = 4%nat -> (forall i, (i < 2)%nat -> at_ b i < flt_max) -> (forall i, (2 <= i < 4)%nat -> - flt_max < at_ b i) ->
    computes RS glm_aabb2d_isvalid [In (fl b)] (VB true) []).
Proof. exact Rest.C36_invalid_ok. Qed.
Print Assumptions C36_invalid.

Example C36_invalid_example : (forall i, (i < 3)%nat -> at_ [1; 2; 3; 1; 2; 4] i < flt_max) /\ (forall i, (3 <= i < 6)%nat -> - flt_max < at_ [1; 2; 3; 1; 2; 4] i).
Proof. exact Rest.C36_invalid_ex. Qed.

(** merging with the empty box *)
Theorem C36_merge_invalid : forall n, (n = 2 \/ n = 3)%nat -> forall b, length b = (n + n)%nat -> (forall i, (i < n + n)%nat -> - flt_max <= at_ b i <= flt_max) ->
  computes RS (merge_fn n) [In (fl (repeat flt_max n ++ repeat (- flt_max) n)); InA (fl b); Out (n + n)] VVoid [fl b].
Proof. exact Rest.C36_merge_invalid_ok. Qed.
Print Assumptions C36_merge_invalid.

Example C36_merge_invalid_example : forall i, (i < 2 + 2)%nat -> - flt_max <= at_ [1; 2; 3; 4] i <= flt_max.
Proof. exact Rest.C36_merge_invalid_ex. Qed.

(** glm_aabb_isvalid does not reject a box whose lower corner lies above its upper corner *)
Theorem C36_isvalid_refuted : exists b, length b = 6%nat /\ computes RS glm_aabb_isvalid [In (fl b)] (VB true) [] /\ forall p, ~ in_aabb 3 b p.
Proof. exact Rest.C36_isvalid_refuted_ok. Qed.
Print Assumptions C36_isvalid_refuted.
