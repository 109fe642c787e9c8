(** C32: Decomposing perspective matrices.

    Over the reals glm_persp_decomp_* of glm_frustum_* recovers the six planes,
    glm_persp_fovy/aspect/sizes invert glm_perspective; the x and y decompositions of the left-
    handed zero-to-one convention divide by an entry that is zero in every perspective matrix. *)

From Coq Require Import String List ZArith Bool Reals.
From Verif Require Import MiniC Contract RScalar Cglm.
From Verif.Spec Require Import Linear Geometry Clip.
From Verif.Spec Require Import Linear Geometry Clip.
From Verif.Proofs Require Cam.
Import ListNotations.
Local Open Scope list_scope.
Local Open Scope R_scope.

Theorem C32_move_far : forall lh zo fovy a n f e, 0 < fovy < PI -> 0 < a -> 0 < n -> n < f -> n < f + e ->
  exists M M', length M = 16%nat /\ length M' = 16%nat /\
  computes RS (perspective_fn lh zo) [Val (VF fovy); Val (VF a); Val (VF n); Val (VF f); Out 16] VVoid [fl M] /\
  computes RS (perspective_fn lh zo) [Val (VF fovy); Val (VF a); Val (VF n); Val (VF (f + e)); Out 16] VVoid [fl M'] /\
  computes RS (move_far_fn lh zo) [InOut (fl M); Val (VF e)] VVoid [fl M'].
Proof. exact Cam.C32_move_far_ok. Qed.
Print Assumptions C32_move_far.

(** near and far distance of every frustum and perspective matrix *)
Theorem C32_depth : forall lh zo l r b t n f, l < r -> b < t -> 0 < n -> n < f ->
  exists M, length M = 16%nat /\
  computes RS (frustum_fn lh zo) [Val (VF l); Val (VF r); Val (VF b); Val (VF t); Val (VF n); Val (VF f); Out 16] VVoid [fl M] /\
  computes RS (decomp_z_fn lh zo) [In (fl M); Out 1; Out 1] VVoid [fl [n]; fl [f]] /\
  computes RS (decomp_near_fn lh zo) [In (fl M); Out 1] VVoid [fl [n]] /\
  computes RS (decomp_far_fn lh zo) [In (fl M); Out 1] VVoid [fl [f]].
Proof. exact Cam.C32_depth_ok. Qed.
Print Assumptions C32_depth.

Theorem C32_decomp : forall lh zo l r b t n f, l < r -> b < t -> 0 < n -> n < f ->
  exists M, length M = 16%nat /\
  computes RS (frustum_fn lh zo) [Val (VF l); Val (VF r); Val (VF b); Val (VF t); Val (VF n); Val (VF f); Out 16] VVoid [fl M] /\
  computes RS (decomp_fn lh zo) [In (fl M); Out 1; Out 1; Out 1; Out 1; Out 1; Out 1] VVoid [fl [n]; fl [f]; fl [t]; fl [b]; fl [l]; fl [r]] /\
  computes RS (decompv_fn lh zo) [In (fl M); Out 6] VVoid [fl [n; f; t; b; l; r]] /\
  (lh && zo = false ->
   computes RS (decomp_x_fn lh zo) [In (fl M); Out 1; Out 1] VVoid [fl [l]; fl [r]] /\
   computes RS (decomp_y_fn lh zo) [In (fl M); Out 1; Out 1] VVoid [fl [t]; fl [b]]).
Proof. exact Cam.C32_decomp_ok. Qed.
Print Assumptions C32_decomp.

(** but in the left-handed zero-to-one convention the separate x and y decompositions divide by
    the last entry of the matrix, which is zero *)
Theorem C32_decomp_xy_lh_zo : forall l r b t n f, l < r -> b < t -> 0 < n -> n < f ->
  exists M, length M = 16%nat /\
  computes RS glm_frustum_lh_zo [Val (VF l); Val (VF r); Val (VF b); Val (VF t); Val (VF n); Val (VF f); Out 16] VVoid [fl M] /\
  aborts RS glm_persp_decomp_x_lh_zo [In (fl M); Out 1; Out 1] XFloatDomain /\
  aborts RS glm_persp_decomp_y_lh_zo [In (fl M); Out 1; Out 1] XFloatDomain.
Proof. exact Cam.C32_decomp_xy_lh_zo_ok. Qed.
Print Assumptions C32_decomp_xy_lh_zo.

(** opening angle, aspect ratio and sizes of the near and far rectangles of a perspective matrix *)
Theorem C32_fovy : forall lh zo fovy a n f, 0 < fovy < PI -> 0 < a -> 0 < n -> n < f ->
  exists M, length M = 16%nat /\
  computes RS (perspective_fn lh zo) [Val (VF fovy); Val (VF a); Val (VF n); Val (VF f); Out 16] VVoid [fl M] /\
  computes RS (fovy_fn lh zo) [In (fl M)] (VF fovy) [] /\
  computes RS (aspect_fn lh zo) [In (fl M)] (VF a) [] /\
  let h := fun d => 2 * d * tan (fovy / 2) in
  computes RS (sizes_fn lh zo) [In (fl M); Val (VF fovy); Out 4] VVoid [fl [a * h n; h n; a * h f; h f]].
Proof. exact Cam.C32_fovy_ok. Qed.
Print Assumptions C32_fovy.

Example C32_decomp_example : -1 < 2 /\ -3 < 1 /\ 0 < 1 /\ 1 < 10.
Proof. exact Cam.C32_decomp_ex. Qed.
