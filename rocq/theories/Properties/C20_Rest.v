(** C20: 2D affine transforms.

    Over the reals the 2D builders glm_translate2d_make, glm_scale2d_make, glm_rotate2d_make
    act on every point as translation, scaling, rotation; glm_translate2d, glm_scale2d,
    glm_rotate2d compose them on the right and glm_rotate2d_to etc. agree with the in-place
    forms; glm_translated2d, glm_scaled2d and glm_rotated2d compose on the left;
    glm_mat3_textrans turns by minus the given angle (clockwise, against its documentation),
    then scales, then translates. glm_mat4_textrans is the same map of the first two
    coordinates as a 4x4 matrix. *)

From Coq Require Import String List ZArith Bool Reals.
From Verif Require Import MiniC Contract RScalar Cglm.
From Verif.Spec Require Import Linear Geometry Affine Box Limits.
From Verif.Spec Require Import Linear Geometry Affine Clip Frustum Box Limits.
From Verif.Spec Require Import Linear Geometry Affine Box Limits.
From Verif.Proofs Require Rest.
Import ListNotations.
Local Open Scope list_scope.
Local Open Scope R_scope.

(** the functions of affine2d-post.h multiply from the left; translation assumes an affine matrix *)
Theorem C20_post :
  (forall r v t, length r = 4%nat -> length v = 2%nat -> length t = 2%nat ->
    computes RS glm_translated2d [InOut (fl (aff2 r v)); In (fl t)] VVoid [fl (mmul 3 (transl2 t) (aff2 r v))]) /\
  (forall r v x, length r = 4%nat -> length v = 2%nat ->
    computes RS glm_translated2d_x [InOut (fl (aff2 r v)); Val (VF x)] VVoid [fl (mmul 3 (transl2 [x; 0]) (aff2 r v))]) /\
  (forall r v y, length r = 4%nat -> length v = 2%nat ->
    computes RS glm_translated2d_y [InOut (fl (aff2 r v)); Val (VF y)] VVoid [fl (mmul 3 (transl2 [0; y]) (aff2 r v))]) /\
  (forall m a, length m = 9%nat -> computes RS glm_rotated2d [InOut (fl m); Val (VF a)] VVoid [fl (mmul 3 (rot2 a) m)]) /\
  (forall m s, length m = 9%nat -> length s = 2%nat -> computes RS glm_scaled2d [InOut (fl m); In (fl s)] VVoid [fl (mmul 3 (scaling2 s) m)]) /\
  (forall m s, length m = 9%nat -> computes RS glm_scaled2d_uni [InOut (fl m); Val (VF s)] VVoid [fl (mmul 3 (scaling2 [s; s]) m)]).
Proof. exact Rest.C20_post_ok. Qed.
Print Assumptions C20_post.

(** glm_mat3_textrans: turn by minus the angle, scale, translate *)
Theorem C20_textrans : forall sx sy a tx ty,
  computes RS glm_mat3_textrans [Val (VF sx); Val (VF sy); Val (VF a); Val (VF tx); Val (VF ty); Out 9] VVoid
    [fl (mmul 3 (transl2 [tx; ty]) (mmul 3 (scaling2 [sx; sy]) (rot2 (- a))))].
Proof. exact Rest.C20_textrans_ok. Qed.
Print Assumptions C20_textrans.

(** documented as counter-clockwise, it takes the x axis to the negative y axis *)
Theorem C20_textrans_refuted : exists a M, computes RS glm_mat3_textrans [Val (VF 1); Val (VF 1); Val (VF a); Val (VF 0); Val (VF 0); Out 9] VVoid [fl M] /\
  moves2 (rot2 a) [1; 0] [0; 1] /\ moves2 M [1; 0] [0; -1].
Proof. exact Rest.C20_textrans_refuted_ok. Qed.
Print Assumptions C20_textrans_refuted.
