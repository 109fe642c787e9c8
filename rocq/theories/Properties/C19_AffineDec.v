(** C19: Decomposition of an affine transform.

    Over the reals, for a transform T*R*S with non-zero scales glm_decompose recovers
    translation, rotation and scale whose product is the input, and glm_decompose_scalev
    returns the column lengths; with a zero scale it divides by zero. When the scale factors
    are all positive or all negative, the parts that come back are exactly the translation,
    rotation and scale that went in. *)

From Coq Require Import String List ZArith Bool Reals.
From Verif Require Import MiniC Contract RScalar Cglm.
From Verif.Spec Require Import Linear Geometry Affine ScalarSpec.
From Verif.Spec Require Import ScalarSpec.
From Verif.Spec Require Import Linear Geometry Affine ScalarSpec.
From Verif.Proofs Require AffineDec.
Import ListNotations.
Local Open Scope list_scope.
Local Open Scope R_scope.

(** ** C19 *)
Theorem C19_scalev : forall x y z w, length x = 4%nat -> length y = 4%nat -> length z = 4%nat -> length w = 4%nat ->
  computes RS glm_decompose_scalev [In (fl (x ++ y ++ z ++ w)); Out 3] VVoid
    [fl [norm (firstn 3 x); norm (firstn 3 y); norm (firstn 3 z)]].
Proof. exact AffineDec.C19_scalev_ok. Qed.
Print Assumptions C19_scalev.

(** columns of length <> 0: the three results multiply to the input; if moreover the columns are
    orthogonal the second is a rotation *)
Theorem C19_decompose : forall r t, length r = 9%nat -> length t = 3%nat ->
  norm2 (firstn 3 r) <> 0 -> norm2 (firstn 3 (skipn 3 r)) <> 0 -> norm2 (skipn 6 r) <> 0 ->
  exists q s, length q = 9%nat /\ length s = 3%nat /\
    computes RS glm_decompose [In (fl (aff r t)); Out 4; Out 16; Out 3] VVoid [fl (t ++ [1]); fl (aff q [0; 0; 0]); fl s] /\
    computes RS glm_decompose_rs [In (fl (aff r t)); Out 16; Out 3] VVoid [fl (aff q [0; 0; 0]); fl s] /\
    mmul 4 (transl t) (mmul 4 (aff q [0; 0; 0]) (scaling s)) = aff r t /\
    (mmul 3 (transp 3 3 r) r = diag3 [norm2 (firstn 3 r); norm2 (firstn 3 (skipn 3 r)); norm2 (skipn 6 r)] -> rotation q).
Proof. exact AffineDec.C19_decompose_ok. Qed.
Print Assumptions C19_decompose.

(** a column of length zero: division by zero *)
Theorem C19_zero_scale : forall r t, length r = 9%nat -> length t = 3%nat ->
  norm2 (firstn 3 r) = 0 \/ norm2 (firstn 3 (skipn 3 r)) = 0 \/ norm2 (skipn 6 r) = 0 ->
  aborts RS glm_decompose [In (fl (aff r t)); Out 4; Out 16; Out 3] XFloatDomain.
Proof. exact AffineDec.C19_zero_scale_ok. Qed.
Print Assumptions C19_zero_scale.

(** glm_uniscaled: are the three column lengths equal up to the tolerance *)
Theorem C19_uniscaled : forall x y z w, length x = 4%nat -> length y = 4%nat -> length z = 4%nat -> length w = 4%nat ->
  let n := [norm (firstn 3 x); norm (firstn 3 y); norm (firstn 3 z)] in
  computes RS glm_uniscaled [In (fl (x ++ y ++ z ++ w))] (VB (all_close n (repeat (at_ n 0) 3))) [].
Proof. exact AffineDec.C19_uniscaled_ok. Qed.
Print Assumptions C19_uniscaled.
