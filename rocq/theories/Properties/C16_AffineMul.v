(** C16: Rigid inverse shortcut.

    Over the reals glm_inv_tr replaces a rigid transform (orthonormal 3x3 part, bottom row 0 0
    0 1) by its inverse. *)

From Coq Require Import String List ZArith Bool Reals.
From Verif Require Import MiniC Contract RScalar Cglm.
From Verif.Spec Require Import Linear Geometry Affine.
From Verif.Spec Require Import Linear Geometry Affine.
From Verif.Proofs Require AffineMul.
Import ListNotations.
Local Open Scope list_scope.
Local Open Scope R_scope.

(** a rigid transform is replaced by its two-sided inverse *)
Theorem C16_inv_tr : forall r t, length r = 9%nat -> length t = 3%nat -> orthonormal r ->
  exists m, length m = 16%nat /\ computes RS glm_inv_tr [InOut (fl (aff r t))] VVoid [fl m] /\
  mmul 4 m (aff r t) = mid 4 /\ mmul 4 (aff r t) m = mid 4.
Proof. exact AffineMul.C16_inv_tr_ok. Qed.
Print Assumptions C16_inv_tr.

Example C16_rigid_example : orthonormal (rotmat [2/3; 1/3; 2/3] (PI / 2)) /\ orthonormal [0; 1; 0; 0; 0; 1; -1; 0; 0].
Proof. exact AffineMul.C16_rigid_ex. Qed.
