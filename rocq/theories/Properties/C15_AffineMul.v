(** C15: Affine product shortcuts agree with the full product exactly on the documented shapes.

    Over the reals glm_mul equals glm_mat4_mul whenever the bottom rows of the right factor are
    (0,0,0,w), and glm_mul_rot equals it whenever the right factor is a pure rotation block;
    without the shape hypothesis they differ. *)

From Coq Require Import String List ZArith Bool Reals.
From Verif Require Import MiniC Contract RScalar Cglm.
From Verif.Spec Require Import Linear Geometry Affine.
From Verif.Spec Require Import Linear Geometry Affine.
From Verif.Proofs Require AffineMul.
Import ListNotations.
Local Open Scope list_scope.
Local Open Scope R_scope.

(** right factor whose first three columns end in 0: any translation and w *)
Theorem C15_mul : forall a r t w, length a = 16%nat -> length r = 9%nat -> length t = 3%nat ->
  let b := firstn 15 (aff r t) ++ [w] in
  computes RS glm_mul [InA (fl a); InA (fl b); Out 16] VVoid [fl (mmul 4 a b)].
Proof. exact AffineMul.C15_mul_ok. Qed.
Print Assumptions C15_mul.

Theorem C15_mul_rot : forall a r, length a = 16%nat -> length r = 9%nat ->
  computes RS glm_mul_rot [InA (fl a); InA (fl (aff r [0; 0; 0])); Out 16] VVoid [fl (mmul 4 a (aff r [0; 0; 0]))].
Proof. exact AffineMul.C15_mul_rot_ok. Qed.
Print Assumptions C15_mul_rot.

(** what they compute for an arbitrary right factor: the entries outside the shape are not read *)
Theorem C15_mul_any : forall a b, length a = 16%nat -> length b = 16%nat ->
  let b' := firstn 15 (aff (lin4 b) (firstn 3 (col4 b 3))) ++ [ent 4 b 3 3] in
  computes RS glm_mul [InA (fl a); InA (fl b); Out 16] VVoid [fl (mmul 4 a b')].
Proof. exact AffineMul.C15_mul_any_ok. Qed.
Print Assumptions C15_mul_any.

Theorem C15_mul_rot_any : forall a b, length a = 16%nat -> length b = 16%nat ->
  computes RS glm_mul_rot [InA (fl a); InA (fl b); Out 16] VVoid [fl (mmul 4 a (aff (lin4 b) [0; 0; 0]))].
Proof. exact AffineMul.C15_mul_rot_any_ok. Qed.
Print Assumptions C15_mul_rot_any.

(** so without the hypothesis on the shape they are not the matrix product *)
Theorem C15_mul_refuted : exists a b, length a = 16%nat /\ length b = 16%nat /\
  ~ computes RS glm_mul [InA (fl a); InA (fl b); Out 16] VVoid [fl (mmul 4 a b)].
Proof. exact AffineMul.C15_mul_refuted_ok. Qed.
Print Assumptions C15_mul_refuted.

Theorem C15_mul_rot_refuted : exists a r t, length a = 16%nat /\ length r = 9%nat /\ length t = 3%nat /\
  ~ computes RS glm_mul_rot [InA (fl a); InA (fl (aff r t)); Out 16] VVoid [fl (mmul 4 a (aff r t))].
Proof. exact AffineMul.C15_mul_rot_refuted_ok. Qed.
Print Assumptions C15_mul_rot_refuted.
