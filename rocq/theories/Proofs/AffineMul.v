(** * Affine products and the rigid inverse (C15, C16) *)

From Coq Require Import String List ZArith Bool Reals Lra Lia.
From Verif.Proofs Require Import AffTac.
(* props: From Verif.Spec Require Import Linear Geometry Affine. *)
Import ListNotations.
Local Open Scope R_scope.

(** ** C15 *)
(** right factor whose first three columns end in 0: any translation and w *)
Lemma C15_mul_ok : forall a r t w, length a = 16%nat -> length r = 9%nat -> length t = 3%nat ->
  let b := firstn 15 (aff r t) ++ [w] in
  computes RS glm_mul [InA (fl a); InA (fl b); Out 16] VVoid [fl (mmul 4 a b)].
Proof. cbv zeta. lgo. Qed.
Lemma C15_mul_rot_ok : forall a r, length a = 16%nat -> length r = 9%nat ->
  computes RS glm_mul_rot [InA (fl a); InA (fl (aff r [0; 0; 0])); Out 16] VVoid [fl (mmul 4 a (aff r [0; 0; 0]))].
Proof. lgo. Qed.
(** what they compute for an arbitrary right factor: the entries outside the shape are not read *)
Lemma C15_mul_any_ok : forall a b, length a = 16%nat -> length b = 16%nat ->
  let b' := firstn 15 (aff (lin4 b) (firstn 3 (col4 b 3))) ++ [ent 4 b 3 3] in
  computes RS glm_mul [InA (fl a); InA (fl b); Out 16] VVoid [fl (mmul 4 a b')].
Proof. cbv zeta. lgo. Qed.
Lemma C15_mul_rot_any_ok : forall a b, length a = 16%nat -> length b = 16%nat ->
  computes RS glm_mul_rot [InA (fl a); InA (fl b); Out 16] VVoid [fl (mmul 4 a (aff (lin4 b) [0; 0; 0]))].
Proof. lgo. Qed.
(** so without the hypothesis on the shape they are not the matrix product *)
Lemma C15_mul_refuted_ok : exists a b, length a = 16%nat /\ length b = 16%nat /\
  ~ computes RS glm_mul [InA (fl a); InA (fl b); Out 16] VVoid [fl (mmul 4 a b)].
Proof.
  exists (mid 4), [1; 0; 0; 1; 0; 1; 0; 0; 0; 0; 1; 0; 0; 0; 0; 1]. repeat split. intros H.
  pose proof (C15_mul_any_ok (mid 4) [1; 0; 0; 1; 0; 1; 0; 0; 0; 0; 1; 0; 0; 0; 0; 1] eq_refl eq_refl) as E.
  revert H E; au; lcbv; intros H E. differs H E.
Qed.
Lemma C15_mul_rot_refuted_ok : exists a r t, length a = 16%nat /\ length r = 9%nat /\ length t = 3%nat /\
  ~ computes RS glm_mul_rot [InA (fl a); InA (fl (aff r t)); Out 16] VVoid [fl (mmul 4 a (aff r t))].
Proof.
  exists (mid 4), (mid 3), [1; 2; 3]. repeat split. intros H.
  pose proof (C15_mul_rot_any_ok (mid 4) (aff (mid 3) [1; 2; 3]) eq_refl eq_refl) as E.
  revert H E; au; lcbv; intros H E. differs H E.
Qed.

(** ** C16 *)
(** a rigid transform is replaced by its two-sided inverse *)
Lemma C16_inv_tr_ok : forall r t, length r = 9%nat -> length t = 3%nat -> orthonormal r ->
  exists m, length m = 16%nat /\ computes RS glm_inv_tr [InOut (fl (aff r t))] VVoid [fl m] /\
  mmul 4 m (aff r t) = mid 4 /\ mmul 4 (aff r t) m = mid 4.
Proof.
  intros r t Lr Lt O. pose proof (inverse_side (transp 3 3 r) r eq_refl Lr O) as O'. unfold orthonormal in O.
  assert (L3 : length (mvec 3 3 (transp 3 3 r) t) = 3%nat) by reflexivity.
  exists (aff (transp 3 3 r) (neg (mvec 3 3 (transp 3 3 r) t))). split; [reflexivity|]. split; [clear O O' L3; lgo|].
  rewrite !aff_mul, O, O' by auto. rewrite mvec_neg, mvec_mul, O', mvec_id, vadd_neg, vadd_neg_r by auto. split; reflexivity.
Qed.
Lemma C16_rigid_ex : orthonormal (rotmat [2/3; 1/3; 2/3] (PI / 2)) /\ orthonormal [0; 1; 0; 0; 0; 1; -1; 0; 0].
Proof.
  split; unfold orthonormal, rotmat, rotated; rewrite ?cos_PI2, ?sin_PI2; lcbv; cells ltac:(try field).
Qed.
