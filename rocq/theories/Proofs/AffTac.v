(** * Tactics and lemmas about affine matrices (proof tool) *)

From Coq Require Import String List ZArith Bool Reals Lra Lia.
From Verif Require Export Cglm.
From Verif.Spec Require Export Linear Geometry Affine Client.
From Verif.Proofs Require Export RExact.
Import ListNotations.
Local Open Scope R_scope.

Ltac au := unfold rot_about, moves, moves2, transl, scaling, rot4, transl2, scaling2, rot2, aff, aff2, diag3, neg, lin4, col4.
Ltac ago := au; intros; change (T RS) with R in *; go.
Ltac alg := au; intros; unlists; lcbv; repeat split; cells ltac:(try ring).
Ltac lgo := au; intros; change (T RS) with R in *; unlists; lcbv; symr; rring.
(** forget what the inverse lengths, sines and cosines are *)
Ltac gen_inv := repeat match goal with
  | |- context [/ sqrt ?x] => generalize (/ sqrt x); intro
  | |- context [cos ?x] => generalize (cos x); intro
  | |- context [sin ?x] => generalize (sin x); intro
  end.
(** the normalised axis as the code computes it *)
Lemma norm3 : forall a b c, exists x y z, normalized [a; b; c] = [x; y; z] /\
  let n := sqrt (a * a + b * b + c * c) in
  (if Rltb n (1 / 8388608) then 0 else a * (1 / n)) = x /\
  (if Rltb n (1 / 8388608) then 0 else b * (1 / n)) = y /\
  (if Rltb n (1 / 8388608) then 0 else c * (1 / n)) = z.
Proof.
  intros. do 3 eexists. split; [|repeat split; reflexivity]. cbv zeta. unfold normalized, eps. lcbv.
  rifs; try (exfalso; lra); unfold Rdiv; cells ltac:(ring).
Qed.
Ltac axis :=
  match goal with |- context [normalized [?a; ?b; ?c]] =>
    let x := fresh "x" in let y := fresh "y" in let z := fresh "z" in
    let E := fresh "E" in let X := fresh "X" in let Y := fresh "Y" in let Z := fresh "Z" in
    destruct (norm3 a b c) as (x & y & z & E & X & Y & Z); rewrite E; clear E; revert X Y Z; cbv zeta; intros X Y Z;
    symr; rprep; try (reqs; sq0); rewrite ?X, ?Y, ?Z; clear X Y Z; try domain
  end.
Ltac rot_go := au; intros; change (T RS) with R in *; unlists; axis; gen_inv; cells ltac:(try ring).
Lemma aff_mul : forall a u b v, length a = 9%nat -> length u = 3%nat -> length b = 9%nat -> length v = 3%nat ->
  mmul 4 (aff a u) (aff b v) = aff (mmul 3 a b) (vadd (mvec 3 3 a v) u).
Proof. alg. Qed.
Lemma mvec_mul : forall a b v, length a = 9%nat -> length b = 9%nat -> length v = 3%nat ->
  mvec 3 3 a (mvec 3 3 b v) = mvec 3 3 (mmul 3 a b) v.
Proof. alg. Qed.
Lemma mvec_neg : forall a v, length a = 9%nat -> length v = 3%nat -> mvec 3 3 a (neg v) = neg (mvec 3 3 a v).
Proof. alg. Qed.
Lemma mvec_id : forall v, length v = 3%nat -> mvec 3 3 (mid 3) v = v.
Proof. alg. Qed.
Lemma vadd_neg : forall v, length v = 3%nat -> vadd (neg v) v = [0; 0; 0].
Proof. alg. Qed.
Lemma vadd_neg_r : forall v, length v = 3%nat -> vadd v (neg v) = [0; 0; 0].
Proof. alg. Qed.
Definition adj3 (m : list R) : list R :=
  let g := at_ m in
  [g 4%nat * g 8%nat - g 5%nat * g 7%nat; g 2%nat * g 7%nat - g 1%nat * g 8%nat; g 1%nat * g 5%nat - g 2%nat * g 4%nat;
   g 5%nat * g 6%nat - g 3%nat * g 8%nat; g 0%nat * g 8%nat - g 2%nat * g 6%nat; g 2%nat * g 3%nat - g 0%nat * g 5%nat;
   g 3%nat * g 7%nat - g 4%nat * g 6%nat; g 1%nat * g 6%nat - g 0%nat * g 7%nat; g 0%nat * g 4%nat - g 1%nat * g 3%nat].
Lemma inverse_side : forall a b, length a = 9%nat -> length b = 9%nat -> mmul 3 a b = mid 3 -> mmul 3 b a = mid 3.
Proof.
  intros a b La Lb H.
  assert (D : det 3 a * det 3 b = 1).
  { transitivity (det 3 (mmul 3 a b)). unlists. lcbv. ring. rewrite H. lcbv. ring. }
  assert (N : det 3 a <> 0) by (intro N; rewrite N in D; lra).
  assert (A1 : mmul 3 (adj3 a) a = mscale (mid 3) (det 3 a)) by (unfold adj3; unlists; lcbv; cells ltac:(try ring)).
  assert (A2 : mmul 3 (adj3 a) (mmul 3 a (mmul 3 b a)) = mscale (mmul 3 b a) (det 3 a)).
  { clear - La Lb. unfold adj3. unlists. lcbv. cells ltac:(try ring). }
  assert (A3 : mmul 3 a (mmul 3 b a) = a).
  { transitivity (mmul 3 (mmul 3 a b) a). clear - La Lb; unlists; lcbv; cells ltac:(try ring). rewrite H. clear - La Lb; unlists; lcbv; cells ltac:(try ring). }
  rewrite A3, A1 in A2. revert A2. set (d := det 3 a) in *. clearbody d. clear - N La Lb.
  generalize (mmul 3 b a), (eq_refl : length (mmul 3 b a) = 9%nat). intros m L E.
  unlists. revert E. lcbv. intros E. injection E. intros.
  assert (K : forall x y, x * d = y * d -> y = x) by (intros; apply Rmult_eq_reg_r with d; auto).
  cells ltac:(apply K; auto).
Qed.
Lemma rotmat_len : forall k a, length k = 3%nat -> length (rotmat k a) = 9%nat.
Proof. intros k a L. un3 k k0 k1 k2. reflexivity. Qed.
