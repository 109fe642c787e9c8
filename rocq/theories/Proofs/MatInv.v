(** * Matrix inverses (C06) *)

From Coq Require Import String List ZArith Bool Reals Lra Lia.
From Verif Require Import Cglm.
From Verif.Spec Require Import Linear Client.
From Verif.Proofs Require Import RTac Layout Matrix.
Import ListNotations.
Local Open Scope R_scope.

Ltac inverse := 
  split; [symr; rprep; try (reqs; let H := fresh in intro H; match goal with HD : det _ _ <> 0 |- _ => apply HD; rewrite <- H; lcbv; ring end); cells reflexivity|];
  split; [reflexivity|];
  split; lcbv; repeat match goal with |- (_ :: _) = (_ :: _) => f_equal end; auto;
  (field; let H := fresh in intro H; match goal with HD : det _ _ <> 0 |- _ => apply HD; rewrite <- H; lcbv; ring end).

(** a non-zero determinant suffices: the call performs no other division; in place too *)
Lemma C06_mat2_inv_ok : forall A, length A = 4%nat -> det 2 A <> 0 -> exists B,
  computes RS glm_mat2_inv [InA (fl A); Out 4] VVoid [fl B] /\
  length B = 4%nat /\ mmul 2 A B = mid 2 /\ mmul 2 B A = mid 2.
Proof. intros A HA HD. unlists. refine (ex_intro _ [_;_;_;_] _). inverse. Qed.
Lemma C06_mat3_inv_ok : forall A, length A = 9%nat -> det 3 A <> 0 -> exists B,
  computes RS glm_mat3_inv [InA (fl A); Out 9] VVoid [fl B] /\
  length B = 9%nat /\ mmul 3 A B = mid 3 /\ mmul 3 B A = mid 3.
Proof. intros A HA HD. unlists. refine (ex_intro _ [_;_;_;_;_;_;_;_;_] _). inverse. Qed.
Lemma C06_mat4_inv_ok : forall A, length A = 16%nat -> det 4 A <> 0 -> exists B,
  computes RS glm_mat4_inv [InA (fl A); Out 16] VVoid [fl B] /\
  length B = 16%nat /\ mmul 4 A B = mid 4 /\ mmul 4 B A = mid 4.
Proof. intros A HA HD. unlists. refine (ex_intro _ [_;_;_;_;_;_;_;_;_;_;_;_;_;_;_;_] _). inverse. Qed.
(** the scalar build of glm_mat4_inv_fast is glm_mat4_inv *)
Lemma C06_mat4_inv_fast_ok : forall A, length A = 16%nat -> det 4 A <> 0 -> exists B,
  computes RS glm_mat4_inv_fast [InA (fl A); Out 16] VVoid [fl B] /\
  length B = 16%nat /\ mmul 4 A B = mid 4 /\ mmul 4 B A = mid 4.
Proof. intros A HA HD. unlists. refine (ex_intro _ [_;_;_;_;_;_;_;_;_;_;_;_;_;_;_;_] _). inverse. Qed.
(** the inverse is unique, so the results above are "the" inverse *)
Lemma C06_unique_ok : forall n, (n = 2 \/ n = 3 \/ n = 4)%nat -> forall A B C,
  length A = (n * n)%nat -> length B = (n * n)%nat -> length C = (n * n)%nat ->
  mmul n A B = mid n -> mmul n C A = mid n -> B = C.
Proof.
  intros n Hn A B C HA HB HC H1 H2.
  destruct (C05_monoid_ok n Hn C A B HC HA HB) as (E1 & _ & _ & _).
  destruct (C05_monoid_ok n Hn B B B HB HB HB) as (_ & E2 & _ & _).
  destruct (C05_monoid_ok n Hn C C C HC HC HC) as (_ & _ & E3 & _).
  rewrite H1, H2, E2, E3 in E1. auto.
Qed.
Lemma C06_invertible_ex : det 4 [2;0;0;0; 1;1;0;0; 0;0;1;0; 5;6;7;1] <> 0 /\ det 3 [2;0;0; 1;1;0; 0;0;1] <> 0 /\ det 2 [2;0; 1;1] <> 0.
Proof. repeat split; lcbv; lra. Qed.

(** with a zero determinant the call divides by zero *)
Ltac singular := rabort; match goal with HD : det _ _ = 0, HN : _ <> 0 |- _ => apply HN; rewrite <- HD; lcbv; ring end.
Lemma C06_mat2_singular_ok : forall A, length A = 4%nat -> det 2 A = 0 ->
  aborts RS glm_mat2_inv [InA (fl A); Out 4] XFloatDomain.
Proof. singular. Qed.
Lemma C06_mat3_singular_ok : forall A, length A = 9%nat -> det 3 A = 0 ->
  aborts RS glm_mat3_inv [InA (fl A); Out 9] XFloatDomain.
Proof. singular. Qed.
Lemma C06_mat4_singular_ok : forall A, length A = 16%nat -> det 4 A = 0 ->
  aborts RS glm_mat4_inv [InA (fl A); Out 16] XFloatDomain.
Proof. singular. Qed.
Lemma C06_singular_ex : det 4 [1;2;3;4; 2;4;6;8; 0;0;1;0; 5;6;7;1] = 0 /\ det 3 [1;2;3; 2;4;6; 0;0;1] = 0 /\ det 2 [1;2; 2;4] = 0.
Proof. repeat split; lcbv; lra. Qed.
