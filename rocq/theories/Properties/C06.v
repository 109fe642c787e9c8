(** C06: Matrix inverse.

    Over the reals, when the determinant is non-zero, glm_mat2_inv, glm_mat3_inv and
    glm_mat4_inv write a two-sided inverse of the input, also in place, divide by nothing but
    the determinant, and write nothing else; when the determinant is zero the only division
    performed is a division by zero. *)

From Coq Require Import String List ZArith Bool Reals.
From Verif Require Import MiniC Contract RScalar Cglm.
From Verif.Spec Require Import Linear Client.
From Verif.Proofs Require MatInv.
Import ListNotations.
Local Open Scope list_scope.
Local Open Scope R_scope.

(** a non-zero determinant suffices: the call performs no other division; in place too *)
Theorem C06_mat2_inv : forall A, length A = 4%nat -> det 2 A <> 0 -> exists B,
  computes RS glm_mat2_inv [InA (fl A); Out 4] VVoid [fl B] /\
  length B = 4%nat /\ mmul 2 A B = mid 2 /\ mmul 2 B A = mid 2.
Proof. exact MatInv.C06_mat2_inv_ok. Qed.
Print Assumptions C06_mat2_inv.

Theorem C06_mat3_inv : forall A, length A = 9%nat -> det 3 A <> 0 -> exists B,
  computes RS glm_mat3_inv [InA (fl A); Out 9] VVoid [fl B] /\
  length B = 9%nat /\ mmul 3 A B = mid 3 /\ mmul 3 B A = mid 3.
Proof. exact MatInv.C06_mat3_inv_ok. Qed.
Print Assumptions C06_mat3_inv.

Theorem C06_mat4_inv : forall A, length A = 16%nat -> det 4 A <> 0 -> exists B,
  computes RS glm_mat4_inv [InA (fl A); Out 16] VVoid [fl B] /\
  length B = 16%nat /\ mmul 4 A B = mid 4 /\ mmul 4 B A = mid 4.
Proof. exact MatInv.C06_mat4_inv_ok. Qed.
Print Assumptions C06_mat4_inv.

(** the scalar build of glm_mat4_inv_fast is glm_mat4_inv *)
Theorem C06_mat4_inv_fast : forall A, length A = 16%nat -> det 4 A <> 0 -> exists B,
  computes RS glm_mat4_inv_fast [InA (fl A); Out 16] VVoid [fl B] /\
  length B = 16%nat /\ mmul 4 A B = mid 4 /\ mmul 4 B A = mid 4.
Proof. exact MatInv.C06_mat4_inv_fast_ok. Qed.
Print Assumptions C06_mat4_inv_fast.

(** the inverse is unique, so the results above are "the" inverse *)
Theorem C06_unique : forall n, (n = 2 \/ n = 3 \/ n = 4)%nat -> forall A B C,
  length A = (n * n)%nat -> length B = (n * n)%nat -> length C = (n * n)%nat ->
  mmul n A B = mid n -> mmul n C A = mid n -> B = C.
Proof. exact MatInv.C06_unique_ok. Qed.
Print Assumptions C06_unique.

Example C06_invertible_example : det 4 [2;0;0;0; 1;1;0;0; 0;0;1;0; 5;6;7;1] <> 0 /\ det 3 [2;0;0; 1;1;0; 0;0;1] <> 0 /\ det 2 [2;0; 1;1] <> 0.
Proof. exact MatInv.C06_invertible_ex. Qed.

Theorem C06_mat2_singular : forall A, length A = 4%nat -> det 2 A = 0 ->
  aborts RS glm_mat2_inv [InA (fl A); Out 4] XFloatDomain.
Proof. exact MatInv.C06_mat2_singular_ok. Qed.
Print Assumptions C06_mat2_singular.

Theorem C06_mat3_singular : forall A, length A = 9%nat -> det 3 A = 0 ->
  aborts RS glm_mat3_inv [InA (fl A); Out 9] XFloatDomain.
Proof. exact MatInv.C06_mat3_singular_ok. Qed.
Print Assumptions C06_mat3_singular.

Theorem C06_mat4_singular : forall A, length A = 16%nat -> det 4 A = 0 ->
  aborts RS glm_mat4_inv [InA (fl A); Out 16] XFloatDomain.
Proof. exact MatInv.C06_mat4_singular_ok. Qed.
Print Assumptions C06_mat4_singular.

Example C06_singular_example : det 4 [1;2;3;4; 2;4;6;8; 0;0;1;0; 5;6;7;1] = 0 /\ det 3 [1;2;3; 2;4;6; 0;0;1] = 0 /\ det 2 [1;2; 2;4] = 0.
Proof. exact MatInv.C06_singular_ex. Qed.
