(** C79: Matrix inverses in single precision.

    In IEEE binary32, for a matrix of floats of magnitude at most 1 whose exact determinant is
    at least d in magnitude, 2^-12 <= d <= 1, glm_mat2_inv, glm_mat3_inv and glm_mat4_inv write
    (in place or not) numbers each of which is within 9, 75 and 1440 units of 2^-25/d^2 of the
    corresponding entry of the exact inverse. *)

From Coq Require Import String List ZArith Bool Reals.
From Verif Require Import MiniC Contract RScalar Cglm.
From Coq Require Import Reals Floats.SpecFloat.
From Verif Require Import B32.
From Verif.Spec Require Import Float32 Linear Inverse32.
From Verif.Spec Require Import Float32 Linear Inverse32.
From Verif.Spec Require Import Float32 Linear Inverse32.
From Verif.Proofs Require Inverse32.
Import ListNotations.
Local Open Scope list_scope.
Local Open Scope R_scope.

Theorem C79_inverse : forall l n (N : (n = 2 \/ n = 3 \/ n = 4)%nat) A d, length A = (n * n)%nat -> entries_upto_1 A ->
  / 4096 <= d <= 1 -> d <= Rabs (det n (map rval A)) ->
  exists F B, computes (B32 l) (inv_of n) [InA (fl A); Out (n * n)] VVoid [fl F] /\ inverse_of n (map rval A) B /\
    within_all (inv_units n * / 33554432 * (/ d * / d)) F B.
Proof. exact Inverse32.C79_inverse_ok. Qed.
Print Assumptions C79_inverse.

Example C79_inverse_example : let A := map (fun k => b_lit k 1) [1; 1; -1; 1]%Z in length A = 4%nat /\ entries_upto_1 A /\ det 2 (map rval A) = 2 /\ inverse_of 2 (map rval A) [1 / 2; - (1 / 2); 1 / 2; 1 / 2].
Proof. exact Inverse32.C79_inverse_ex. Qed.
