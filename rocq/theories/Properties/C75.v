(** C75: Repeated quaternion products and vector rotations drift slowly.

    In IEEE binary32, n successive calls of glm_quat_mul starting from floats within d of a
    unit quaternion, with factors within d of unit quaternions, give a unique result, each part
    within (n+1)(5d + 2^-19) of the exact product (itself of norm 1), whose norm differs from 1
    by no more than that, as long as it is at most 1/4. The same bound holds for n successive
    calls of glm_mat4_mulv (in place or not) on a vector of length at most 1 with matrices
    within d of orthogonal ones. *)

From Coq Require Import String List ZArith Bool Reals.
From Verif Require Import MiniC Contract RScalar Cglm.
From Coq Require Import ZArith Reals Floats.SpecFloat.
From Verif Require Import B32.
From Verif.Spec Require Import Linear Geometry Quaternion Float32 Exact Approx Drift.
From Verif.Spec Require Import Float32 Types Linear Geometry Quaternion Arrays Exact Approx Drift.
From Verif.Spec Require Import Linear Geometry Quaternion Float32 Exact Approx Drift.
From Verif.Proofs Require DriftSteps.
Import ListNotations.
Local Open Scope list_scope.
Local Open Scope R_scope.

(** after [n] calls of glm_quat_mul, the destination apart from the arguments, starting from floats within
    [d] of a unit quaternion and multiplying by floats within [d] of unit quaternions: the result exists, is
    unique, each part is within (n+1)(5d + 2^-19) of the exact product, and so is the norm from 1 *)
Theorem C75_quat : forall l d q Q rs Rs, length Q = 4%nat -> norm2 Q = 1 -> Forall (fun r => length r = 4%nat /\ norm2 r = 1) Rs ->
  Forall2 (within d) q Q -> Forall2 (Forall2 (within d)) rs Rs -> 0 <= d -> INR (length rs + 1) * (5 * d + powerRZ 2 (-19)) <= 1 / 4 ->
  exists z, (forall w, chained (fun x r y => computes (B32 l) glm_quat_mul [In (fl x); In (fl r); Out 4] VVoid [fl y] /\ length y = 4%nat) q rs w <-> w = z) /\
    Forall2 (within (INR (length rs + 1) * (5 * d + powerRZ 2 (-19)))) z (fold_left qmul Rs Q) /\
    norm (fold_left qmul Rs Q) = 1 /\ Rabs (norm (map rval z) - 1) <= INR (length rs + 1) * (5 * d + powerRZ 2 (-19)).
Proof. exact DriftSteps.C75_quat_ok. Qed.
Print Assumptions C75_quat.

(** the same for [n] calls of glm_mat4_mulv with matrices near orthogonal ones on a vector of length at most 1;
    the destination may be the vector itself *)
Theorem C75_vector : forall l d v V Ms As, length V = 4%nat -> norm2 V <= 1 -> Forall orthogonal As ->
  Forall2 (within d) v V -> Forall2 (Forall2 (within d)) Ms As -> 0 <= d -> INR (length Ms + 1) * (5 * d + powerRZ 2 (-19)) <= 1 / 4 ->
  exists z, (forall w, chained (fun x M y => computes (B32 l) glm_mat4_mulv [In (fl M); InA (fl x); Out 4] VVoid [fl y] /\ length y = 4%nat) v Ms w <-> w = z) /\
    Forall2 (within (INR (length Ms + 1) * (5 * d + powerRZ 2 (-19)))) z (fold_left (fun v A => mvec 4 4 A v) As V) /\
    norm (fold_left (fun v A => mvec 4 4 A v) As V) = norm V.
Proof. exact DriftSteps.C75_vector_ok. Qed.
Print Assumptions C75_vector.

(** a quaternion given in decimals (3/5, 0, 0, 4/5 are not floats) and four thousand exact ones *)
Example C75_quat_example : exists q Q rs Rs, length Q = 4%nat /\ norm2 Q = 1 /\ Forall (fun r => length r = 4%nat /\ norm2 r = 1) Rs /\
  Forall2 (within (powerRZ 2 (-20))) q Q /\ Forall2 (Forall2 (within (powerRZ 2 (-20)))) rs Rs /\ INR (length rs + 1) * (5 * powerRZ 2 (-20) + powerRZ 2 (-19)) <= 1 / 4 /\
  length rs = 4000%nat /\ Forall (fun r => r = [1 / 2; 1 / 2; 1 / 2; 1 / 2]) Rs /\ Q = [3 / 5; 0; 0; 4 / 5] /\ ~ map rval q = Q.
Proof. exact DriftSteps.C75_quat_ex. Qed.

Example C75_vector_example : exists v V Ms As, length V = 4%nat /\ norm2 V <= 1 /\ Forall orthogonal As /\
  Forall2 (within (powerRZ 2 (-20))) v V /\ Forall2 (Forall2 (within (powerRZ 2 (-20)))) Ms As /\ INR (length Ms + 1) * (5 * powerRZ 2 (-20) + powerRZ 2 (-19)) <= 1 / 4 /\
  length Ms = 4000%nat /\ Forall (fun A => A = [3 / 5; 4 / 5; 0; 0; - 4 / 5; 3 / 5; 0; 0; 0; 0; 1; 0; 0; 0; 0; 1]) As /\ norm2 V = 3 / 4.
Proof. exact DriftSteps.C75_vector_ex. Qed.
