(** C81: Rotations in single precision.

    In IEEE binary32 with sinf and cosf within 2^-24 and an axis of length between 2^-20 and
    2^58: every entry written by glm_rotate_make is within 43 u (u = 2^-24) of the matrix of
    the rotation by the angle about the exact unit axis; glm_rotate, on a matrix with entries
    at most 1 in magnitude, is within 160 u of the exact product; glm_quatv is within 9 u of
    the exact quaternion (angle zero or at least 2^-100 in magnitude); glm_vec3_rotate, on
    components at most 1, is within 145 u of the exact rotated vector. For a quaternion of
    length between 2^-22 and 2^60, glm_quat_rotatev on components at most 1 is within 257 u of
    the exact rotation by the exactly normalised quaternion. *)

From Coq Require Import String List ZArith Bool Reals.
From Verif Require Import MiniC Contract RScalar Cglm.
From Coq Require Import Reals Floats.SpecFloat.
From Verif Require Import B32.
From Verif.Spec Require Import Float32 Linear Geometry Affine Quaternion Approx Inverse32 Rot32.
From Verif.Spec Require Import Float32 Linear Geometry Affine Quaternion Approx Inverse32 Rot32.
From Verif.Spec Require Import Float32 Linear Geometry Affine Quaternion Approx Inverse32 Rot32.
From Verif.Proofs Require Rot32.
Import ListNotations.
Local Open Scope list_scope.
Local Open Scope R_scope.

Theorem C81_rotate_make : forall l angle axis, accurate l -> number angle -> axis_ok axis ->
  exists F, computes (B32 l) glm_rotate_make [Out 16; Val (VF angle); In (fl axis)] VVoid [fl F] /\
    within_all (43 * u) F (rot4 (normalized (map rval axis)) (rval angle)).
Proof. exact Rot32.C81_rotate_make_ok. Qed.
Print Assumptions C81_rotate_make.

Theorem C81_quatv : forall l angle axis, accurate l -> number angle -> rval angle = 0 \/ powerRZ 2 (-100) <= Rabs (rval angle) -> axis_ok axis ->
  exists F, computes (B32 l) glm_quatv [Out 4; Val (VF angle); In (fl axis)] VVoid [fl F] /\
    within_all (9 * u) F (axis_angle (normalized (map rval axis)) (rval angle)).
Proof. exact Rot32.C81_quatv_ok. Qed.
Print Assumptions C81_quatv.

Theorem C81_vec3_rotate : forall l v angle axis, accurate l -> length v = 3%nat -> entries_upto_1 v -> number angle -> axis_ok axis ->
  exists F, computes (B32 l) glm_vec3_rotate [InOut (fl v); Val (VF angle); InA (fl axis)] VVoid [fl F] /\
    within_all (145 * u) F (rotated (normalized (map rval axis)) (rval angle) (map rval v)).
Proof. exact Rot32.C81_vec3_rotate_ok. Qed.
Print Assumptions C81_vec3_rotate.

Theorem C81_rotate : forall l M angle axis, accurate l -> length M = 16%nat -> entries_upto_1 M -> number angle -> axis_ok axis ->
  exists F, computes (B32 l) glm_rotate [InOut (fl M); Val (VF angle); In (fl axis)] VVoid [fl F] /\
    within_all (160 * u) F (mmul 4 (map rval M) (rot4 (normalized (map rval axis)) (rval angle))).
Proof. exact Rot32.C81_rotate_ok. Qed.
Print Assumptions C81_rotate.

Example C81_rotate_make_example : (exists l, accurate l) /\ axis_ok (map (fun k => b_lit k 1) [0; 1; -1]%Z) /\ norm (map rval (map (fun k => b_lit k 1) [0; 1; -1]%Z)) = sqrt 2.
Proof. exact Rot32.C81_rotate_make_ex. Qed.

Theorem C81_rotatev : forall l q v, length q = 4%nat -> Forall number q -> powerRZ 2 (-22) <= norm (map rval q) <= powerRZ 2 60 -> length v = 3%nat -> entries_upto_1 v ->
  exists F, computes (B32 l) glm_quat_rotatev [In (fl q); InA (fl v); Out 3] VVoid [fl F] /\
    within_all (257 * u) F (qrot (qnormalized (map rval q)) (map rval v)).
Proof. exact Rot32.C81_rotatev_ok. Qed.
Print Assumptions C81_rotatev.

Example C81_rotatev_example : let q := map (fun k => b_lit k 1) [1; 1; -1; 1]%Z in Forall number q /\ norm (map rval q) = 2 /\ powerRZ 2 (-22) <= 2 <= powerRZ 2 60 /\ qnormalized (map rval q) = [1 / 2; 1 / 2; - (1 / 2); 1 / 2].
Proof. exact Rot32.C81_rotatev_ex. Qed.
