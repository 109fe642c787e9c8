(** C83: Quaternions to matrices in single precision.

    In IEEE binary32, for a quaternion q of numbers whose length differs from 1 by at most t u
    (u = 2^-24, 0 <= t <= 16; the input is thus a unit quaternion up to rounding), every entry
    written by glm_quat_mat3 and glm_quat_mat4, and by their transposing variants, is a number
    within (12.1 t + 35) u of the entry of the exact rotation matrix of q/|q|. For any q of
    length between 2^-22 and 2^60, applying them to the quaternion written by
    glm_quat_normalize(_to) gives entries within 150 u of the exact rotation matrix of q/|q|.
    With q as at first, glm_quat_look for an eye with coordinates up to 1 and glm_quat_rotate
    for a matrix with entries up to 1 write the exact view matrix, respectively the exact
    product with the rotation matrix, of q/|q| within (37 t + 150) u. *)

From Coq Require Import String List ZArith Bool Reals.
From Verif Require Import MiniC Contract RScalar Cglm.
From Coq Require Import Reals Floats.SpecFloat.
From Verif Require Import B32.
From Verif.Spec Require Import Float32 Linear Geometry Affine Quaternion Approx Inverse32.
From Verif.Spec Require Import Float32 Linear Geometry Affine Quaternion Approx Inverse32.
From Verif.Spec Require Import Float32 Linear Geometry Affine Quaternion Approx Inverse32.
From Verif.Proofs Require QuatMat32.
Import ListNotations.
Local Open Scope list_scope.
Local Open Scope R_scope.

(** all four conversions of a quaternion whose length is within [t] units of 1 *)
Theorem C83_matrices : forall l q t, length q = 4%nat -> Forall number q -> 0 <= t <= 16 -> Rabs (norm (map rval q) - 1) <= t * u -> let R := qmat (qnormalized (map rval q)) in let e := (121 / 10 * t + 35) * u in
  (exists F, computes (B32 l) glm_quat_mat3 [In (fl q); Out 9] VVoid [fl F] /\ within_all e F R) /\
  (exists F, computes (B32 l) glm_quat_mat3t [In (fl q); Out 9] VVoid [fl F] /\ within_all e F (transp 3 3 R)) /\
  (exists F, computes (B32 l) glm_quat_mat4 [In (fl q); Out 16] VVoid [fl F] /\ within_all e F (aff R [0; 0; 0])) /\
  (exists F, computes (B32 l) glm_quat_mat4t [In (fl q); Out 16] VVoid [fl F] /\ within_all e F (aff (transp 3 3 R) [0; 0; 0])).
Proof. exact QuatMat32.C83_matrices_ok. Qed.
Print Assumptions C83_matrices.

(** normalising first: the conversions applied to the rounded unit quaternion, against the exact rotation of the original one *)
Theorem C83_normalized : forall l q, length q = 4%nat -> Forall number q -> powerRZ 2 (-22) <= norm (map rval q) <= powerRZ 2 60 -> let R := qmat (qnormalized (map rval q)) in let e := 150 * u in
  exists p, computes (B32 l) glm_quat_normalize_to [In (fl q); Out 4] VVoid [fl p] /\ computes (B32 l) glm_quat_normalize [InOut (fl q)] VVoid [fl p] /\
  (exists F, computes (B32 l) glm_quat_mat3 [In (fl p); Out 9] VVoid [fl F] /\ within_all e F R) /\
  (exists F, computes (B32 l) glm_quat_mat3t [In (fl p); Out 9] VVoid [fl F] /\ within_all e F (transp 3 3 R)) /\
  (exists F, computes (B32 l) glm_quat_mat4 [In (fl p); Out 16] VVoid [fl F] /\ within_all e F (aff R [0; 0; 0])) /\
  (exists F, computes (B32 l) glm_quat_mat4t [In (fl p); Out 16] VVoid [fl F] /\ within_all e F (aff (transp 3 3 R) [0; 0; 0])).
Proof. exact QuatMat32.C83_normalized_ok. Qed.
Print Assumptions C83_normalized.

(** [glm_quat_look]: the view matrix of a viewer at [eye] with orientation [q] *)
Theorem C83_look : forall l q eye t, length q = 4%nat -> Forall number q -> 0 <= t <= 16 -> Rabs (norm (map rval q) - 1) <= t * u -> length eye = 3%nat -> entries_upto_1 eye -> let R := transp 3 3 (qmat (qnormalized (map rval q))) in
  exists F, computes (B32 l) glm_quat_look [In (fl eye); In (fl q); Out 16] VVoid [fl F] /\ within_all ((37 * t + 150) * u) F (aff R (neg (mvec 3 3 R (map rval eye)))).
Proof. exact QuatMat32.C83_look_ok. Qed.
Print Assumptions C83_look.

(** [glm_quat_rotate]: a transform composed with the rotation *)
Theorem C83_rotate : forall l q m t, length q = 4%nat -> Forall number q -> 0 <= t <= 16 -> Rabs (norm (map rval q) - 1) <= t * u -> length m = 16%nat -> entries_upto_1 m ->
  exists F, computes (B32 l) glm_quat_rotate [InA (fl m); In (fl q); Out 16] VVoid [fl F] /\ within_all ((37 * t + 150) * u) F (mmul 4 (map rval m) (aff (qmat (qnormalized (map rval q))) [0; 0; 0])).
Proof. exact QuatMat32.C83_rotate_ok. Qed.
Print Assumptions C83_rotate.

Example C83_matrices_example : let q := map (fun k => b_lit k 2) [1; 1; -1; 1]%Z in length q = 4%nat /\ Forall number q /\ Rabs (norm (map rval q) - 1) <= 0 * u /\ qmat (qnormalized (map rval q)) = [0; 0; -1; 1; 0; 0; 0; -1; 0].
Proof. exact QuatMat32.C83_matrices_ex. Qed.

Example C83_normalized_example : let q := map (fun k => b_lit k 1) [1; 1; -1; 1]%Z in Forall number q /\ norm (map rval q) = 2 /\ powerRZ 2 (-22) <= 2 <= powerRZ 2 60 /\ qnormalized (map rval q) = [1 / 2; 1 / 2; - (1 / 2); 1 / 2].
Proof. exact QuatMat32.C83_normalized_ex. Qed.

Example C83_look_example : let q := map (fun k => b_lit k 2) [1; 1; -1; 1]%Z in let eye := map (fun k => b_lit k 1) [0; 1; -1]%Z in Forall number q /\ Rabs (norm (map rval q) - 1) <= 0 * u /\ entries_upto_1 eye /\
  neg (mvec 3 3 (transp 3 3 (qmat (qnormalized (map rval q)))) (map rval eye)) = [-1; 0; 1].
Proof. exact QuatMat32.C83_look_ex. Qed.

Example C83_rotate_example : let q := map (fun k => b_lit k 2) [1; 1; -1; 1]%Z in let m := map (fun k => b_lit k 1) [0; 1; 0; 0;  -1; 0; 0; 0;  0; 0; 1; 0;  1; -1; 0; 1]%Z in Forall number q /\ Rabs (norm (map rval q) - 1) <= 0 * u /\ length m = 16%nat /\ entries_upto_1 m /\
  mmul 4 (map rval m) (aff (qmat (qnormalized (map rval q))) [0; 0; 0]) = [0; 0; -1; 0;  0; 1; 0; 0;  1; 0; 0; 0;  1; -1; 0; 1].
Proof. exact QuatMat32.C83_rotate_ex. Qed.
