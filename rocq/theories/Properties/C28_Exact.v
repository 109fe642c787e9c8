(** C28: Euler angles extraction.

    Over the reals glm_euler_angles applied to glm_euler_xyz(a) returns angles whose
    glm_euler_xyz matrix is the same matrix, including at gimbal lock. When the x and z angles
    lie in (-pi, pi] and the y angle strictly between -pi/2 and pi/2, the angles that come back
    are exactly the ones that went in. *)

From Coq Require Import String List ZArith Bool Reals.
From Verif Require Import MiniC Contract RScalar Cglm.
From Verif.Spec Require Import Linear Geometry Affine Quaternion Euler.
From Verif.Spec Require Import Linear Geometry Affine Quaternion Euler.
From Verif.Spec Require Import Linear Geometry Affine Quaternion Euler.
From Verif.Proofs Require Exact.
Import ListNotations.
Local Open Scope list_scope.
Local Open Scope R_scope.

(** angles in the usual ranges are extracted exactly, whatever the translation part *)
Theorem C28_exact : forall a t, length a = 3%nat -> length t = 3%nat ->
  -PI < at_ a 0 <= PI -> - (PI / 2) < at_ a 1 < PI / 2 -> -PI < at_ a 2 <= PI ->
  computes RS glm_euler_angles [In (fl (aff (euler (0, 1, 2)%nat a) t)); Out 3] VVoid [fl a].
Proof. exact Exact.C28_exact_ok. Qed.
Print Assumptions C28_exact.

Example C28_exact_example : -PI < PI <= PI /\ - (PI / 2) < PI / 6 < PI / 2 /\ -PI < 0 <= PI.
Proof. exact Exact.C28_exact_ex. Qed.
