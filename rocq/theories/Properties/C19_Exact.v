(** C19: Decomposition of an affine transform.

    Over the reals, for a transform T*R*S with non-zero scales glm_decompose recovers
    translation, rotation and scale whose product is the input, and glm_decompose_scalev
    returns the column lengths; with a zero scale it divides by zero. When the scale factors
    are all positive or all negative, the parts that come back are exactly the translation,
    rotation and scale that went in. *)

From Coq Require Import String List ZArith Bool Reals.
From Verif Require Import MiniC Contract RScalar Cglm.
From Verif.Spec Require Import Linear Geometry Affine Quaternion Euler.
From Verif.Spec Require Import Linear Geometry Affine Quaternion Euler.
From Verif.Spec Require Import Linear Geometry Affine Quaternion Euler.
From Verif.Proofs Require Exact.
Import ListNotations.
Local Open Scope list_scope.
Local Open Scope R_scope.

(** translation, rotation and scale factors of one sign come back as they were *)
Theorem C19_exact : forall q t s, length q = 9%nat -> length t = 3%nat -> length s = 3%nat -> rotation q ->
  Forall (fun x => 0 < x) s \/ Forall (fun x => x < 0) s ->
  let m := mmul 4 (transl t) (mmul 4 (aff q [0; 0; 0]) (scaling s)) in
  computes RS glm_decompose [In (fl m); Out 4; Out 16; Out 3] VVoid [fl (t ++ [1]); fl (aff q [0; 0; 0]); fl s] /\
  computes RS glm_decompose_rs [In (fl m); Out 16; Out 3] VVoid [fl (aff q [0; 0; 0]); fl s].
Proof. exact Exact.C19_exact_ok. Qed.
Print Assumptions C19_exact.

Example C19_exact_example : rotation [0; 1; 0; 0; 0; 1; 1; 0; 0] /\ Forall (fun x => 0 < x) [1; 2; 3] /\ Forall (fun x => x < 0) [-1; -2; -3].
Proof. exact Exact.C19_exact_ex. Qed.
