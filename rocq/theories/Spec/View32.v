(** * View matrices in single precision *)

From Coq Require Import List ZArith Reals Floats.SpecFloat.
From Verif Require Import MiniC Contract B32 Cglm.
From Verif.Spec Require Import Float32 Linear Geometry Clip Camera.
Import ListNotations.
Local Open Scope R_scope.

(** the rows of the rotation: to the right, upwards and along the depth axis *)
Definition view_axes (lh : bool) (eye center up : list R) : list (list R) :=
  [rightward lh eye center up; upward lh eye center up; vscale (if lh then 1 else -1) (forward eye center)].
(** [F], stored by columns, has the rows [A] and moves [eye] to the origin: entries of row i of the
    rotation within [e] i, the translation within (3 [e] i + 10 u) times the bound [B] on the eye *)
Definition view_within (e : list R) (B : R) (A : list (list R)) (eye : list R) (F : list b32) : Prop :=
  length F = 16%nat /\ (forall i, (i < 16)%nat -> number (nth i F b0)) /\
  (forall i j, (i < 3)%nat -> (j < 3)%nat -> Rabs (rval (nth (4 * j + i) F b0) - at_ (nth i A []) j) <= at_ e i) /\
  (forall i, (i < 3)%nat -> Rabs (rval (nth (12 + i) F b0) + rdot (nth i A []) eye) <= (3 * at_ e i + 10 * u) * B) /\
  (forall j, (j < 3)%nat -> rval (nth (4 * j + 3) F b0) = 0) /\ rval (nth 15 F b0) = 1.
