(** * Orthogonal matrices *)

From Coq Require Import List Reals.
From Verif.Spec Require Import Linear.
Import ListNotations.
Local Open Scope R_scope.

(** a 4x4 matrix whose transpose is its inverse *)
Definition orthogonal (A : list R) : Prop := length A = 16%nat /\ mmul 4 A (transp 4 4 A) = mid 4.

(** [y] comes from [x] by steps with the members of a list, first to last *)
Fixpoint chained {A B} (step : A -> B -> A -> Prop) (x : A) (rs : list B) (y : A) : Prop :=
  match rs with
  | [] => y = x
  | r :: rs' => exists z, step x r z /\ chained step z rs' y
  end.
