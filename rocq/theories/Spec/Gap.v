(** * Normalisation that compares the squared length with FLT_EPSILON *)

From Coq Require Import List Reals.
From Verif.Spec Require Import Linear.
Local Open Scope R_scope.

Definition normalized_sq (x : list R) : list R :=
  if Rlt_dec (norm2 x) eps then map (fun _ => 0) x else map (fun a => a / norm x) x.
(** the lengths on which this differs from [normalized] *)
Definition in_gap (x : list R) : Prop := eps <= norm x /\ norm2 x < eps.
