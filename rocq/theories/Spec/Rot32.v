(** * Rotations in single precision *)

From Coq Require Import List ZArith Reals Floats.SpecFloat.
From Verif Require Import MiniC Contract B32 Cglm.
From Verif.Spec Require Import Float32 Linear.
Import ListNotations.
Local Open Scope R_scope.

(** an axis that is neither too short nor too long *)
Definition axis_ok (a : list b32) : Prop := length a = 3%nat /\ Forall number a /\ powerRZ 2 (-20) <= norm (map rval a) <= powerRZ 2 58.
