(** * Ranges and monotonicity of scalar functions in single precision *)

From Coq Require Import String List ZArith Bool Reals Floats.SpecFloat.
From Verif Require Import MiniC Contract B32.
From Verif.Spec Require Import Float32.
Import ListNotations.
Local Open Scope R_scope.

(** a binary32 number from [a] to [b] *)
Definition between (a b : R) (x : b32) : Prop := number x /\ a <= rval x <= b.
(** [f] of a number from 0 to 1 is a number from 0 to 1 *)
Definition keeps_unit (f : fundef) : Prop :=
  exists g : b32 -> b32, (forall l t, computes (B32 l) f [Val (VF t)] (VF (g t)) []) /\ forall t, between 0 1 t -> between 0 1 (g t).
(** and it does not decrease there *)
Definition keeps_order (f : fundef) : Prop :=
  exists g : b32 -> b32, (forall l t, computes (B32 l) f [Val (VF t)] (VF (g t)) []) /\
    forall s t, between 0 1 s -> between 0 1 t -> rval s <= rval t -> rval (g s) <= rval (g t).
(** and it goes from 0 to 1 *)
Definition keeps_ends (f : fundef) : Prop :=
  forall l, exists a b, computes (B32 l) f [Val (VF b0)] (VF a) [] /\ computes (B32 l) f [Val (VF b1)] (VF b) [] /\ feq a b0 /\ feq b b1.
