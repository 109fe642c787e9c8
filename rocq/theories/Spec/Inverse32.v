(** * Matrix inverses in single precision *)

From Coq Require Import List ZArith Reals Floats.SpecFloat.
From Verif Require Import MiniC Contract B32 Cglm.
From Verif.Spec Require Import Float32 Linear.
Import ListNotations.
Local Open Scope R_scope.

Definition entries_upto_1 (A : list b32) : Prop := Forall (fun x => number x /\ Rabs (rval x) <= 1) A.
Definition inv_of (n : nat) : fundef := match n with 2%nat => glm_mat2_inv | 3%nat => glm_mat3_inv | _ => glm_mat4_inv end.
(** the constant in the error bound, in units of 2^-25 *)
Definition inv_units (n : nat) : R := match n with 2%nat => 9 | 3%nat => 75 | _ => 1440 end.
(** [B] is the inverse of the n by n matrix [A] over the reals *)
Definition inverse_of (n : nat) (A B : list R) : Prop := length B = (n * n)%nat /\ mmul n A B = mid n /\ mmul n B A = mid n.
Definition within_all (e : R) (F : list b32) (B : list R) : Prop := Forall2 (fun x r => number x /\ Rabs (rval x - r) <= e) F B.
