(** * Equality up to a given tolerance, over the reals *)

From Coq Require Import List Reals.
Import ListNotations.
Local Open Scope R_scope.

Definition within (e a b : R) : bool := if Rle_dec (Rabs (a - b)) e then true else false.
Definition all_within (e : R) (x y : list R) : bool := forallb (fun p => within e (fst p) (snd p)) (combine x y).
