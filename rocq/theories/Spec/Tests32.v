(** * Geometric tests in single precision *)

From Coq Require Import List ZArith Reals Floats.SpecFloat.
From Verif Require Import MiniC Contract B32.
From Verif.Spec Require Import Float32 Linear Geometry Frustum.
Import ListNotations.
Local Open Scope R_scope.

(** numbers of magnitude at most [M] *)
Definition bounded_by (M : R) (x : list b32) : Prop := Forall (fun y => number y /\ Rabs (rval y) <= M) x.
(** the signed distance of [p] from plane [j] of six planes *)
Definition depth (ps : list R) (j : nat) (p : list R) : R := rdot (firstn 3 (skipn (4 * j) ps)) p + nth (4 * j + 3) ps 0.
(** the tolerance of the comparison functions: the float nearest to 1/100000 plus half a unit in its last place *)
Definition tolerance : R := 21990233 * powerRZ 2 (-41).
Definition all_near (x y : list R) : Prop := Forall2 (fun a b => Rabs (a - b) <= tolerance) x y.
