(** * Elementary real functions, used to state properties of the scalar helpers *)

From Coq Require Import List Reals.
Import ListNotations.
Open Scope R_scope.

(** nearest point of the interval [lo, hi] (for lo <= hi) *)
Definition clamped (lo hi x : R) : R := if Rlt_dec x lo then lo else if Rlt_dec hi x then hi else x.
(** Hermite step polynomial *)
Definition smooth01 (t : R) : R := 3 * t * t - 2 * t * t * t.
Definition sgn (x : R) : R := if Rlt_dec 0 x then 1 else if Rlt_dec x 0 then -1 else 0.

(** GLM_FLT_EPSILON of common.h (1e-5f) and the comparison up to it *)
Definition tol : R := 1 / 100000.
Definition close (a b : R) : bool := if Rle_dec (Rabs (a - b)) tol then true else false.
Definition all_close (x y : list R) : bool := forallb (fun p => close (fst p) (snd p)) (combine x y).
