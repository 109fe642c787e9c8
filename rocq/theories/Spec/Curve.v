(** * Cubic curves *)

From Coq Require Import Reals List.
Import ListNotations.
Local Open Scope R_scope.

Definition bernstein (p0 c0 c1 p1 s : R) : R :=
  p0 * (1 - s) ^ 3 + 3 * c0 * s * (1 - s) ^ 2 + 3 * c1 * s ^ 2 * (1 - s) + p1 * s ^ 3.
Definition hermite (p0 t0 t1 p1 s : R) : R :=
  p0 * (2 * s ^ 3 - 3 * s ^ 2 + 1) + t0 * (s ^ 3 - 2 * s ^ 2 + s) + p1 * (- (2) * s ^ 3 + 3 * s ^ 2) + t1 * (s ^ 3 - s ^ 2).
(** GLM_BEZIER_MAT_INIT and GLM_HERMITE_MAT_INIT, bezier.h:13-20 (columns) *)
Definition bezier_mat : list R := [-1; 3; -3; 1;  3; -6; 3; 0;  -3; 3; 0; 0;  1; 0; 0; 0].
Definition hermite_mat : list R := [2; -3; 0; 1;  -2; 3; 0; 0;  1; -2; 1; 0;  1; -1; 0; 0].
