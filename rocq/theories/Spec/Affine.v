(** * Affine maps as 4x4 (and, in the plane, 3x3) matrices *)

From Coq Require Import List Reals.
From Verif.Spec Require Import Linear Geometry.
Import ListNotations.
Open Scope R_scope.

(** linear part [r] (3x3) followed by translation by [t] *)
Definition aff (r t : list R) : list R :=
  [at_ r 0; at_ r 1; at_ r 2; 0;
   at_ r 3; at_ r 4; at_ r 5; 0;
   at_ r 6; at_ r 7; at_ r 8; 0;
   at_ t 0; at_ t 1; at_ t 2; 1].
Definition transl (t : list R) : list R := aff (mid 3) t.
Definition diag3 (s : list R) : list R := [at_ s 0; 0; 0; 0; at_ s 1; 0; 0; 0; at_ s 2].
Definition scaling (s : list R) : list R := aff (diag3 s) [0; 0; 0].
Definition rot4 (k : list R) (angle : R) : list R := aff (rotmat k angle) [0; 0; 0].
Definition neg (v : list R) : list R := map Ropp v.
(** [M] maps the point [p] to the point [q] *)
Definition moves (M p q : list R) : Prop := mvec 4 4 M (p ++ [1]) = q ++ [1].
(** orthogonal 3x3 matrix of determinant 1 *)
Definition orthonormal (r : list R) : Prop := mmul 3 (transp 3 3 r) r = mid 3.
Definition rotation (r : list R) : Prop := orthonormal r /\ det 3 r = 1.
(** columns and linear part of a 4x4 matrix *)
Definition col4 (M : list R) (c : nat) : list R := [ent 4 M c 0; ent 4 M c 1; ent 4 M c 2; ent 4 M c 3].
Definition lin4 (M : list R) : list R :=
  [ent 4 M 0 0; ent 4 M 0 1; ent 4 M 0 2; ent 4 M 1 0; ent 4 M 1 1; ent 4 M 1 2; ent 4 M 2 0; ent 4 M 2 1; ent 4 M 2 2].
(** rotation about the pivot [p] *)
Definition rot_about (p k : list R) (angle : R) : list R :=
  mmul 4 (transl p) (mmul 4 (rot4 k angle) (transl (neg p))).

(** the plane *)
Definition aff2 (r t : list R) : list R :=
  [at_ r 0; at_ r 1; 0; at_ r 2; at_ r 3; 0; at_ t 0; at_ t 1; 1].
Definition transl2 (t : list R) : list R := aff2 (mid 2) t.
Definition scaling2 (s : list R) : list R := aff2 [at_ s 0; 0; 0; at_ s 1] [0; 0].
Definition rot2 (a : R) : list R := aff2 [cos a; sin a; - sin a; cos a] [0; 0].
Definition moves2 (M p q : list R) : Prop := mvec 3 3 M (p ++ [1]) = q ++ [1].
