(** * Frustum planes and corners *)

From Coq Require Import List Reals.
From Verif.Spec Require Import Linear Geometry Clip.
Import ListNotations.
Open Scope R_scope.

(** rows of a 4x4 matrix *)
Definition row4 (M : list R) (r : nat) : list R := [ent 4 M 0 r; ent 4 M 1 r; ent 4 M 2 r; ent 4 M 3 r].
(** the point [p] is on the positive side of the plane [q] = (normal, distance) *)
Definition on_side (q p : list R) : Prop := 0 <= rdot (firstn 3 q) p + at_ q 3.
(** the six clip inequalities as planes *)
Definition clip_plane (M : list R) (j : nat) : list R :=
  match j with
  | 0%nat => vadd (row4 M 3) (row4 M 0) | 1%nat => vsub (row4 M 3) (row4 M 0)
  | 2%nat => vadd (row4 M 3) (row4 M 1) | 3%nat => vsub (row4 M 3) (row4 M 1)
  | 4%nat => vadd (row4 M 3) (row4 M 2) | _ => vsub (row4 M 3) (row4 M 2)
  end.
(** corners of the clip cube: left/right and bottom/top alternate as in frustum.h, near before far *)
Definition cube_corner (i : nat) : list R :=
  nth i [[-1; -1; -1]; [-1; 1; -1]; [1; 1; -1]; [1; -1; -1]; [-1; -1; 1]; [-1; 1; 1]; [1; 1; 1]; [1; -1; 1]] [].
(** the images under [M] of the eight points, of four components each, in [k] *)
Definition images (M k : list R) : list (list R) := map (fun j => mvec 4 4 M (firstn 4 (skipn (4 * j) k))) (seq 0 8).
(** the box [b] (lower corner, upper corner) contains the points, and each of its faces touches one *)
Definition tight (ps : list (list R)) (b : list R) : Prop := forall i, (i < 3)%nat ->
  (forall p, List.In p ps -> at_ b i <= at_ p i <= at_ b (3 + i)) /\
  (exists p, List.In p ps /\ at_ p i = at_ b i) /\ (exists p, List.In p ps /\ at_ p i = at_ b (3 + i)).
