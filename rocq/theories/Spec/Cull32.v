(** * Frustum culling in single precision *)

From Coq Require Import List ZArith Reals Floats.SpecFloat.
From Verif Require Import MiniC Contract B32 Cglm.
From Verif.Spec Require Import Float32 Linear Geometry Clip Box Frustum Tests32.
Import ListNotations.
Local Open Scope R_scope.

(** a matrix whose first three columns are at most [A] and whose last is at most [A] times [B], for boxes of size at most [B] *)
Definition cull_sizes (A B : R) (M b : list b32) : Prop :=
  length M = 16%nat /\ bounded_by A (firstn 12 M) /\ bounded_by (A * B) (skipn 12 M) /\ length b = 6%nat /\ bounded_by B b /\
  powerRZ 2 (-20) <= A <= powerRZ 2 20 /\ powerRZ 2 (-20) <= B /\ A * B <= powerRZ 2 30.
(** how far the point [p] is inside the [j]-th clip plane of [M]; it is visible if this is never negative *)
Definition depth (M : list R) (j : nat) (p : list R) : R := rdot (firstn 3 (clip_plane M j)) p + at_ (clip_plane M j) 3.
