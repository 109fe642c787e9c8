(** * Rotations given by three angles about the coordinate axes *)

From Coq Require Import List Reals ZArith.
From Verif.Spec Require Import Linear Geometry Affine Quaternion.
Import ListNotations.
Open Scope R_scope.

Definition e_ (i : nat) : list R := nth i [[1; 0; 0]; [0; 1; 0]; [0; 0; 1]] [].
(** the six orders, first factor first *)
Definition axis_orders : list (nat * nat * nat) :=
  [(0, 1, 2); (0, 2, 1); (1, 0, 2); (1, 2, 0); (2, 0, 1); (2, 1, 0)]%nat.
(** product of the rotations about the axes [i], [j], [k] by the angles for these axes;
    it turns about [k] first *)
Definition euler (o : nat * nat * nat) (ang : list R) : list R :=
  let '(i, j, k) := o in
  mmul 3 (rotmat (e_ i) (at_ ang i)) (mmul 3 (rotmat (e_ j) (at_ ang j)) (rotmat (e_ k) (at_ ang k))).
Definition euler4 (o : nat * nat * nat) (ang : list R) : list R := aff (euler o ang) [0; 0; 0].
(** the same as a quaternion *)
Definition qeuler (o : nat * nat * nat) (ang : list R) : list R :=
  let '(i, j, k) := o in
  qmul (axis_angle (e_ i) (at_ ang i)) (qmul (axis_angle (e_ j) (at_ ang j)) (axis_angle (e_ k) (at_ ang k))).
(** the number of an order: two bits for each axis (enum glm_euler_seq) *)
Definition order_code (o : nat * nat * nat) : Z :=
  let '(i, j, k) := o in (Z.of_nat i + 4 * Z.of_nat j + 16 * Z.of_nat k)%Z.
(** mirrored third angle *)
Definition flip_z (ang : list R) : list R := [at_ ang 0; at_ ang 1; - at_ ang 2].
