(** * Elementary geometry of R^n, used to state properties *)

From Coq Require Import List Reals.
From Verif.Spec Require Import Linear.
Import ListNotations.
Open Scope R_scope.

(** mirror image of [v] in the hyperplane with unit normal [n] *)
Definition mirror (v n : list R) : list R := vsub v (vscale (2 * rdot v n) n).
(** tangential part of [v] with respect to a unit normal [n] *)
Definition tangential (v n : list R) : list R := vsub v (vscale (rdot v n) n).
(** rotation of [v] about the unit axis [k], right-handed (Rodrigues) *)
Definition rotated (k : list R) (angle : R) (v : list R) : list R :=
  vadd (vadd (vscale (cos angle) v) (vscale (sin angle) (vcross k v)))
       (vscale ((1 - cos angle) * rdot k v) k).
(** the same as a 3x3 matrix: its columns are the rotated basis vectors *)
Definition rotmat (k : list R) (angle : R) : list R :=
  rotated k angle [1;0;0] ++ rotated k angle [0;1;0] ++ rotated k angle [0;0;1].
(** complex numbers as pairs *)
Definition cmul (x y : list R) : list R :=
  [at_ x 0 * at_ y 0 - at_ x 1 * at_ y 1; at_ x 0 * at_ y 1 + at_ x 1 * at_ y 0].
(** refraction (Snell): squared cosine of the transmitted angle, and the transmitted ray *)
Definition refr_k (eta : R) (v n : list R) : R := 1 - eta * eta * (1 - rdot n v * rdot n v).
Definition refracted (eta : R) (v n : list R) : list R :=
  vsub (vscale eta v) (vscale (eta * rdot n v + sqrt (refr_k eta v n)) n).
