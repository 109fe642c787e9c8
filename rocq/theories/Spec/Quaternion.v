(** * Quaternions: [x; y; z; w] is w + xi + yj + zk *)

From Coq Require Import List Reals.
From Verif.Spec Require Import Linear Geometry.
Import ListNotations.
Open Scope R_scope.

Definition im (q : list R) : list R := firstn 3 q.
Definition re (q : list R) : R := at_ q 3.
Definition quat (v : list R) (s : R) : list R := v ++ [s].
(** Hamilton product in terms of the dot and cross products *)
Definition qmul (p q : list R) : list R :=
  quat (vadd (vadd (vscale (re p) (im q)) (vscale (re q) (im p))) (vcross (im p) (im q)))
       (re p * re q - rdot (im p) (im q)).
Definition qconj (q : list R) : list R := quat (map Ropp (im q)) (re q).
Definition qone : list R := [0; 0; 0; 1].
(** the vector q v q* *)
Definition qrot (q v : list R) : list R := im (qmul (qmul q (quat v 0)) (qconj q)).
(** the matrix with columns q e_i q* *)
Definition qmat (q : list R) : list R := qrot q [1; 0; 0] ++ qrot q [0; 1; 0] ++ qrot q [0; 0; 1].
(** rotation by [angle] about the unit axis [k] *)
Definition axis_angle (k : list R) (angle : R) : list R := quat (vscale (sin (angle / 2)) k) (cos (angle / 2)).
(** the unit quaternion in the same direction; 1 for the zero quaternion *)
Definition qnormalized (q : list R) : list R := if Req_EM_T (norm2 q) 0 then qone else vscale (/ norm q) q.
(** spherical interpolation between [p] (negated if the angle to [q] is obtuse) and [q] *)
Definition sign_of (c : R) : R := if Rlt_dec c 0 then -1 else 1.
Definition sphere_mix (p q : list R) (t : R) : list R :=
  let th := acos (Rabs (rdot p q)) in
  vadd (vscale (sin ((1 - t) * th) / sin th) (vscale (sign_of (rdot p q)) p)) (vscale (sin (t * th) / sin th) q).
(** the same along the longer arc of the great circle, from the other one of plus or minus [p] *)
Definition long_mix (p q : list R) (t : R) : list R :=
  let th := acos (- Rabs (rdot p q)) in
  vadd (vscale (sin ((1 - t) * th) / sin th) (vscale (- sign_of (rdot p q)) p)) (vscale (sin (t * th) / sin th) q).
(** straight-line interpolation *)
Definition mix (p q : list R) (t : R) : list R := vadd p (vscale t (vsub q p)).
