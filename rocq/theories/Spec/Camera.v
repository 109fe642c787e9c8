(** * A camera: the view, projection and product matrices together *)

From Coq Require Import List Reals.
From Verif Require Import MiniC Contract RScalar Cglm.
From Verif.Spec Require Import Linear Geometry Clip.
Import ListNotations.
Open Scope R_scope.

(** the matrix of a camera at [eye] looking at [center]: perspective times view, as a caller gets
    it from three calls *)
Definition camera (lh zo : bool) (eye center up : list R) (fovy a n f : R) (M : list R) : Prop :=
  exists V P, length V = 16%nat /\ length P = 16%nat /\ length M = 16%nat /\
    computes RS (lookat_fn lh) [In (fl eye); In (fl center); In (fl up); Out 16] VVoid [fl V] /\
    computes RS (perspective_fn lh zo) [Val (VF fovy); Val (VF a); Val (VF n); Val (VF f); Out 16] VVoid [fl P] /\
    computes RS glm_mat4_mul [InA (fl P); InA (fl V); Out 16] VVoid [fl M].
(** the directions ahead, to the right and upwards *)
Definition forward (eye center : list R) : list R := normalized (vsub center eye).
Definition rightward (lh : bool) (eye center up : list R) : list R :=
  let d := forward eye center in normalized (if lh then vcross up d else vcross d up).
Definition upward (lh : bool) (eye center up : list R) : list R :=
  let d := forward eye center in let s := rightward lh eye center up in if lh then vcross d s else vcross s d.
(** how far the point [p] is to the right, above and ahead of the camera *)
Definition coords (lh : bool) (eye center up p : list R) : list R :=
  let e := vsub p eye in [rdot (rightward lh eye center up) e; rdot (upward lh eye center up) e; rdot (forward eye center) e].
(** the point that is [c] right, above and ahead *)
Definition located (lh : bool) (eye center up c : list R) : list R :=
  vadd eye (vadd (vscale (at_ c 0) (rightward lh eye center up))
    (vadd (vscale (at_ c 1) (upward lh eye center up)) (vscale (at_ c 2) (forward eye center)))).
(** in the field of view of height 2 [t] and width 2 [a t] at distance 1, between [n] and [f] *)
Definition seen (a t n f : R) (c : list R) : Prop :=
  n <= at_ c 2 <= f /\ Rabs (at_ c 0) <= a * t * at_ c 2 /\ Rabs (at_ c 1) <= t * at_ c 2.
(** where it appears in the viewport *)
Definition appears (vp : list R) (a t n f : R) (c : list R) : list R :=
  [at_ vp 0 + at_ vp 2 * ((1 + at_ c 0 / (a * t * at_ c 2)) / 2);
   at_ vp 1 + at_ vp 3 * ((1 + at_ c 1 / (t * at_ c 2)) / 2);
   f * (at_ c 2 - n) / ((f - n) * at_ c 2)].
(** the view direction and the up vector are long enough and not parallel *)
Definition well_placed (eye center up : list R) : Prop :=
  length eye = 3%nat /\ length center = 3%nat /\ length up = 3%nat /\
  eps <= norm (vsub center eye) /\ eps <= norm (vcross (forward eye center) up).
