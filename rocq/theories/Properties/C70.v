(** C70: A camera end to end.

    Over the reals, for a camera built by three calls - glm_lookat, glm_perspective,
    glm_mat4_mul - in both handedness and both depth conventions: the directions ahead, right
    and up are orthonormal with up above; clip coordinate w of a point is its distance ahead,
    and its clip coordinates are in the clip volume exactly when it is in the pyramid given by
    the opening angle, aspect ratio, near and far distance; glm_project puts it at the place in
    the viewport given by similar triangles with depth f (d - n) / ((f - n) d), and the centre
    in the middle; glm_unproject of a pixel and a depth gives the point of the ray through the
    pixel with that depth. The planes of glm_frustum_planes bound exactly the pyramid if 2 n >=
    FLT_EPSILON (f - n), and glm_aabb_frustum then and otherwise keeps every box with a visible
    point; for larger ratios of the distances the far plane is lost: points twice as far are on
    the positive side of all six planes. *)

From Coq Require Import String List ZArith Bool Reals.
From Verif Require Import MiniC Contract RScalar Cglm.
From Verif.Spec Require Import Linear Geometry Affine Clip Frustum Box Camera.
From Verif.Spec Require Import Linear Geometry Affine Clip Frustum Box Camera.
From Verif.Spec Require Import Linear Geometry Affine Clip Frustum Box Camera.
From Verif.Proofs Require Camera.
Import ListNotations.
Local Open Scope list_scope.
Local Open Scope R_scope.

(** The frame is orthonormal with up above; clip coordinate w is the distance ahead, the clip volume
    is the field of view. *)
Theorem C70_visible : forall lh zo eye center up fovy a n f, well_placed eye center up -> 0 < fovy < PI -> 0 < a -> 0 < n -> n < f ->
  exists M, camera lh zo eye center up fovy a n f M /\
  forall p, length p = 3%nat -> let c := coords lh eye center up p in
    at_ (clip M p) 3 = at_ c 2 /\ (in_clip zo (clip M p) <-> seen a (tan (fovy / 2)) n f c).
Proof. exact Camera.C70_visible_ok. Qed.
Print Assumptions C70_visible.

Theorem C70_frame : forall lh eye center up, well_placed eye center up ->
  let d := forward eye center in let s := rightward lh eye center up in let u := upward lh eye center up in
  norm2 d = 1 /\ norm2 s = 1 /\ norm2 u = 1 /\ rdot d s = 0 /\ rdot d u = 0 /\ rdot s u = 0 /\
  rdot s up = 0 /\ 0 < rdot u up /\
  (forall p, length p = 3%nat -> located lh eye center up (coords lh eye center up p) = p) /\
  (forall c, length c = 3%nat -> coords lh eye center up (located lh eye center up c) = c) /\
  coords lh eye center up eye = [0; 0; 0] /\ coords lh eye center up center = [0; 0; norm (vsub center eye)].
Proof. exact Camera.C70_frame_ok. Qed.
Print Assumptions C70_frame.

Theorem C70_window : forall lh zo eye center up fovy a n f vp, well_placed eye center up -> 0 < fovy < PI -> 0 < a -> 0 < n -> n < f -> length vp = 4%nat ->
  exists M, camera lh zo eye center up fovy a n f M /\
  (forall p, length p = 3%nat -> let c := coords lh eye center up p in at_ c 2 <> 0 ->
    computes RS (project_fn zo) [InA (fl p); In (fl M); In (fl vp); Out 3] VVoid [fl (appears vp a (tan (fovy / 2)) n f c)]) /\
  exists z, computes RS (project_fn zo) [InA (fl center); In (fl M); In (fl vp); Out 3] VVoid [fl [at_ vp 0 + at_ vp 2 / 2; at_ vp 1 + at_ vp 3 / 2; z]].
Proof. exact Camera.C70_window_ok. Qed.
Print Assumptions C70_window.

(** the planes of a camera bound its field of view exactly, as long as the far distance is at most
    about 2^24 times the near one; a box with a visible point is kept whatever the distances *)
Theorem C70_culling : forall lh eye center up fovy a n f, well_placed eye center up -> 0 < fovy < PI -> 0 < a -> 0 < n -> n < f ->
  exists M q, camera lh false eye center up fovy a n f M /\ length q = 6%nat /\ (forall j, (j < 6)%nat -> length (nth j q []) = 4%nat) /\
  computes RS glm_frustum_planes [In (fl M); Out 24] VVoid [fl (concat q)] /\
  (eps * (f - n) <= 2 * n -> forall p, length p = 3%nat ->
    ((forall j, (j < 6)%nat -> on_side (nth j q []) p) <-> seen a (tan (fovy / 2)) n f (coords lh eye center up p))) /\
  (forall b p, length b = 6%nat -> length p = 3%nat -> in_aabb 3 b p -> seen a (tan (fovy / 2)) n f (coords lh eye center up p) ->
    computes RS glm_aabb_frustum [In (fl b); In (fl (concat q))] (VB true) []).
Proof. exact Camera.C70_culling_ok. Qed.
Print Assumptions C70_culling.

Theorem C70_picking : forall lh eye center up fovy a n f vp w, well_placed eye center up -> 0 < fovy < PI -> 0 < a -> 0 < n -> n < f ->
  length vp = 4%nat -> at_ vp 2 <> 0 -> at_ vp 3 <> 0 -> length w = 3%nat -> f - at_ w 2 * (f - n) <> 0 ->
  let t := tan (fovy / 2) in let d := f * n / (f - at_ w 2 * (f - n)) in
  let ray := [a * t * (2 * (at_ w 0 - at_ vp 0) / at_ vp 2 - 1); t * (2 * (at_ w 1 - at_ vp 1) / at_ vp 3 - 1); 1] in
  exists M, camera lh false eye center up fovy a n f M /\
  computes RS glm_unproject [InA (fl w); In (fl M); In (fl vp); Out 3] VVoid [fl (located lh eye center up (vscale d ray))].
Proof. exact Camera.C70_picking_ok. Qed.
Print Assumptions C70_picking.

Example C70_placed_example : well_placed [0; 3; 4] [0; 0; 0] [0; 1; 0] /\ eps * (1000 - 1 / 10) <= 2 * (1 / 10).
Proof. exact Camera.C70_placed_ex. Qed.

Theorem C70_far_lost : forall lh eye center up fovy a n f, well_placed eye center up -> 0 < fovy < PI -> 0 < a -> 0 < n -> n < f -> 2 * n < eps * (f - n) ->
  exists M q p, camera lh false eye center up fovy a n f M /\ length q = 6%nat /\
  computes RS glm_frustum_planes [In (fl M); Out 24] VVoid [fl (concat q)] /\ length p = 3%nat /\
  (forall j, (j < 6)%nat -> on_side (nth j q []) p) /\ at_ (coords lh eye center up p) 2 = 2 * f.
Proof. exact Camera.C70_far_lost_ok. Qed.
Print Assumptions C70_far_lost.
