(** * View volumes and clip volumes

    A convention is given by two booleans: [lh] (left-handed: the viewer looks along +z,
    otherwise along -z) and [zo] (clip depth from 0 to w, otherwise from -w to w). *)

From Coq Require Import List Reals.
From Verif.Spec Require Import Linear Geometry.
From Verif Require Import MiniC Cglm.
Import ListNotations.
Open Scope R_scope.

(** clip coordinates of the point [p] *)
Definition clip (M p : list R) : list R := mvec 4 4 M (p ++ [1]).
(** perspective division *)
Definition dehom (v : list R) : list R := [at_ v 0 / at_ v 3; at_ v 1 / at_ v 3; at_ v 2 / at_ v 3].
(** distance of a point in front of the viewer *)
Definition ahead (lh : bool) (p : list R) : R := if lh then at_ p 2 else - at_ p 2.
Definition in_clip (zo : bool) (c : list R) : Prop :=
  - at_ c 3 <= at_ c 0 <= at_ c 3 /\ - at_ c 3 <= at_ c 1 <= at_ c 3 /\
  (if zo then 0 else - at_ c 3) <= at_ c 2 <= at_ c 3.
(** depth value of the near plane, for clip coordinate w = [w]; that of the far plane is [w] *)
Definition near_depth (zo : bool) (w : R) : R := if zo then 0 else - w.
(** the box and the truncated pyramid seen by the viewer *)
Definition in_box (l r b t n f : R) (x y d : R) : Prop := l <= x <= r /\ b <= y <= t /\ n <= d <= f.
Definition in_frustum (l r b t n f : R) (x y d : R) : Prop :=
  l * d <= n * x <= r * d /\ b * d <= n * y <= t * d /\ n <= d <= f.

(** window coordinates of the clip coordinates [c] in the viewport [vp] = (x, y, width, height) *)
Definition window (zo : bool) (vp c : list R) : list R :=
  [at_ vp 0 + at_ vp 2 * ((at_ c 0 / at_ c 3 + 1) / 2);
   at_ vp 1 + at_ vp 3 * ((at_ c 1 / at_ c 3 + 1) / 2);
   if zo then at_ c 2 / at_ c 3 else (at_ c 2 / at_ c 3 + 1) / 2].
(** the functions for each convention *)
Definition ortho_fn (lh zo : bool) : fundef :=
  match lh, zo with
  | false, false => glm_ortho_rh_no | false, true => glm_ortho_rh_zo
  | true, false => glm_ortho_lh_no | true, true => glm_ortho_lh_zo end.
Definition ortho_aabb_fn (lh zo : bool) : fundef :=
  match lh, zo with
  | false, false => glm_ortho_aabb_rh_no | false, true => glm_ortho_aabb_rh_zo
  | true, false => glm_ortho_aabb_lh_no | true, true => glm_ortho_aabb_lh_zo end.
Definition ortho_aabb_p_fn (lh zo : bool) : fundef :=
  match lh, zo with
  | false, false => glm_ortho_aabb_p_rh_no | false, true => glm_ortho_aabb_p_rh_zo
  | true, false => glm_ortho_aabb_p_lh_no | true, true => glm_ortho_aabb_p_lh_zo end.
Definition ortho_aabb_pz_fn (lh zo : bool) : fundef :=
  match lh, zo with
  | false, false => glm_ortho_aabb_pz_rh_no | false, true => glm_ortho_aabb_pz_rh_zo
  | true, false => glm_ortho_aabb_pz_lh_no | true, true => glm_ortho_aabb_pz_lh_zo end.
Definition ortho_default_fn (lh zo : bool) : fundef :=
  match lh, zo with
  | false, false => glm_ortho_default_rh_no | false, true => glm_ortho_default_rh_zo
  | true, false => glm_ortho_default_lh_no | true, true => glm_ortho_default_lh_zo end.
Definition ortho_default_s_fn (lh zo : bool) : fundef :=
  match lh, zo with
  | false, false => glm_ortho_default_s_rh_no | false, true => glm_ortho_default_s_rh_zo
  | true, false => glm_ortho_default_s_lh_no | true, true => glm_ortho_default_s_lh_zo end.
Definition frustum_fn (lh zo : bool) : fundef :=
  match lh, zo with
  | false, false => glm_frustum_rh_no | false, true => glm_frustum_rh_zo
  | true, false => glm_frustum_lh_no | true, true => glm_frustum_lh_zo end.
Definition perspective_fn (lh zo : bool) : fundef :=
  match lh, zo with
  | false, false => glm_perspective_rh_no | false, true => glm_perspective_rh_zo
  | true, false => glm_perspective_lh_no | true, true => glm_perspective_lh_zo end.
Definition persp_default_fn (lh zo : bool) : fundef :=
  match lh, zo with
  | false, false => glm_perspective_default_rh_no | false, true => glm_perspective_default_rh_zo
  | true, false => glm_perspective_default_lh_no | true, true => glm_perspective_default_lh_zo end.
Definition persp_resize_fn (lh zo : bool) : fundef :=
  match lh, zo with
  | false, false => glm_perspective_resize_rh_no | false, true => glm_perspective_resize_rh_zo
  | true, false => glm_perspective_resize_lh_no | true, true => glm_perspective_resize_lh_zo end.
Definition move_far_fn (lh zo : bool) : fundef :=
  match lh, zo with
  | false, false => glm_persp_move_far_rh_no | false, true => glm_persp_move_far_rh_zo
  | true, false => glm_persp_move_far_lh_no | true, true => glm_persp_move_far_lh_zo end.
Definition decomp_fn (lh zo : bool) : fundef :=
  match lh, zo with
  | false, false => glm_persp_decomp_rh_no | false, true => glm_persp_decomp_rh_zo
  | true, false => glm_persp_decomp_lh_no | true, true => glm_persp_decomp_lh_zo end.
Definition decompv_fn (lh zo : bool) : fundef :=
  match lh, zo with
  | false, false => glm_persp_decompv_rh_no | false, true => glm_persp_decompv_rh_zo
  | true, false => glm_persp_decompv_lh_no | true, true => glm_persp_decompv_lh_zo end.
Definition decomp_x_fn (lh zo : bool) : fundef :=
  match lh, zo with
  | false, false => glm_persp_decomp_x_rh_no | false, true => glm_persp_decomp_x_rh_zo
  | true, false => glm_persp_decomp_x_lh_no | true, true => glm_persp_decomp_x_lh_zo end.
Definition decomp_y_fn (lh zo : bool) : fundef :=
  match lh, zo with
  | false, false => glm_persp_decomp_y_rh_no | false, true => glm_persp_decomp_y_rh_zo
  | true, false => glm_persp_decomp_y_lh_no | true, true => glm_persp_decomp_y_lh_zo end.
Definition decomp_z_fn (lh zo : bool) : fundef :=
  match lh, zo with
  | false, false => glm_persp_decomp_z_rh_no | false, true => glm_persp_decomp_z_rh_zo
  | true, false => glm_persp_decomp_z_lh_no | true, true => glm_persp_decomp_z_lh_zo end.
Definition decomp_near_fn (lh zo : bool) : fundef :=
  match lh, zo with
  | false, false => glm_persp_decomp_near_rh_no | false, true => glm_persp_decomp_near_rh_zo
  | true, false => glm_persp_decomp_near_lh_no | true, true => glm_persp_decomp_near_lh_zo end.
Definition decomp_far_fn (lh zo : bool) : fundef :=
  match lh, zo with
  | false, false => glm_persp_decomp_far_rh_no | false, true => glm_persp_decomp_far_rh_zo
  | true, false => glm_persp_decomp_far_lh_no | true, true => glm_persp_decomp_far_lh_zo end.
Definition sizes_fn (lh zo : bool) : fundef :=
  match lh, zo with
  | false, false => glm_persp_sizes_rh_no | false, true => glm_persp_sizes_rh_zo
  | true, false => glm_persp_sizes_lh_no | true, true => glm_persp_sizes_lh_zo end.
Definition fovy_fn (lh zo : bool) : fundef :=
  match lh, zo with
  | false, false => glm_persp_fovy_rh_no | false, true => glm_persp_fovy_rh_zo
  | true, false => glm_persp_fovy_lh_no | true, true => glm_persp_fovy_lh_zo end.
Definition aspect_fn (lh zo : bool) : fundef :=
  match lh, zo with
  | false, false => glm_persp_aspect_rh_no | false, true => glm_persp_aspect_rh_zo
  | true, false => glm_persp_aspect_lh_no | true, true => glm_persp_aspect_lh_zo end.
Definition lookat_fn (lh : bool) : fundef := if lh then glm_lookat_lh else glm_lookat_rh.
Definition look_fn (lh : bool) : fundef := if lh then glm_look_lh else glm_look_rh.
Definition look_anyup_fn (lh : bool) : fundef := if lh then glm_look_anyup_lh else glm_look_anyup_rh.
Definition project_fn (zo : bool) : fundef := if zo then glm_project_zo else glm_project_no.
Definition project_z_fn (zo : bool) : fundef := if zo then glm_project_z_zo else glm_project_z_no.
Definition unprojecti_fn (zo : bool) : fundef := if zo then glm_unprojecti_zo else glm_unprojecti_no.
