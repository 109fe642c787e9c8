(** C65: Clip-space configurations.

    In each of the four builds selected by CGLM_FORCE_LEFT_HANDED and
    CGLM_FORCE_DEPTH_ZERO_TO_ONE every projection, view, decomposition and projection-of-point
    function without a suffix (and its struct counterpart) has exactly the effect of the
    function that names the convention, and glm_unproject undoes glm_project for every
    invertible matrix. frustum.h does not follow the depth range: with depth 0 to 1 the six
    planes still contain the whole view volume but let in points outside it, and the near
    corners are wrong. *)

From Coq Require Import String List ZArith Bool Reals.
From Verif Require Import MiniC Contract RScalar Cglm.
From Verif Require B32.
From Verif.Config Require Import fast eps.
From Verif.Spec Require Import Linear Geometry Affine Clip Frustum Close Quaternion ClipConfig.
From Verif.Spec Require Import Linear Geometry Affine Clip Frustum Close Quaternion ClipConfig.
From Verif.Spec Require Import Linear Geometry Affine Clip Frustum Close Quaternion ClipConfig.
From Verif.Proofs Require Config.
Import ListNotations.
Local Open Scope list_scope.
Local Open Scope R_scope.

(** in each build the functions of cam.h, project.h and euler.h without suffix have exactly the
    effect of those that name the convention *)
Theorem C65_clip : forall lh zo, Forall (fun p => same_effect (fst p) (snd p)) (clip_config lh zo).
Proof. exact Config.C65_clip_ok. Qed.
Print Assumptions C65_clip.

Example C65_clip_example : forall lh zo, length (clip_config lh zo) = 31%nat.
Proof. exact Config.C65_clip_ex. Qed.

(** the struct functions likewise *)
Theorem C65_struct : forall lh zo, Forall (fun p => stands_for (fst p) (snd p)) (struct_config lh zo).
Proof. exact Config.C65_struct_ok. Qed.
Print Assumptions C65_struct.

Example C65_struct_example : forall lh zo, length (struct_config lh zo) = 25%nat.
Proof. exact Config.C65_struct_ex. Qed.

Theorem C65_struct_through : forall lh zo, Forall (fun t => transfers (fst (fst t)) (snd (fst t)) (snd t)) (struct_through lh zo).
Proof. exact Config.C65_struct_through_ok. Qed.
Print Assumptions C65_struct_through.

Example C65_struct_through_example : length (struct_through true true) = 9%nat.
Proof. exact Config.C65_struct_through_ex. Qed.

Theorem C65_unproject : forall lh zo p M vp, length p = 3%nat -> length M = 16%nat -> length vp = 4%nat ->
  det 4 M <> 0 -> at_ vp 2 <> 0 -> at_ vp 3 <> 0 -> at_ (clip M p) 3 <> 0 -> exists w, length w = 3%nat /\
  computes RS (project_in lh zo) [InA (fl p); In (fl M); In (fl vp); Out 3] VVoid [fl w] /\
  computes RS (unproject_in lh zo) [InA (fl w); In (fl M); In (fl vp); Out 3] VVoid [fl p].
Proof. exact Config.C65_unproject_ok. Qed.
Print Assumptions C65_unproject.

Example C65_unproject_example : let M := [2;0;0;0; 0;1;0;0; 0;0;-2;-1; 0;0;-3;0] in let p := [1; 2; -5] in
  det 4 M <> 0 /\ at_ (clip M p) 3 <> 0.
Proof. exact Config.C65_unproject_ex. Qed.

(** frustum.h does not follow the depth range: in the build with depth from 0 to 1 the near corners
    of the frustum of an orthographic matrix of that same build lie behind the viewer *)
Theorem C65_corners_refuted : exists M N ps, mmul 4 M N = mid 4 /\
  computes RS rh_zo_glm_ortho [Val (VF (-1)); Val (VF 1); Val (VF (-1)); Val (VF 1); Val (VF 1); Val (VF 3); Out 16] VVoid [fl M] /\
  computes RS glm_frustum_corners [In (fl N); Out 32] VVoid [fl ps] /\
  ahead false (firstn 3 ps) = -1 /\ ~ in_clip true (clip M (firstn 3 ps)).
Proof. exact Config.C65_corners_refuted_ok. Qed.
Print Assumptions C65_corners_refuted.

(** nor do the planes: a point in front of all six extracted planes need not be in the view volume
    (though every point of the view volume is in front of them) *)
Theorem C65_planes : forall M, length M = 16%nat -> (forall j, (j < 6)%nat -> eps <= norm (firstn 3 (clip_plane M j))) ->
  exists q : list (list R), length q = 6%nat /\ computes RS glm_frustum_planes [In (fl M); Out 24] VVoid [fl (concat q)] /\
  forall p, length p = 3%nat -> in_clip true (clip M p) -> forall j, (j < 6)%nat -> on_side (nth j q []) p.
Proof. exact Config.C65_planes_ok. Qed.
Print Assumptions C65_planes.

Theorem C65_planes_refuted : exists M p q, length q = 6%nat /\
  computes RS rh_zo_glm_ortho [Val (VF (-1)); Val (VF 1); Val (VF (-1)); Val (VF 1); Val (VF 1); Val (VF 3); Out 16] VVoid [fl M] /\
  computes RS glm_frustum_planes [In (fl M); Out 24] VVoid [fl (concat q)] /\
  (forall j, (j < 6)%nat -> on_side (nth j q []) p) /\ ~ in_clip true (clip M p).
Proof. exact Config.C65_planes_refuted_ok. Qed.
Print Assumptions C65_planes_refuted.

Example C65_planes_example : let M := [1;0;0;0; 0;1;0;0; 0;0;-(1/2);0; 0;0;-(1/2);1] in
  (forall j, (j < 6)%nat -> eps <= norm (firstn 3 (clip_plane M j))) /\ in_clip true (clip M [0; 0; -2]).
Proof. exact Config.C65_planes_ex. Qed.
