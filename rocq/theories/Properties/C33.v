(** C33: Orthographic projection of a bounding box.

    Over the reals glm_ortho_aabb_rh_* maps the box onto the clip volume; glm_ortho_aabb_lh_*
    use the right-handed depth range, so a box in front of a left-handed viewer is not mapped
    into the clip volume. *)

From Coq Require Import String List ZArith Bool Reals.
From Verif Require Import MiniC Contract RScalar Cglm.
From Verif.Spec Require Import Linear Geometry Clip.
From Verif.Spec Require Import Linear Geometry Clip.
From Verif.Proofs Require Cam.
Import ListNotations.
Local Open Scope list_scope.
Local Open Scope R_scope.

(** Right-handed: the box is exactly the part of space mapped into the clip volume.  Left-handed:
    it is the mirror image of the box behind the viewer. *)
Theorem C33_volume : forall lh zo lo hi, length lo = 3%nat -> length hi = 3%nat -> at_ lo 0 < at_ hi 0 -> at_ lo 1 < at_ hi 1 -> at_ lo 2 < at_ hi 2 ->
  exists M, length M = 16%nat /\ computes RS (ortho_aabb_fn lh zo) [In (fl (lo ++ hi)); Out 16] VVoid [fl M] /\
  forall p, length p = 3%nat -> (in_clip zo (clip M p) <->
    at_ lo 0 <= at_ p 0 <= at_ hi 0 /\ at_ lo 1 <= at_ p 1 <= at_ hi 1 /\
    at_ lo 2 <= (if lh then - at_ p 2 else at_ p 2) <= at_ hi 2).
Proof. exact Cam.C33_volume_ok. Qed.
Print Assumptions C33_volume.

(** the padded forms: the box grown by the padding in every direction, or in depth only *)
Theorem C33_padded : forall lh zo (all : bool) lo hi e, length lo = 3%nat -> length hi = 3%nat -> at_ lo 0 < at_ hi 0 -> at_ lo 1 < at_ hi 1 -> at_ lo 2 < at_ hi 2 ->
  0 <= e ->
  exists M, length M = 16%nat /\
  computes RS ((if all then ortho_aabb_p_fn else ortho_aabb_pz_fn) lh zo) [In (fl (lo ++ hi)); Val (VF e); Out 16] VVoid [fl M] /\
  forall p, length p = 3%nat -> (in_clip zo (clip M p) <->
    let g := if all then e else 0 in
    at_ lo 0 - g <= at_ p 0 <= at_ hi 0 + g /\ at_ lo 1 - g <= at_ p 1 <= at_ hi 1 + g /\
    at_ lo 2 - e <= (if lh then - at_ p 2 else at_ p 2) <= at_ hi 2 + e).
Proof. exact Cam.C33_padded_ok. Qed.
Print Assumptions C33_padded.

(** so a box wholly in front of a left-handed viewer is wholly clipped away *)
Theorem C33_lh_refuted : exists lo hi M, at_ lo 0 < at_ hi 0 /\ at_ lo 1 < at_ hi 1 /\ 0 < at_ lo 2 < at_ hi 2 /\
  computes RS glm_ortho_aabb_lh_zo [In (fl (lo ++ hi)); Out 16] VVoid [fl M] /\
  forall p, length p = 3%nat -> (forall i, (i < 3)%nat -> at_ lo i <= at_ p i <= at_ hi i) -> ~ in_clip true (clip M p).
Proof. exact Cam.C33_lh_refuted_ok. Qed.
Print Assumptions C33_lh_refuted.

Example C33_volume_example : let lo := [-1; 2; -5] in let hi := [3; 4; -1] in
  length lo = 3%nat /\ length hi = 3%nat /\ at_ lo 0 < at_ hi 0 /\ at_ lo 1 < at_ hi 1 /\ at_ lo 2 < at_ hi 2.
Proof. exact Cam.C33_volume_ex. Qed.
