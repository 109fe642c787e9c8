(** C34: Project and unproject are inverse.

    Over the reals, for an invertible matrix and a viewport with non-zero size, glm_unprojecti
    of glm_project of a point (with non-zero clip w) is the point, in both depth conventions. *)

From Coq Require Import String List ZArith Bool Reals.
From Verif Require Import MiniC Contract RScalar Cglm.
From Verif.Spec Require Import Linear Geometry Affine Clip.
From Verif.Proofs Require Project.
Import ListNotations.
Local Open Scope list_scope.
Local Open Scope R_scope.

(** ** C34 *)
Theorem C34_project : forall zo p M vp, length p = 3%nat -> length M = 16%nat -> length vp = 4%nat -> at_ (clip M p) 3 <> 0 ->
  computes RS (project_fn zo) [InA (fl p); In (fl M); In (fl vp); Out 3] VVoid [fl (window zo vp (clip M p))] /\
  computes RS (project_z_fn zo) [In (fl p); In (fl M)] (VF (at_ (window zo vp (clip M p)) 2)) [].
Proof. exact Project.C34_project_ok. Qed.
Print Assumptions C34_project.

(** points of the plane at infinity of the view have no window coordinates *)
Theorem C34_no_image : forall zo p M vp, length p = 3%nat -> length M = 16%nat -> length vp = 4%nat -> at_ (clip M p) 3 = 0 ->
  aborts RS (project_fn zo) [InA (fl p); In (fl M); In (fl vp); Out 3] XFloatDomain /\
  aborts RS (project_z_fn zo) [In (fl p); In (fl M)] XFloatDomain.
Proof. exact Project.C34_no_image_ok. Qed.
Print Assumptions C34_no_image.

(** unprojecting with the inverse matrix undoes projection *)
Theorem C34_unprojecti : forall zo p M N vp, length p = 3%nat -> length M = 16%nat -> length N = 16%nat -> length vp = 4%nat ->
  mmul 4 N M = mid 4 -> at_ vp 2 <> 0 -> at_ vp 3 <> 0 -> at_ (clip M p) 3 <> 0 -> exists w, length w = 3%nat /\
  computes RS (project_fn zo) [InA (fl p); In (fl M); In (fl vp); Out 3] VVoid [fl w] /\
  computes RS (unprojecti_fn zo) [InA (fl w); In (fl N); In (fl vp); Out 3] VVoid [fl p].
Proof. exact Project.C34_unprojecti_ok. Qed.
Print Assumptions C34_unprojecti.

(** glm_unproject inverts the matrix itself (default clip convention) *)
Theorem C34_unproject : forall p M vp, length p = 3%nat -> length M = 16%nat -> length vp = 4%nat ->
  det 4 M <> 0 -> at_ vp 2 <> 0 -> at_ vp 3 <> 0 -> at_ (clip M p) 3 <> 0 -> exists w, length w = 3%nat /\
  computes RS glm_project [InA (fl p); In (fl M); In (fl vp); Out 3] VVoid [fl w] /\
  computes RS glm_unproject [InA (fl w); In (fl M); In (fl vp); Out 3] VVoid [fl p].
Proof. exact Project.C34_unproject_ok. Qed.
Print Assumptions C34_unproject.

Example C34_unproject_example : let M := [2;0;0;0; 0;1;0;0; 0;0;-2;-1; 0;0;-3;0] in let p := [1; 2; -5] in
  det 4 M <> 0 /\ at_ (clip M p) 3 <> 0.
Proof. exact Project.C34_unproject_ex. Qed.

(** the picking matrix maps the chosen rectangle of the window onto the whole clip square, and
    leaves depth and w alone *)
Theorem C34_pick : forall c s vp M v, length c = 2%nat -> length s = 2%nat -> length vp = 4%nat -> length v = 4%nat ->
  0 < at_ s 0 -> 0 < at_ s 1 -> at_ vp 2 <> 0 -> at_ vp 3 <> 0 -> at_ v 3 <> 0 -> length M = 16%nat -> exists P, length P = 16%nat /\
  computes RS glm_pickmatrix [In (fl c); In (fl s); In (fl vp); InOut (fl M)] VVoid [fl P] /\
  let w := window false vp v in let u := mvec 4 4 P v in
  at_ u 0 / at_ u 3 = 2 * (at_ w 0 - at_ c 0) / at_ s 0 /\
  at_ u 1 / at_ u 3 = 2 * (at_ w 1 - at_ c 1) / at_ s 1 /\ at_ u 2 = at_ v 2 /\ at_ u 3 = at_ v 3.
Proof. exact Project.C34_pick_ok. Qed.
Print Assumptions C34_pick.

(** an empty rectangle: nothing is written *)
Theorem C34_pick_empty : forall c s vp M, length c = 2%nat -> length s = 2%nat -> length vp = 4%nat -> length M = 16%nat ->
  at_ s 0 <= 0 \/ at_ s 1 <= 0 ->
  computes RS glm_pickmatrix [In (fl c); In (fl s); In (fl vp); InOut (fl M)] VVoid [fl M].
Proof. exact Project.C34_pick_empty_ok. Qed.
Print Assumptions C34_pick_empty.
