(** C31: Projection matrices map the view volume to the clip volume.

    Over the reals, in each of the four clip conventions, glm_ortho_* is the affine map taking
    the box onto the clip volume; glm_perspective_* and the right-handed glm_frustum_* map near
    and far planes to the documented depth values and exactly the view frustum to the clip
    volume. The left-handed glm_frustum_lh_* map the mirror image of the requested frustum
    (left/right and bottom/top exchanged in sign), so they are right only for centred frusta. *)

From Coq Require Import String List ZArith Bool Reals.
From Verif Require Import MiniC Contract RScalar Cglm.
From Verif.Spec Require Import Linear Geometry Clip.
From Verif.Spec Require Import Linear Geometry Clip.
From Verif.Proofs Require Cam.
Import ListNotations.
Local Open Scope list_scope.
Local Open Scope R_scope.

(** the orthographic matrix is the affine map taking the box onto the clip volume *)
Theorem C31_ortho : forall lh zo l r b t n f, l < r -> b < t -> n < f ->
  exists M, length M = 16%nat /\
  computes RS (ortho_fn lh zo) [Val (VF l); Val (VF r); Val (VF b); Val (VF t); Val (VF n); Val (VF f); Out 16] VVoid [fl M] /\
  forall p, length p = 3%nat ->
    at_ (clip M p) 0 = 2 * (at_ p 0 - l) / (r - l) - 1 /\ at_ (clip M p) 1 = 2 * (at_ p 1 - b) / (t - b) - 1 /\
    at_ (clip M p) 3 = 1 /\
    (ahead lh p = n -> at_ (clip M p) 2 = near_depth zo 1) /\ (ahead lh p = f -> at_ (clip M p) 2 = 1) /\
    (in_clip zo (clip M p) <-> in_box l r b t n f (at_ p 0) (at_ p 1) (ahead lh p)).
Proof. exact Cam.C31_ortho_ok. Qed.
Print Assumptions C31_ortho.

(** an empty range is a division by zero *)
Theorem C31_degenerate : forall lh zo l r b t n f, l = r \/ b = t \/ n = f ->
  aborts RS (ortho_fn lh zo) [Val (VF l); Val (VF r); Val (VF b); Val (VF t); Val (VF n); Val (VF f); Out 16] XFloatDomain /\
  aborts RS (frustum_fn lh zo) [Val (VF l); Val (VF r); Val (VF b); Val (VF t); Val (VF n); Val (VF f); Out 16] XFloatDomain.
Proof. exact Cam.C31_degenerate_ok. Qed.
Print Assumptions C31_degenerate.

(** right-handed: w is the distance, the clip volume is the image of the frustum, near and far
    planes get the documented depths and the side planes go to |x| = w, |y| = w *)
Theorem C31_frustum_rh : forall zo l r b t n f, l < r -> b < t -> 0 < n -> n < f ->
  exists M, length M = 16%nat /\
  computes RS (frustum_fn false zo) [Val (VF l); Val (VF r); Val (VF b); Val (VF t); Val (VF n); Val (VF f); Out 16] VVoid [fl M] /\
  forall p, length p = 3%nat -> let d := ahead false p in let c := clip M p in let x := at_ p 0 in let y := at_ p 1 in
    at_ c 3 = d /\ (in_clip zo c <-> in_frustum l r b t n f x y d) /\
    (d = n -> at_ c 2 = near_depth zo d) /\ (d = f -> at_ c 2 = d) /\
    (n * x = l * d -> at_ c 0 = - d) /\ (n * x = r * d -> at_ c 0 = d) /\
    (n * y = b * d -> at_ c 1 = - d) /\ (n * y = t * d -> at_ c 1 = d).
Proof. exact Cam.C31_frustum_rh_ok. Qed.
Print Assumptions C31_frustum_rh.

(** left-handed: the mirror image of the requested frustum, in x and in y, is what is mapped to
    the clip volume ... *)
Theorem C31_frustum_lh : forall zo l r b t n f, l < r -> b < t -> 0 < n -> n < f ->
  exists M, length M = 16%nat /\
  computes RS (frustum_fn true zo) [Val (VF l); Val (VF r); Val (VF b); Val (VF t); Val (VF n); Val (VF f); Out 16] VVoid [fl M] /\
  forall p, length p = 3%nat -> let d := ahead true p in let c := clip M p in let x := at_ p 0 in let y := at_ p 1 in
    at_ c 3 = d /\ (in_clip zo c <-> in_frustum (- r) (- l) (- t) (- b) n f x y d) /\
    (d = n -> at_ c 2 = near_depth zo d) /\ (d = f -> at_ c 2 = d).
Proof. exact Cam.C31_frustum_lh_ok. Qed.
Print Assumptions C31_frustum_lh.

(** ... so for an off-centre frustum it is wrong *)
Theorem C31_frustum_lh_refuted : forall zo, exists l r b t n f M p, l < r /\ b < t /\ 0 < n /\ n < f /\ length p = 3%nat /\ length M = 16%nat /\
  computes RS (frustum_fn true zo) [Val (VF l); Val (VF r); Val (VF b); Val (VF t); Val (VF n); Val (VF f); Out 16] VVoid [fl M] /\
  in_frustum l r b t n f (at_ p 0) (at_ p 1) (ahead true p) /\ ~ in_clip zo (clip M p).
Proof. exact Cam.C31_frustum_lh_refuted_ok. Qed.
Print Assumptions C31_frustum_lh_refuted.

(** the perspective matrix: the symmetric frustum with vertical opening angle [fovy] *)
Theorem C31_perspective : forall lh zo fovy a n f, 0 < fovy < PI -> 0 < a -> 0 < n -> n < f ->
  exists M, length M = 16%nat /\
  computes RS (perspective_fn lh zo) [Val (VF fovy); Val (VF a); Val (VF n); Val (VF f); Out 16] VVoid [fl M] /\
  let t := n * tan (fovy / 2) in let r := a * t in
  computes RS (frustum_fn lh zo) [Val (VF (- r)); Val (VF r); Val (VF (- t)); Val (VF t); Val (VF n); Val (VF f); Out 16] VVoid [fl M] /\
  forall p, length p = 3%nat -> let d := ahead lh p in let c := clip M p in let x := at_ p 0 in let y := at_ p 1 in
    at_ c 3 = d /\ (in_clip zo c <-> in_frustum (- r) r (- t) t n f x y d) /\
    (d = n -> at_ c 2 = near_depth zo d) /\ (d = f -> at_ c 2 = d).
Proof. exact Cam.C31_perspective_ok. Qed.
Print Assumptions C31_perspective.

Example C31_perspective_example : 0 < 1 < PI.
Proof. exact Cam.C31_perspective_ex. Qed.

(** the functions with default parameters *)
Theorem C31_defaults : forall lh zo a s, 0 < a ->
  let w := if Rle_dec 1 a then a else 1 in let h := if Rle_dec 1 a then 1 else 1 / a in
  (exists M, length M = 16%nat /\ computes RS (ortho_default_fn lh zo) [Val (VF a); Out 16] VVoid [fl M] /\
     computes RS (ortho_fn lh zo) [Val (VF (- w)); Val (VF w); Val (VF (- h)); Val (VF h); Val (VF (-100)); Val (VF 100); Out 16] VVoid [fl M]) /\
  (0 < s -> exists M, length M = 16%nat /\ computes RS (ortho_default_s_fn lh zo) [Val (VF a); Val (VF s); Out 16] VVoid [fl M] /\
     computes RS (ortho_fn lh zo) [Val (VF (- (s * w))); Val (VF (s * w)); Val (VF (- (s * h))); Val (VF (s * h)); Val (VF (- s - 100)); Val (VF (s + 100)); Out 16] VVoid [fl M]) /\
  (exists M, length M = 16%nat /\ computes RS (persp_default_fn lh zo) [Val (VF a); Out 16] VVoid [fl M] /\
     computes RS (perspective_fn lh zo) [Val (VF (PI / 4)); Val (VF a); Val (VF (1 / 100)); Val (VF 100); Out 16] VVoid [fl M]).
Proof. exact Cam.C31_defaults_ok. Qed.
Print Assumptions C31_defaults.

(** changing the aspect ratio and the far plane of a perspective matrix *)
Theorem C31_resize : forall lh zo fovy a a' n f, 0 < fovy < PI -> 0 < a -> 0 < a' -> 0 < n -> n < f ->
  exists M M', length M = 16%nat /\ length M' = 16%nat /\
  computes RS (perspective_fn lh zo) [Val (VF fovy); Val (VF a); Val (VF n); Val (VF f); Out 16] VVoid [fl M] /\
  computes RS (perspective_fn lh zo) [Val (VF fovy); Val (VF a'); Val (VF n); Val (VF f); Out 16] VVoid [fl M'] /\
  computes RS (persp_resize_fn lh zo) [Val (VF a'); InOut (fl M)] VVoid [fl M'].
Proof. exact Cam.C31_resize_ok. Qed.
Print Assumptions C31_resize.
