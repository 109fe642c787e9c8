(** * Relative accuracy in single precision *)

From Coq Require Import List ZArith Reals Floats.SpecFloat.
From Verif Require Import MiniC Contract B32 RScalar Cglm.
From Verif.Spec Require Import Float32.
Import ListNotations.
Local Open Scope R_scope.

(** zero or of magnitude from 2^-30 to 2^30 *)
Definition ordinary (x : b32) : Prop := number x /\ (rval x = 0 \/ powerRZ 2 (-30) <= Rabs (rval x) <= powerRZ 2 30).
(** each float within [e] (relatively) of the real; zero where the real is zero *)
Definition accurate_to (e : R) (xs : list b32) (rs : list R) : Prop := Forall2 (fun x r => number x /\ Rabs (rval x - r) <= e * Rabs r) xs rs.
(** the orthographic and perspective projections given by the six sides of the volume *)
Definition volume_projections : list fundef :=
  [glm_ortho_rh_no; glm_ortho_rh_zo; glm_ortho_lh_no; glm_ortho_lh_zo; glm_frustum_rh_no; glm_frustum_rh_zo; glm_frustum_lh_no; glm_frustum_lh_zo].
(** [tanf] within 2^-23, relatively, from 2^-31 to 3/2 *)
Definition tan_accurate (l : libm) : Prop :=
  forall x, number x -> powerRZ 2 (-31) <= rval x <= 3 / 2 -> number (l1 l OTan x) /\ Rabs (rval (l1 l OTan x) - tan (rval x)) <= 2 * u * tan (rval x).
Definition view_projections : list fundef := [glm_perspective_rh_no; glm_perspective_rh_zo; glm_perspective_lh_no; glm_perspective_lh_zo].
