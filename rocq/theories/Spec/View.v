(** * The view functions named after a clip convention (C30) *)

From Coq Require Import List.
From Verif Require Import MiniC Cglm.
From Verif.Spec Require Import Types.
Import ListNotations.

(** the depth range makes no difference for them *)
Definition view_variants : list (fundef * fundef * list param) :=
  let p3 := [Reads Flt 3; Reads Flt 3; Reads Flt 3; Writes 16] in
  let p2 := [Reads Flt 3; Reads Flt 3; Writes 16] in
  [ (glm_lookat_lh_no, glm_lookat_lh, p3); (glm_lookat_lh_zo, glm_lookat_lh, p3);
    (glm_lookat_rh_no, glm_lookat_rh, p3); (glm_lookat_rh_zo, glm_lookat_rh, p3);
    (glm_look_lh_no, glm_look_lh, p3); (glm_look_lh_zo, glm_look_lh, p3);
    (glm_look_rh_no, glm_look_rh, p3); (glm_look_rh_zo, glm_look_rh, p3);
    (glm_look_anyup_lh_no, glm_look_anyup_lh, p2); (glm_look_anyup_lh_zo, glm_look_anyup_lh, p2);
    (glm_look_anyup_rh_no, glm_look_anyup_rh, p2); (glm_look_anyup_rh_zo, glm_look_anyup_rh, p2);
    (glm_lookat, glm_lookat_rh, p3); (glm_look, glm_look_rh, p3); (glm_look_anyup, glm_look_anyup_rh, p2) ].
