(** * Struct functions of the builds with fast math and with the default epsilon *)

From Coq Require Import List.
From Verif Require Import MiniC Contract.
From Verif.Config Require Import eps fast.
From Verif.Spec Require Export StructPass.
Import ListNotations.

(** struct function, array function it stands for, where the result is *)
Definition struct_config : list (fundef * fundef * result) := [
  (eps_glms_vec2_eq_eps, eps_glm_vec2_eq_eps, Returned);
  (eps_glms_vec2_eq_all, eps_glm_vec2_eq_all, Returned);
  (eps_glms_vec2_eqv_eps, eps_glm_vec2_eqv_eps, Returned);
  (eps_glms_vec3_eq_eps, eps_glm_vec3_eq_eps, Returned);
  (eps_glms_vec3_eq_all, eps_glm_vec3_eq_all, Returned);
  (eps_glms_vec3_eqv_eps, eps_glm_vec3_eqv_eps, Returned);
  (eps_glms_vec4_eq_eps, eps_glm_vec4_eq_eps, Returned);
  (eps_glms_vec4_eq_all, eps_glm_vec4_eq_all, Returned);
  (eps_glms_vec4_eqv_eps, eps_glm_vec4_eqv_eps, Returned);
  (eps_glms_uniscaled, eps_glm_uniscaled, Returned);
  (eps_glms_quat_from_vecs, eps_glm_quat_from_vecs, Dest 4);
  (fast_glms_vec2_isnan, fast_glm_vec2_isnan, Returned);
  (fast_glms_vec2_isinf, fast_glm_vec2_isinf, Returned);
  (fast_glms_vec2_isvalid, fast_glm_vec2_isvalid, Returned);
  (fast_glms_vec3_isnan, fast_glm_vec3_isnan, Returned);
  (fast_glms_vec3_isinf, fast_glm_vec3_isinf, Returned);
  (fast_glms_vec3_isvalid, fast_glm_vec3_isvalid, Returned);
  (fast_glms_vec4_isnan, fast_glm_vec4_isnan, Returned);
  (fast_glms_vec4_isinf, fast_glm_vec4_isinf, Returned);
  (fast_glms_vec4_isvalid, fast_glm_vec4_isvalid, Returned)
].
