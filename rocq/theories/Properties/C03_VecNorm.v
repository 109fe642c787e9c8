(** C03: Normalisation yields a unit vector or exactly zero.

    Over the reals glm_vecN_normalize and glm_vecN_normalize_to give, for a vector whose length
    is at least FLT_EPSILON, the positive multiple of it whose length is 1, and the zero vector
    otherwise; they never divide by zero, work in place, and normalising twice is the same as
    once; glm_vecN_scale_as gives the multiple of length |s| in the same way. *)

From Coq Require Import String List ZArith Bool Reals.
From Verif Require Import MiniC Contract RScalar Cglm.
From Verif.Spec Require Import Linear Client.
From Verif.Proofs Require VecNorm.
Import ListNotations.
Local Open Scope list_scope.
Local Open Scope R_scope.

Theorem C03_norm :
  (forall x, length x = 2%nat -> computes RS glm_vec2_norm [In (fl x)] (VF (norm x)) []) /\
  (forall x, length x = 3%nat -> computes RS glm_vec3_norm [In (fl x)] (VF (norm x)) []) /\
  (forall x, length x = 4%nat -> computes RS glm_vec4_norm [In (fl x)] (VF (norm x)) []) /\
  (forall x y, length x = 2%nat -> length y = 2%nat -> computes RS glm_vec2_distance [In (fl x); In (fl y)] (VF (norm (vsub x y))) []) /\
  (forall x y, length x = 3%nat -> length y = 3%nat -> computes RS glm_vec3_distance [In (fl x); In (fl y)] (VF (norm (vsub x y))) []) /\
  (forall x y, length x = 4%nat -> length y = 4%nat -> computes RS glm_vec4_distance [In (fl x); In (fl y)] (VF (norm (vsub x y))) []).
Proof. exact VecNorm.C03_norm_ok. Qed.
Print Assumptions C03_norm.

(** the destination may be the source *)
Theorem C03_normalize_to :
  (forall x, length x = 2%nat -> computes RS glm_vec2_normalize_to [InA (fl x); Out 2] VVoid [fl (normalized x)]) /\
  (forall x, length x = 3%nat -> computes RS glm_vec3_normalize_to [InA (fl x); Out 3] VVoid [fl (normalized x)]) /\
  (forall x, length x = 4%nat -> computes RS glm_vec4_normalize_to [InA (fl x); Out 4] VVoid [fl (normalized x)]).
Proof. exact VecNorm.C03_normalize_to_ok. Qed.
Print Assumptions C03_normalize_to.

Theorem C03_normalize :
  (forall x, length x = 2%nat -> computes RS glm_vec2_normalize [InOut (fl x)] VVoid [fl (normalized x)]) /\
  (forall x, length x = 3%nat -> computes RS glm_vec3_normalize [InOut (fl x)] VVoid [fl (normalized x)]) /\
  (forall x, length x = 4%nat -> computes RS glm_vec4_normalize [InOut (fl x)] VVoid [fl (normalized x)]).
Proof. exact VecNorm.C03_normalize_ok. Qed.
Print Assumptions C03_normalize.

Theorem C03_crossn : forall x y, length x = 3%nat -> length y = 3%nat ->
  computes RS glm_vec3_crossn [InA (fl x); InA (fl y); Out 3] VVoid [fl (normalized (vcross x y))].
Proof. exact VecNorm.C03_crossn_ok. Qed.
Print Assumptions C03_crossn.

(** what [normalized] is: unit length, same direction, idempotent; zero below the threshold *)
Theorem C03_unit : forall x,
  (eps <= norm x -> norm (normalized x) = 1 /\ map (fun a => norm x * a) (normalized x) = x /\ normalized (normalized x) = normalized x) /\
  (norm x < eps -> normalized x = repeat 0 (length x)).
Proof. exact VecNorm.C03_unit_ok. Qed.
Print Assumptions C03_unit.

Example C03_unit_example : eps <= norm [3; 4] /\ normalized [3; 4] = [3 / 5; 4 / 5].
Proof. exact VecNorm.C03_unit_ex. Qed.
