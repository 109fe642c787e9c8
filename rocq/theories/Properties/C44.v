(** C44: Scalar helpers.

    Over the reals glm_min, glm_max, glm_clamp are minimum, maximum, clamp (with minVal <=
    maxVal); glm_rad and glm_deg are inverse; glm_lerp is affine with the right endpoints;
    glm_smoothstep is 0 below, 1 above and monotone; glm_percent returns 1 for an empty range
    and the affine parameter otherwise. *)

From Coq Require Import String List ZArith Bool Reals.
From Verif Require Import MiniC Contract RScalar Cglm.
From Verif.Spec Require Import Linear Geometry ScalarSpec Client.
From Verif.Proofs Require Util.
Import ListNotations.
Local Open Scope list_scope.
Local Open Scope R_scope.

(** ** C44 *)
Theorem C44_minmax : forall a b,
  computes RS glm_min [Val (VF a); Val (VF b)] (VF (Rmin a b)) [] /\
  computes RS glm_max [Val (VF a); Val (VF b)] (VF (Rmax a b)) [].
Proof. exact Util.C44_minmax_ok. Qed.
Print Assumptions C44_minmax.

Theorem C44_clamp : forall x lo hi, lo <= hi ->
  computes RS glm_clamp [Val (VF x); Val (VF lo); Val (VF hi)] (VF (clamped lo hi x)) [] /\
  lo <= clamped lo hi x <= hi /\ (forall y, lo <= y <= hi -> Rabs (x - clamped lo hi x) <= Rabs (x - y)).
Proof. exact Util.C44_clamp_ok. Qed.
Print Assumptions C44_clamp.

Example C44_clamp_example : 0 <= 1.
Proof. exact Util.C44_clamp_ex. Qed.

Theorem C44_clamp_zo : forall x, computes RS glm_clamp_zo [Val (VF x)] (VF (clamped 0 1 x)) [].
Proof. exact Util.C44_clamp_zo_ok. Qed.
Print Assumptions C44_clamp_zo.

Theorem C44_sign : forall x, computes RS glm_signf [Val (VF x)] (VF (sgn x)) [].
Proof. exact Util.C44_sign_ok. Qed.
Print Assumptions C44_sign.

Theorem C44_pow2 : forall x, computes RS glm_pow2 [Val (VF x)] (VF (x * x)) [].
Proof. exact Util.C44_pow2_ok. Qed.
Print Assumptions C44_pow2.

(** degrees and radians *)
Theorem C44_rad : forall x,
  computes RS glm_rad [Val (VF x)] (VF (x * PI / 180)) [] /\
  computes RS glm_deg [Val (VF x)] (VF (x * 180 / PI)) [] /\
  computes RS glm_make_rad [InOut (fl [x])] VVoid [fl [x * PI / 180]] /\
  computes RS glm_make_deg [InOut (fl [x])] VVoid [fl [x * 180 / PI]] /\
  (x * PI / 180) * 180 / PI = x /\ (x * 180 / PI) * PI / 180 = x.
Proof. exact Util.C44_rad_ok. Qed.
Print Assumptions C44_rad.

(** affine interpolation *)
Theorem C44_lerp : forall a b t,
  computes RS glm_lerp [Val (VF a); Val (VF b); Val (VF t)] (VF ((1 - t) * a + t * b)) [] /\
  computes RS glm_lerpc [Val (VF a); Val (VF b); Val (VF t)] (VF ((1 - clamped 0 1 t) * a + clamped 0 1 t * b)) [].
Proof. exact Util.C44_lerp_ok. Qed.
Print Assumptions C44_lerp.

Theorem C44_step : forall e x, computes RS glm_step [Val (VF e); Val (VF x)] (VF (if Rlt_dec x e then 0 else 1)) [].
Proof. exact Util.C44_step_ok. Qed.
Print Assumptions C44_step.

Theorem C44_smoothstep : forall a b x, a < b ->
  computes RS glm_smoothstep [Val (VF a); Val (VF b); Val (VF x)] (VF (smooth01 (clamped 0 1 ((x - a) / (b - a))))) [] /\
  (x <= a -> smooth01 (clamped 0 1 ((x - a) / (b - a))) = 0) /\
  (b <= x -> smooth01 (clamped 0 1 ((x - a) / (b - a))) = 1) /\
  (forall y, x <= y -> smooth01 (clamped 0 1 ((x - a) / (b - a))) <= smooth01 (clamped 0 1 ((y - a) / (b - a)))).
Proof. exact Util.C44_smoothstep_ok. Qed.
Print Assumptions C44_smoothstep.

Example C44_smoothstep_example : 1 < 3 /\ smooth01 (clamped 0 1 ((2 - 1) / (3 - 1))) = 1 / 2.
Proof. exact Util.C44_smoothstep_ex. Qed.

(** an empty range: division by zero *)
Theorem C44_smoothstep_empty : forall a x, aborts RS glm_smoothstep [Val (VF a); Val (VF a); Val (VF x)] XFloatDomain.
Proof. exact Util.C44_smoothstep_empty_ok. Qed.
Print Assumptions C44_smoothstep_empty.

Theorem C44_smooth : forall a b t,
  computes RS glm_smooth [Val (VF t)] (VF (smooth01 t)) [] /\
  computes RS glm_smoothinterp [Val (VF a); Val (VF b); Val (VF t)] (VF (a + smooth01 t * (b - a))) [] /\
  computes RS glm_smoothinterpc [Val (VF a); Val (VF b); Val (VF t)] (VF (a + smooth01 (clamped 0 1 t) * (b - a))) [].
Proof. exact Util.C44_smooth_ok. Qed.
Print Assumptions C44_smooth.

(** position in a range; 1 for an empty range *)
Theorem C44_percent : forall a b x,
  computes RS glm_percent [Val (VF a); Val (VF b); Val (VF x)] (VF (if Req_EM_T a b then 1 else (x - a) / (b - a))) [] /\
  computes RS glm_percentc [Val (VF a); Val (VF b); Val (VF x)] (VF (if Req_EM_T a b then 1 else clamped 0 1 ((x - a) / (b - a)))) [].
Proof. exact Util.C44_percent_ok. Qed.
Print Assumptions C44_percent.

Theorem C44_swapf : forall (S : Scalar) (a b : T S), computes S glm_swapf [InOut (fl [a]); InOut (fl [b])] VVoid [fl [b]; fl [a]].
Proof. exact Util.C44_swapf_ok. Qed.
Print Assumptions C44_swapf.
