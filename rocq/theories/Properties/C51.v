(** C51: Easing functions.

    Over the reals every glm_ease_*_in curve is the named curve and maps 0 to 0 and 1 to 1,
    every *_out curve is its mirror image 1-f(1-t), and every *_inout curve is the in-curve
    followed by its mirror image, joined continuously and point-symmetrically at (1/2,1/2); the
    exception is glm_ease_bounce_inout, which starts at 1/2 instead of 0 and jumps from 0 to
    1/2 at t=1/2. *)

From Coq Require Import String List ZArith Bool Reals.
From Verif Require Import MiniC Contract RScalar Cglm.
From Verif.Spec Require Import Linear Geometry Ease Client.
From Verif.Proofs Require Ease.
Import ListNotations.
Local Open Scope list_scope.
Local Open Scope R_scope.

Theorem C51_linear : forall t, computes RS glm_ease_linear [Val (VF t)] (VF t) [].
Proof. exact Ease.C51_linear_ok. Qed.
Print Assumptions C51_linear.

Theorem C51_powers : forall t,
  computes RS glm_ease_quad_in [Val (VF t)] (VF (power 2 t)) [] /\
  computes RS glm_ease_quad_out [Val (VF t)] (VF (mirrored (power 2) t)) [] /\
  computes RS glm_ease_quad_inout [Val (VF t)] (VF (glued (power 2) t)) [] /\
  computes RS glm_ease_cubic_in [Val (VF t)] (VF (power 3 t)) [] /\
  computes RS glm_ease_cubic_out [Val (VF t)] (VF (mirrored (power 3) t)) [] /\
  computes RS glm_ease_cubic_inout [Val (VF t)] (VF (glued (power 3) t)) [] /\
  computes RS glm_ease_quart_in [Val (VF t)] (VF (power 4 t)) [] /\
  computes RS glm_ease_quart_out [Val (VF t)] (VF (mirrored (power 4) t)) [] /\
  computes RS glm_ease_quart_inout [Val (VF t)] (VF (glued (power 4) t)) [] /\
  computes RS glm_ease_quint_in [Val (VF t)] (VF (power 5 t)) [] /\
  computes RS glm_ease_quint_out [Val (VF t)] (VF (mirrored (power 5) t)) [] /\
  computes RS glm_ease_quint_inout [Val (VF t)] (VF (glued (power 5) t)) [].
Proof. exact Ease.C51_powers_ok. Qed.
Print Assumptions C51_powers.

Theorem C51_sine : forall t,
  computes RS glm_ease_sine_in [Val (VF t)] (VF (sine t)) [] /\
  computes RS glm_ease_sine_out [Val (VF t)] (VF (mirrored sine t)) [] /\
  computes RS glm_ease_sine_inout [Val (VF t)] (VF (glued sine t)) [].
Proof. exact Ease.C51_sine_ok. Qed.
Print Assumptions C51_sine.

Theorem C51_circ : forall t,
  (-1 <= t <= 1 -> computes RS glm_ease_circ_in [Val (VF t)] (VF (circ t)) []) /\
  (0 <= t <= 2 -> computes RS glm_ease_circ_out [Val (VF t)] (VF (mirrored circ t)) []) /\
  (-1/2 <= t <= 3/2 -> computes RS glm_ease_circ_inout [Val (VF t)] (VF (glued circ t)) []).
Proof. exact Ease.C51_circ_ok. Qed.
Print Assumptions C51_circ.

Theorem C51_expo : forall t,
  computes RS glm_ease_exp_in [Val (VF t)] (VF (expo t)) [] /\
  computes RS glm_ease_exp_out [Val (VF t)] (VF (mirrored expo t)) [] /\
  computes RS glm_ease_exp_inout [Val (VF t)] (VF (glued expo t)) [].
Proof. exact Ease.C51_expo_ok. Qed.
Print Assumptions C51_expo.

Theorem C51_back : forall t,
  computes RS glm_ease_back_in [Val (VF t)] (VF (back overshoot t)) [] /\
  computes RS glm_ease_back_out [Val (VF t)] (VF (mirrored (back overshoot) t)) [] /\
  computes RS glm_ease_back_inout [Val (VF t)] (VF (glued (back (overshoot * 1525/1000)) t)) [].
Proof. exact Ease.C51_back_ok. Qed.
Print Assumptions C51_back.

Theorem C51_elast : forall t,
  computes RS glm_ease_elast_in [Val (VF t)] (VF (elast t)) [] /\
  computes RS glm_ease_elast_out [Val (VF t)] (VF (mirrored elast t)) [] /\
  computes RS glm_ease_elast_inout [Val (VF t)] (VF (glued elast t)) [].
Proof. exact Ease.C51_elast_ok. Qed.
Print Assumptions C51_elast.

Theorem C51_bounce : forall t,
  computes RS glm_ease_bounce_in [Val (VF t)] (VF (bounce t)) [] /\
  computes RS glm_ease_bounce_out [Val (VF t)] (VF (mirrored bounce t)) [] /\
  computes RS glm_ease_bounce_inout [Val (VF t)] (VF (if Rlt_dec t (1/2) then (1 - drop (2 * t)) / 2 else (1 + drop (2 * t - 1)) / 2)) [].
Proof. exact Ease.C51_bounce_ok. Qed.
Print Assumptions C51_bounce.

(** every curve starts at 0 and ends at 1; the symmetric ones pass through the middle *)
Theorem C51_ends : forall f, List.In f [sine; power 2; power 3; power 4; power 5; circ; expo; back overshoot; back (overshoot * 1525/1000); elast; bounce] ->
  f 0 = 0 /\ f 1 = 1 /\ mirrored f 0 = 0 /\ mirrored f 1 = 1 /\ glued f 0 = 0 /\ glued f 1 = 1 /\ glued f (1/2) = 1/2.
Proof. exact Ease.C51_ends_ok. Qed.
Print Assumptions C51_ends.

(** the symmetric curves are point-symmetric about the middle (in the middle itself by the previous theorem) *)
Theorem C51_symmetric : forall f t, t <> 1/2 -> glued f (1 - t) = 1 - glued f t.
Proof. exact Ease.C51_symmetric_ok. Qed.
Print Assumptions C51_symmetric.

Example C51_symmetric_example : 0 <> 1/2.
Proof. exact Ease.C51_symmetric_ex. Qed.

Theorem C51_join : forall f, List.In f [sine; power 2; power 3; power 4; power 5; circ; expo; back (overshoot * 1525/1000); elast; bounce] ->
  continuity_pt (glued f) (1/2).
Proof. exact Ease.C51_join_ok. Qed.
Print Assumptions C51_join.

(** ... but the symmetric bounce curve is not the bounce followed by its mirror image: it starts at 1/2, sinks to 0 and jumps back to 1/2 *)
Theorem C51_bounce_inout_refuted :
  computes RS glm_ease_bounce_inout [Val (VF 0)] (VF (1/2)) [] /\
  (exists t, ~ computes RS glm_ease_bounce_inout [Val (VF t)] (VF (glued bounce t)) []) /\
  ~ continuity_pt (fun t => if Rlt_dec t (1/2) then (1 - drop (2 * t)) / 2 else (1 + drop (2 * t - 1)) / 2) (1/2).
Proof. exact Ease.C51_bounce_inout_refuted_ok. Qed.
Print Assumptions C51_bounce_inout_refuted.
