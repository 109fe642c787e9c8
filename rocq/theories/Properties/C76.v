(** C76: Ranges and monotonicity of scalar functions in single precision.

    In IEEE binary32: 13 easing functions and glm_clamp_zo take every float from 0 to 1 to a
    float from 0 to 1 and never decrease; glm_ease_quad_out, glm_ease_quad_inout,
    glm_ease_circ_out and glm_smooth stay from 0 to 1, although glm_smooth and
    glm_ease_quad_out decrease at some floats, and glm_ease_bounce_out exceeds 1. glm_clamp,
    glm_smoothstep and glm_percentc stay within their bounds for every binary32 argument, NaN
    and infinities included. glm_lerp is monotone in its parameter, starts at its first value
    and ends within 3*2^-24*(|a|+|b|) of its second, possibly beyond it. Degrees to radians and
    back (and the reverse) changes a number by at most 5 units of 2^-24. *)

From Coq Require Import String List ZArith Bool Reals.
From Verif Require Import MiniC Contract RScalar Cglm.
From Coq Require Import Reals Floats.SpecFloat.
From Verif Require Import B32.
From Verif.Spec Require Import Float32 Ranges.
From Verif.Spec Require Import Float32 Ranges.
From Verif.Spec Require Import Float32 Ranges.
From Verif.Proofs Require Ranges.
Import ListNotations.
Local Open Scope list_scope.
Local Open Scope R_scope.

(** these functions take numbers from 0 to 1 to numbers from 0 to 1 and never decrease *)
Theorem C76_ease_order : Forall (fun f => keeps_unit f /\ keeps_order f)
  [glm_ease_linear; glm_ease_quad_in; glm_ease_cubic_in; glm_ease_quart_in; glm_ease_quint_in; glm_ease_circ_in;
   glm_ease_cubic_out; glm_ease_quart_out; glm_ease_quint_out;
   glm_ease_cubic_inout; glm_ease_quart_inout; glm_ease_quint_inout; glm_ease_circ_inout; glm_clamp_zo].
Proof. exact Ranges.C76_ease_order_ok. Qed.
Print Assumptions C76_ease_order.

Example C76_ease_order_example : between 0 1 (b_lit 1 10) /\ between 0 1 (b_lit 1 3) /\ rval (b_lit 1 10) <= rval (b_lit 1 3).
Proof. exact Ranges.C76_ease_order_ex. Qed.

(** these stay from 0 to 1 as well, although some of them decrease here and there *)
Theorem C76_ease_range : Forall keeps_unit [glm_ease_quad_out; glm_ease_quad_inout; glm_ease_circ_out; glm_smooth].
Proof. exact Ranges.C76_ease_range_ok. Qed.
Print Assumptions C76_ease_range.

(** glm_smooth and glm_ease_quad_out decrease from these floats to the next *)
Theorem C76_smooth_order_refuted : exists s t x y, between 0 1 s /\ between 0 1 t /\ rval s < rval t /\ rval y < rval x /\
  forall l, computes (B32 l) glm_smooth [Val (VF s)] (VF x) [] /\ computes (B32 l) glm_smooth [Val (VF t)] (VF y) [].
Proof. exact Ranges.C76_smooth_order_refuted_ok. Qed.
Print Assumptions C76_smooth_order_refuted.

Theorem C76_quad_out_order_refuted : exists s t x y, between 0 1 s /\ between 0 1 t /\ rval s < rval t /\ rval y < rval x /\
  forall l, computes (B32 l) glm_ease_quad_out [Val (VF s)] (VF x) [] /\ computes (B32 l) glm_ease_quad_out [Val (VF t)] (VF y) [].
Proof. exact Ranges.C76_quad_out_order_refuted_ok. Qed.
Print Assumptions C76_quad_out_order_refuted.

(** glm_ease_bounce_out exceeds 1 at the float nearest to 4/11 *)
Theorem C76_bounce_range_refuted : exists t x, between 0 1 t /\ 1 < rval x /\ forall l, computes (B32 l) glm_ease_bounce_out [Val (VF t)] (VF x) [].
Proof. exact Ranges.C76_bounce_range_refuted_ok. Qed.
Print Assumptions C76_bounce_range_refuted.

(** all of these start at 0 and end at 1 *)
Theorem C76_ends : Forall keeps_ends
  [glm_ease_linear; glm_ease_quad_in; glm_ease_cubic_in; glm_ease_quart_in; glm_ease_quint_in; glm_ease_circ_in;
   glm_ease_quad_out; glm_ease_cubic_out; glm_ease_quart_out; glm_ease_quint_out; glm_ease_circ_out;
   glm_ease_quad_inout; glm_ease_cubic_inout; glm_ease_quart_inout; glm_ease_quint_inout; glm_ease_circ_inout; glm_smooth; glm_clamp_zo].
Proof. exact Ranges.C76_ends_ok. Qed.
Print Assumptions C76_ends.

(** for every binary32 value, NaN and infinities included, glm_clamp stays within the bounds *)
Theorem C76_clamp : forall l lo hi x, number lo -> number hi -> rval lo <= rval hi -> inb32 x = true ->
  exists r, computes (B32 l) glm_clamp [Val (VF x); Val (VF lo); Val (VF hi)] (VF r) [] /\ between (rval lo) (rval hi) r /\
    (number x -> rval r = Rmax (rval lo) (Rmin (rval x) (rval hi))).
Proof. exact Ranges.C76_clamp_ok. Qed.
Print Assumptions C76_clamp.

Example C76_clamp_example : number (b_lit (-1) 1) /\ number (b_lit 5 2) /\ rval (b_lit (-1) 1) <= rval (b_lit 5 2) /\ inb32 nan = true /\ inb32 (S754_infinity false) = true.
Proof. exact Ranges.C76_clamp_ex. Qed.

(** for all binary32 values, NaN and infinities and equal edges included *)
Theorem C76_smoothstep : forall l a b x, inb32 a = true -> inb32 b = true -> inb32 x = true ->
  (exists r, computes (B32 l) glm_smoothstep [Val (VF a); Val (VF b); Val (VF x)] (VF r) [] /\ between 0 1 r) /\
  (exists r, computes (B32 l) glm_percentc [Val (VF a); Val (VF b); Val (VF x)] (VF r) [] /\ between 0 1 r).
Proof. exact Ranges.C76_smoothstep_ok. Qed.
Print Assumptions C76_smoothstep.

Example C76_smoothstep_example : inb32 nan = true /\ inb32 b1 = true /\ inb32 (S754_infinity true) = true.
Proof. exact Ranges.C76_smoothstep_ex. Qed.

(** glm_lerp of numbers a <= b (or b <= a) does not decrease (or increase) with the parameter from 0 to 1,
    so it starts at [a] and never passes its value at 1, which is [b] up to rounding;
    glm_lerpc does so for every binary32 parameter *)
Theorem C76_lerp : forall a b, number a -> number b -> Rabs (rval a) <= powerRZ 2 126 -> Rabs (rval b) <= powerRZ 2 126 ->
  exists g : b32 -> b32, (forall l t, computes (B32 l) glm_lerp [Val (VF a); Val (VF b); Val (VF t)] (VF (g t)) []) /\
    (forall t, between 0 1 t -> number (g t)) /\ rval (g b0) = rval a /\ Rabs (rval (g b1) - rval b) <= 3 * u * (Rabs (rval a) + Rabs (rval b)) /\
    (rval a <= rval b -> forall s t, between 0 1 s -> between 0 1 t -> rval s <= rval t -> rval a <= rval (g s) <= rval (g t) /\ rval (g t) <= rval (g b1)) /\
    (rval b <= rval a -> forall s t, between 0 1 s -> between 0 1 t -> rval s <= rval t -> rval (g b1) <= rval (g t) /\ rval (g t) <= rval (g s) <= rval a) /\
    (forall l t, inb32 t = true -> exists t', between 0 1 t' /\ computes (B32 l) glm_lerpc [Val (VF a); Val (VF b); Val (VF t)] (VF (g t')) []).
Proof. exact Ranges.C76_lerp_ok. Qed.
Print Assumptions C76_lerp.

(** from 10 to 1/10 *)
Example C76_lerp_example : number (b_lit 10 1) /\ number (b_lit 1 10) /\ Rabs (rval (b_lit 10 1)) <= powerRZ 2 126 /\ Rabs (rval (b_lit 1 10)) <= powerRZ 2 126 /\ rval (b_lit 1 10) <= rval (b_lit 10 1).
Proof. exact Ranges.C76_lerp_ex. Qed.

(** the value at 1, and so values before it, may exceed both ends: -16777214, 1 *)
Theorem C76_lerp_range_refuted : exists a b x, number a /\ number b /\ rval a <= rval b /\ rval b < rval x /\
  forall l, computes (B32 l) glm_lerp [Val (VF a); Val (VF b); Val (VF b1)] (VF x) [].
Proof. exact Ranges.C76_lerp_range_refuted_ok. Qed.
Print Assumptions C76_lerp_range_refuted.

(** degrees to radians and back, or radians to degrees and back, is the same number within 5 units of 2^-24 *)
Theorem C76_degrees : forall l x, number x -> powerRZ 2 (-100) <= Rabs (rval x) -> Rabs (rval x) <= powerRZ 2 100 ->
  (exists r y, computes (B32 l) glm_rad [Val (VF x)] (VF r) [] /\ computes (B32 l) glm_deg [Val (VF r)] (VF y) [] /\ number y /\ Rabs (rval y - rval x) <= 5 * u * Rabs (rval x)) /\
  (exists r y, computes (B32 l) glm_deg [Val (VF x)] (VF r) [] /\ computes (B32 l) glm_rad [Val (VF r)] (VF y) [] /\ number y /\ Rabs (rval y - rval x) <= 5 * u * Rabs (rval x)).
Proof. exact Ranges.C76_degrees_ok. Qed.
Print Assumptions C76_degrees.

Example C76_degrees_example : number (b_lit 57 1) /\ powerRZ 2 (-100) <= Rabs (rval (b_lit 57 1)) /\ Rabs (rval (b_lit 57 1)) <= powerRZ 2 100.
Proof. exact Ranges.C76_degrees_ex. Qed.
