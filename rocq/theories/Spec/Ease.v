(** * Easing curves *)

From Coq Require Import Reals.
Local Open Scope R_scope.

(** an "in" curve played backwards, and an "in" curve followed by its mirror image *)
Definition mirrored (f : R -> R) (t : R) : R := 1 - f (1 - t).
Definition glued (f : R -> R) (t : R) : R := if Rlt_dec t (1/2) then f (2 * t) / 2 else (1 + mirrored f (2 * t - 1)) / 2.

Definition sine (t : R) : R := 1 - cos (PI / 2 * t).
Definition power (n : nat) (t : R) : R := t ^ n.
Definition circ (t : R) : R := 1 - sqrt (1 - t * t).
Definition expo (t : R) : R := if Req_EM_T t 0 then 0 else Rpower 2 (10 * (t - 1)).
Definition back (o t : R) : R := t * t * ((o + 1) * t - o).
Definition elast (t : R) : R := sin (13 * PI / 2 * t) * Rpower 2 (10 * (t - 1)).
(** a ball dropped at 0 that touches the ground (height 1) at 4/11, 8/11, 9/10 and 1: four parabolas *)
Definition drop (t : R) : R :=
  if Rlt_dec t (4/11) then 121/16 * t ^ 2 else
  if Rlt_dec t (8/11) then 1 + 363/40 * (t - 4/11) * (t - 8/11) else
  if Rlt_dec t (9/10) then 1 + 4356/361 * (t - 8/11) * (t - 9/10) else
  1 + 54/5 * (t - 9/10) * (t - 1).
Definition bounce : R -> R := mirrored drop.
Definition overshoot : R := 170158 / 100000.
