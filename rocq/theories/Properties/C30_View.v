(** C30: Look-at view matrices.

    Over the reals, when centre differs from eye and up is not parallel to the direction
    (lengths above threshold), glm_lookat_rh/lh give a rigid transform that sends the eye to
    the origin and the viewing direction to -Z (rh) or +Z (lh), with up in the upper half of
    the YZ plane. The functions whose names carry a depth range, and the default ones, have the
    same outcome as these for every scalar type, argument and address. *)

From Coq Require Import String List ZArith Bool Reals.
From Verif Require Import MiniC Contract RScalar Cglm.
From Verif.Spec Require Import Linear Geometry Affine Clip.
From Verif.Proofs Require View.
Import ListNotations.
Local Open Scope list_scope.
Local Open Scope R_scope.

Theorem C30_lookat : forall (lh : bool) eye center up, length eye = 3%nat -> length center = 3%nat -> length up = 3%nat ->
  let dir := vsub center eye in eps <= norm dir -> eps <= norm (vcross (normalized dir) up) ->
  exists r t, length r = 9%nat /\ let M := aff r t in
  computes RS (lookat_fn lh) [In (fl eye); In (fl center); In (fl up); Out 16] VVoid [fl M] /\
  rotation r /\ moves M eye [0; 0; 0] /\ moves M center [0; 0; if lh then norm dir else - norm dir] /\
  exists y z, mvec 3 3 r up = [0; y; z] /\ 0 < y.
Proof. exact View.C30_lookat_ok. Qed.
Print Assumptions C30_lookat.

(** the same from a direction instead of a centre *)
Theorem C30_look : forall (lh : bool) eye dir up, length eye = 3%nat -> length dir = 3%nat -> length up = 3%nat ->
  eps <= norm dir -> eps <= norm (vcross (normalized dir) up) ->
  exists r t, length r = 9%nat /\ let M := aff r t in
  computes RS (look_fn lh) [In (fl eye); In (fl dir); In (fl up); Out 16] VVoid [fl M] /\
  rotation r /\ moves M eye [0; 0; 0] /\ moves M (vadd eye dir) [0; 0; if lh then norm dir else - norm dir] /\
  exists y z, mvec 3 3 r up = [0; y; z] /\ 0 < y.
Proof. exact View.C30_look_ok. Qed.
Print Assumptions C30_look.

Theorem C30_anyup : forall (lh : bool) eye dir, length eye = 3%nat -> length dir = 3%nat -> norm2 dir = 1 ->
  exists r t, length r = 9%nat /\ let M := aff r t in
  computes RS (look_anyup_fn lh) [In (fl eye); In (fl dir); Out 16] VVoid [fl M] /\
  rotation r /\ moves M eye [0; 0; 0] /\ moves M (vadd eye dir) [0; 0; if lh then 1 else - 1].
Proof. exact View.C30_anyup_ok. Qed.
Print Assumptions C30_anyup.

(** with coinciding points, or [up] along the direction of view, the matrix is singular *)
Theorem C30_degenerate : forall (lh : bool) eye center up, length eye = 3%nat -> length center = 3%nat -> length up = 3%nat ->
  let dir := vsub center eye in norm dir < eps \/ norm (vcross (normalized dir) up) < eps ->
  exists r t, length r = 9%nat /\
  computes RS (lookat_fn lh) [In (fl eye); In (fl center); In (fl up); Out 16] VVoid [fl (aff r t)] /\
  firstn 1 r = [0] /\ det 3 r = 0.
Proof. exact View.C30_degenerate_ok. Qed.
Print Assumptions C30_degenerate.

Example C30_lookat_example : let dir := vsub [0; 0; 0] [0; 3; 4] in eps <= norm dir /\ eps <= norm (vcross (normalized dir) [0; 1; 0]).
Proof. exact View.C30_lookat_ex. Qed.
