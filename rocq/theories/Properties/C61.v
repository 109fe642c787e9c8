(** C61: Colour and pick-matrix helpers.

    Over the reals glm_luminance is the documented weighted sum, and glm_pickmatrix leaves the
    destination untouched when the region size is not positive and otherwise maps the picking
    region onto the clip square. *)

From Coq Require Import String List ZArith Bool Reals.
From Verif Require Import MiniC Contract RScalar Cglm.
From Verif.Spec Require Import Linear Geometry ScalarSpec Client.
From Verif.Proofs Require Util.
Import ListNotations.
Local Open Scope list_scope.
Local Open Scope R_scope.

(** ** C61 *)
Theorem C61_luminance : forall c, length c = 3%nat ->
  computes RS glm_luminance [In (fl c)] (VF (212671 / 1000000 * at_ c 0 + 71516 / 100000 * at_ c 1 + 72169 / 1000000 * at_ c 2)) [] /\
  212671 / 1000000 + 71516 / 100000 + 72169 / 1000000 = 1.
Proof. exact Util.C61_luminance_ok. Qed.
Print Assumptions C61_luminance.

(** a region without area: nothing is written *)
Theorem C61_pickmatrix_empty : forall x y vp, length x = 2%nat -> length y = 2%nat -> length vp = 4%nat ->
  forall d, length d = 16%nat -> at_ y 0 <= 0 \/ at_ y 1 <= 0 ->
  computes RS glm_pickmatrix [In (fl x); In (fl y); In (fl vp); InOut (fl d)] VVoid [fl d].
Proof. exact Util.C61_pickmatrix_empty_ok. Qed.
Print Assumptions C61_pickmatrix_empty.

(** otherwise: the affine map taking the picked region (window coordinates mapped to clip
    coordinates by the viewport) onto [-1,1]^2, leaving depth alone *)
Theorem C61_pickmatrix : forall c s vp, length c = 2%nat -> length s = 2%nat -> length vp = 4%nat ->
  0 < at_ s 0 -> 0 < at_ s 1 -> 0 < at_ vp 2 -> 0 < at_ vp 3 ->
  exists m, length m = 16%nat /\ computes RS glm_pickmatrix [In (fl c); In (fl s); In (fl vp); Out 16] VVoid [fl m] /\
  forall u v z, let ndc w o n := 2 * (w - o) / n - 1 in
  mvec 4 4 m [ndc (at_ c 0 + u * at_ s 0 / 2) (at_ vp 0) (at_ vp 2); ndc (at_ c 1 + v * at_ s 1 / 2) (at_ vp 1) (at_ vp 3); z; 1] = [u; v; z; 1].
Proof. exact Util.C61_pickmatrix_ok. Qed.
Print Assumptions C61_pickmatrix.
