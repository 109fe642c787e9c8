(** C59: Plane normalisation and distances.

    Over the reals glm_plane_normalize divides all four coefficients by the length of the
    normal, so it preserves the half-space, or writes zero when the length is below
    FLT_EPSILON. *)

From Coq Require Import String List ZArith Bool Reals.
From Verif Require Import MiniC Contract RScalar Cglm.
From Verif.Spec Require Import Linear Geometry ScalarSpec Client.
From Verif.Proofs Require Util.
Import ListNotations.
Local Open Scope list_scope.
Local Open Scope R_scope.

(** a plane with a non-degenerate normal: same half-spaces, unit normal *)
Theorem C59_plane_normalize : forall p, length p = 4%nat -> eps <= norm (firstn 3 p) ->
  computes RS glm_plane_normalize [InOut (fl p)] VVoid [fl (vscale (/ norm (firstn 3 p)) p)].
Proof. exact Util.C59_plane_normalize_ok. Qed.
Print Assumptions C59_plane_normalize.

Theorem C59_degenerate : forall p, length p = 4%nat -> norm (firstn 3 p) < eps ->
  computes RS glm_plane_normalize [InOut (fl p)] VVoid [fl [0; 0; 0; 0]].
Proof. exact Util.C59_degenerate_ok. Qed.
Print Assumptions C59_degenerate.

Theorem C59_half_space : forall p x, length p = 4%nat -> length x = 3%nat -> eps <= norm (firstn 3 p) ->
  let q := vscale (/ norm (firstn 3 p)) p in
  norm2 (firstn 3 q) = 1 /\
  (0 <= rdot (firstn 3 p) x + at_ p 3 <-> 0 <= rdot (firstn 3 q) x + at_ q 3) /\
  rdot (firstn 3 p) x + at_ p 3 = norm (firstn 3 p) * (rdot (firstn 3 q) x + at_ q 3).
Proof. exact Util.C59_half_space_ok. Qed.
Print Assumptions C59_half_space.
