(** * Affine builders (C13) *)

From Coq Require Import String List ZArith Bool Reals Lra Lia.
From Verif.Proofs Require Import AffTac.
(* props: From Verif.Spec Require Import Linear Geometry Affine. *)
Import ListNotations.
Local Open Scope R_scope.

(** ** C13 *)
(** what the matrices of the specification do *)
Lemma C13_action_ok : forall t s r p k a, length t = 3%nat -> length s = 3%nat -> length r = 9%nat -> length p = 3%nat -> length k = 3%nat ->
  moves (transl t) p (vadd p t) /\
  moves (scaling s) p [at_ s 0 * at_ p 0; at_ s 1 * at_ p 1; at_ s 2 * at_ p 2] /\
  moves (aff r t) p (vadd (mvec 3 3 r p) t) /\
  moves (rot4 k a) p (rotated k a p).
Proof. alg. Qed.
Lemma C13_translate_make_ok : forall t, length t = 3%nat ->
  computes RS glm_translate_make [Out 16; In (fl t)] VVoid [fl (transl t)].
Proof. ago. Qed.
Lemma C13_scale_make_ok : forall s, length s = 3%nat ->
  computes RS glm_scale_make [Out 16; In (fl s)] VVoid [fl (scaling s)].
Proof. ago. Qed.
(** rotation about any axis; an axis shorter than FLT_EPSILON counts as zero *)
Lemma C13_rotate_make_ok : forall axis angle, length axis = 3%nat ->
  computes RS glm_rotate_make [Out 16; Val (VF angle); In (fl axis)] VVoid [fl (rot4 (normalized axis) angle)].
Proof. rot_go. Qed.
Lemma C13_translate_ok :
  (forall m t, length m = 16%nat -> length t = 3%nat ->
     computes RS glm_translate [InOut (fl m); In (fl t)] VVoid [fl (mmul 4 m (transl t))]) /\
  (forall m t, length m = 16%nat -> length t = 3%nat ->
     computes RS glm_translate_to [InA (fl m); In (fl t); Out 16] VVoid [fl (mmul 4 m (transl t))]) /\
  (forall m x, length m = 16%nat -> computes RS glm_translate_x [InOut (fl m); Val (VF x)] VVoid [fl (mmul 4 m (transl [x; 0; 0]))]) /\
  (forall m x, length m = 16%nat -> computes RS glm_translate_y [InOut (fl m); Val (VF x)] VVoid [fl (mmul 4 m (transl [0; x; 0]))]) /\
  (forall m x, length m = 16%nat -> computes RS glm_translate_z [InOut (fl m); Val (VF x)] VVoid [fl (mmul 4 m (transl [0; 0; x]))]).
Proof. repeat split; ago. Qed.
Lemma C13_translated_ok :
  (forall r v t, length r = 9%nat -> length v = 3%nat -> length t = 3%nat ->
     computes RS glm_translated [InOut (fl (aff r v)); In (fl t)] VVoid [fl (mmul 4 (transl t) (aff r v))]) /\
  (forall r v t, length r = 9%nat -> length v = 3%nat -> length t = 3%nat ->
     computes RS glm_translated_to [InA (fl (aff r v)); In (fl t); Out 16] VVoid [fl (mmul 4 (transl t) (aff r v))]) /\
  (forall r v x, length r = 9%nat -> length v = 3%nat ->
     computes RS glm_translated_x [InOut (fl (aff r v)); Val (VF x)] VVoid [fl (mmul 4 (transl [x; 0; 0]) (aff r v))]) /\
  (forall r v x, length r = 9%nat -> length v = 3%nat ->
     computes RS glm_translated_y [InOut (fl (aff r v)); Val (VF x)] VVoid [fl (mmul 4 (transl [0; x; 0]) (aff r v))]) /\
  (forall r v x, length r = 9%nat -> length v = 3%nat ->
     computes RS glm_translated_z [InOut (fl (aff r v)); Val (VF x)] VVoid [fl (mmul 4 (transl [0; 0; x]) (aff r v))]).
Proof. repeat split; ago. Qed.
Lemma C13_scale_ok :
  (forall m s, length m = 16%nat -> length s = 3%nat ->
     computes RS glm_scale [InOut (fl m); In (fl s)] VVoid [fl (mmul 4 m (scaling s))]) /\
  (forall m s, length m = 16%nat -> length s = 3%nat ->
     computes RS glm_scale_to [InA (fl m); In (fl s); Out 16] VVoid [fl (mmul 4 m (scaling s))]) /\
  (forall m x, length m = 16%nat -> computes RS glm_scale_uni [InOut (fl m); Val (VF x)] VVoid [fl (mmul 4 m (scaling [x; x; x]))]).
Proof. repeat split; ago. Qed.
Lemma C13_rotate_ok :
  (forall m angle axis, length m = 16%nat -> length axis = 3%nat ->
     computes RS glm_rotate [InOut (fl m); Val (VF angle); In (fl axis)] VVoid [fl (mmul 4 m (rot4 (normalized axis) angle))]) /\
  (forall m angle, length m = 16%nat ->
     computes RS glm_rotate_x [InA (fl m); Val (VF angle); Out 16] VVoid [fl (mmul 4 m (rot4 [1; 0; 0] angle))]) /\
  (forall m angle, length m = 16%nat ->
     computes RS glm_rotate_y [InA (fl m); Val (VF angle); Out 16] VVoid [fl (mmul 4 m (rot4 [0; 1; 0] angle))]) /\
  (forall m angle, length m = 16%nat ->
     computes RS glm_rotate_z [InA (fl m); Val (VF angle); Out 16] VVoid [fl (mmul 4 m (rot4 [0; 0; 1] angle))]).
Proof. repeat split; [rot_go | ago | ago | ago]. Qed.

