(** * Lengths, normalisation, cross products (C02, C03) *)

From Coq Require Import String List ZArith Bool Reals Lra Lia.
From Verif Require Import Cglm.
From Verif.Spec Require Import Linear Client.
From Verif.Proofs Require Import RTac Layout.
Import ListNotations.
Local Open Scope R_scope.

(** the destination may be either operand *)
Lemma C02_cross_ok : forall x y, length x = 3%nat -> length y = 3%nat ->
  computes RS glm_vec3_cross [InA (fl x); InA (fl y); Out 3] VVoid [fl (vcross x y)].
Proof. go. Qed.
(** orthogonality, Lagrange identity, antisymmetry *)
Lemma C02_laws_ok : forall x y, length x = 3%nat -> length y = 3%nat ->
  rdot (vcross x y) x = 0 /\ rdot (vcross x y) y = 0 /\
  norm2 (vcross x y) = norm2 x * norm2 y - rdot x y * rdot x y /\
  vcross y x = vscale (-1) (vcross x y).
Proof. intros; unlists; lcbv. repeat split; try ring. repeat (f_equal; try ring). Qed.
Lemma C02_vec2_cross_ok : forall x y, length x = 2%nat -> length y = 2%nat ->
  computes RS glm_vec2_cross [In (fl x); In (fl y)] (VF (at_ (vcross (x ++ [0]) (y ++ [0])) 2)) [].
Proof. go. Qed.

Lemma C03_norm_ok :
  (forall x, length x = 2%nat -> computes RS glm_vec2_norm [In (fl x)] (VF (norm x)) []) /\
  (forall x, length x = 3%nat -> computes RS glm_vec3_norm [In (fl x)] (VF (norm x)) []) /\
  (forall x, length x = 4%nat -> computes RS glm_vec4_norm [In (fl x)] (VF (norm x)) []) /\
  (forall x y, length x = 2%nat -> length y = 2%nat -> computes RS glm_vec2_distance [In (fl x); In (fl y)] (VF (norm (vsub x y))) []) /\
  (forall x y, length x = 3%nat -> length y = 3%nat -> computes RS glm_vec3_distance [In (fl x); In (fl y)] (VF (norm (vsub x y))) []) /\
  (forall x y, length x = 4%nat -> length y = 4%nat -> computes RS glm_vec4_distance [In (fl x); In (fl y)] (VF (norm (vsub x y))) []).
Proof. repeat split; rexec. f_equal. f_equal. ring. Qed.

Ltac normz := rexec; unfold normalized; rcells.
(** the destination may be the source *)
Lemma C03_normalize_to_ok :
  (forall x, length x = 2%nat -> computes RS glm_vec2_normalize_to [InA (fl x); Out 2] VVoid [fl (normalized x)]) /\
  (forall x, length x = 3%nat -> computes RS glm_vec3_normalize_to [InA (fl x); Out 3] VVoid [fl (normalized x)]) /\
  (forall x, length x = 4%nat -> computes RS glm_vec4_normalize_to [InA (fl x); Out 4] VVoid [fl (normalized x)]).
Proof. repeat split; normz. Qed.
Lemma C03_normalize_ok :
  (forall x, length x = 2%nat -> computes RS glm_vec2_normalize [InOut (fl x)] VVoid [fl (normalized x)]) /\
  (forall x, length x = 3%nat -> computes RS glm_vec3_normalize [InOut (fl x)] VVoid [fl (normalized x)]) /\
  (forall x, length x = 4%nat -> computes RS glm_vec4_normalize [InOut (fl x)] VVoid [fl (normalized x)]).
Proof. repeat split; normz. Qed.
Lemma C03_crossn_ok : forall x y, length x = 3%nat -> length y = 3%nat ->
  computes RS glm_vec3_crossn [InA (fl x); InA (fl y); Out 3] VVoid [fl (normalized (vcross x y))].
Proof. normz. Qed.

Lemma norm_map_div : forall c x, 0 < c -> norm (map (fun a => a / c) x) = norm x / c.
Proof.
  intros c x Hc. unfold norm, norm2.
  assert (rdot (map (fun a => a / c) x) (map (fun a => a / c) x) = rdot x x * (/ c * / c)) as ->.
  { unfold rdot, total. destruct x as [|a x]; simpl; [ring|].
    replace (a / c * (a / c)) with (a * a * (/ c * / c)) by (unfold Rdiv; ring).
    generalize (a * a). induction x as [|b x IH]; simpl; intros; auto.
    replace (r * (/ c * / c) + b / c * (b / c)) with ((r + b * b) * (/ c * / c)) by (unfold Rdiv; ring). apply IH. }
  rewrite sqrt_mult_alt by apply norm2_nonneg. rewrite sqrt_square; [reflexivity|].
  left. apply Rinv_0_lt_compat; auto.
Qed.
(** what [normalized] is: unit length, same direction, idempotent; zero below the threshold *)
Lemma C03_unit_ok : forall x,
  (eps <= norm x -> norm (normalized x) = 1 /\ map (fun a => norm x * a) (normalized x) = x /\ normalized (normalized x) = normalized x) /\
  (norm x < eps -> normalized x = repeat 0 (length x)).
Proof.
  intros x. split; intros H.
  - assert (0 < norm x) as H0 by (pose proof eps_pos; lra).
    assert (normalized x = map (fun a => a / norm x) x) as E.
    { unfold normalized. destruct (Rlt_dec (norm x) eps); [lra|auto]. }
    assert (norm (normalized x) = 1) as E1 by (rewrite E, norm_map_div; auto; field; lra).
    split; [auto|split].
    + rewrite E, map_map. rewrite <- (map_id x) at 2. apply map_ext. intros. field. lra.
    + unfold normalized at 1. rewrite E1. destruct (Rlt_dec 1 eps) as [h|_]; [unfold eps in h; lra|].
      rewrite <- (map_id (normalized x)) at 2. apply map_ext. intros; field.
  - unfold normalized. destruct (Rlt_dec (norm x) eps); [|lra]. induction x; simpl; auto. f_equal.
    clear. induction x; simpl; auto. f_equal; auto.
Qed.
Lemma C03_unit_ex : eps <= norm [3; 4] /\ normalized [3; 4] = [3 / 5; 4 / 5].
Proof.
  assert (norm [3; 4] = 5) as E by (unfold norm, norm2, rdot, total; simpl; replace (3 * 3 + 4 * 4) with (5 * 5) by ring; apply sqrt_square; lra).
  split; unfold eps; [lra|]. unfold normalized. rewrite E. destruct (Rlt_dec 5 eps) as [h|_]; [unfold eps in h; lra|]. reflexivity.
Qed.
