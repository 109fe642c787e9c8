(** * Easing curves (C51) *)

From Coq Require Import String List ZArith Bool Reals Lra Lia.
From Verif Require Import Cglm.
From Verif.Spec Require Import Linear Geometry Ease Client.
From Verif.Proofs Require Import RExact.
Import ListNotations.
Local Open Scope R_scope.

Ltac ez := intros; symr; rprep; try domain; unfold glued, mirrored, sine, power, circ, expo, back, elast, bounce, drop, overshoot, mirrored; rifs; try (exfalso; lra); cells fieldl.

Lemma C51_linear_ok : forall t, computes RS glm_ease_linear [Val (VF t)] (VF t) [].
Proof. ez. Qed.
Lemma C51_powers_ok : forall t,
  computes RS glm_ease_quad_in [Val (VF t)] (VF (power 2 t)) [] /\
  computes RS glm_ease_quad_out [Val (VF t)] (VF (mirrored (power 2) t)) [] /\
  computes RS glm_ease_quad_inout [Val (VF t)] (VF (glued (power 2) t)) [] /\
  computes RS glm_ease_cubic_in [Val (VF t)] (VF (power 3 t)) [] /\
  computes RS glm_ease_cubic_out [Val (VF t)] (VF (mirrored (power 3) t)) [] /\
  computes RS glm_ease_cubic_inout [Val (VF t)] (VF (glued (power 3) t)) [] /\
  computes RS glm_ease_quart_in [Val (VF t)] (VF (power 4 t)) [] /\
  computes RS glm_ease_quart_out [Val (VF t)] (VF (mirrored (power 4) t)) [] /\
  computes RS glm_ease_quart_inout [Val (VF t)] (VF (glued (power 4) t)) [] /\
  computes RS glm_ease_quint_in [Val (VF t)] (VF (power 5 t)) [] /\
  computes RS glm_ease_quint_out [Val (VF t)] (VF (mirrored (power 5) t)) [] /\
  computes RS glm_ease_quint_inout [Val (VF t)] (VF (glued (power 5) t)) [].
Proof. repeat split; ez. Qed.
Lemma C51_sine_ok : forall t,
  computes RS glm_ease_sine_in [Val (VF t)] (VF (sine t)) [] /\
  computes RS glm_ease_sine_out [Val (VF t)] (VF (mirrored sine t)) [] /\
  computes RS glm_ease_sine_inout [Val (VF t)] (VF (glued sine t)) [].
Proof.
  repeat split; ez.
  - replace ((t - 1) * (1 * PI / 2)) with (- (PI / 2 - PI / 2 * t)) by field. rewrite sin_neg, sin_shift. ring.
  - replace (PI / 2 * (1 - t)) with (PI / 2 - t * (1 * PI / 2)) by field. rewrite cos_shift. ring.
  - replace (t * (1 * PI / 1)) with (PI / 2 * (2 * t)) by field. field.
  - replace (PI / 2 * (1 - (2 * t - 1))) with (- (t * (1 * PI / 1)) + PI) by field. rewrite neg_cos, cos_neg. field.
Qed.
Lemma C51_circ_ok : forall t,
  (-1 <= t <= 1 -> computes RS glm_ease_circ_in [Val (VF t)] (VF (circ t)) []) /\
  (0 <= t <= 2 -> computes RS glm_ease_circ_out [Val (VF t)] (VF (mirrored circ t)) []) /\
  (-1/2 <= t <= 3/2 -> computes RS glm_ease_circ_inout [Val (VF t)] (VF (glued circ t)) []).
Proof.
  repeat split; ez.
Qed.
Lemma C51_expo_ok : forall t,
  computes RS glm_ease_exp_in [Val (VF t)] (VF (expo t)) [] /\
  computes RS glm_ease_exp_out [Val (VF t)] (VF (mirrored expo t)) [] /\
  computes RS glm_ease_exp_inout [Val (VF t)] (VF (glued expo t)) [].
Proof.
  repeat split; ez.
  - do 2 f_equal. ring.
  - replace (20 * t - 10) with (10 * (2 * t - 1)) by ring. field.
  - replace (- (20) * t + 10) with (10 * (1 - (2 * t - 1) - 1)) by ring. field.
Qed.
Lemma C51_back_ok : forall t,
  computes RS glm_ease_back_in [Val (VF t)] (VF (back overshoot t)) [] /\
  computes RS glm_ease_back_out [Val (VF t)] (VF (mirrored (back overshoot) t)) [] /\
  computes RS glm_ease_back_inout [Val (VF t)] (VF (glued (back (overshoot * 1525/1000)) t)) [].
Proof.
  repeat split; ez.
Qed.
Lemma C51_elast_ok : forall t,
  computes RS glm_ease_elast_in [Val (VF t)] (VF (elast t)) [] /\
  computes RS glm_ease_elast_out [Val (VF t)] (VF (mirrored elast t)) [] /\
  computes RS glm_ease_elast_inout [Val (VF t)] (VF (glued elast t)) [].
Proof.
  repeat split; ez.
  - do 2 f_equal. field.
  - replace (10 * (1 - t - 1)) with (- (10) * t) by ring.
    replace (- (13) * (1 * PI / 2) * (t + 1)) with (- (PI / 2 - - (13 * PI / 2 * t) + 2 * INR 3 * PI)) by (simpl; field).
    replace (13 * PI / 2 * (1 - t)) with (PI / 2 - 13 * PI / 2 * t + 2 * INR 3 * PI) by (simpl; field).
    rewrite sin_neg, !sin_period, !sin_shift, cos_neg. ring.
  - replace (13 * (1 * PI / 2) * (2 * t)) with (13 * PI / 2 * (2 * t)) by field. field.
  - replace (10 * (1 - (2 * t - 1) - 1)) with (- (10) * (2 * t - 1)) by ring.
    replace (- (13) * (1 * PI / 2) * (2 * t)) with (- (13 * PI * t)) by field.
    replace (13 * PI / 2 * (1 - (2 * t - 1))) with (- (13 * PI * t) + PI + 2 * INR 6 * PI) by (simpl; field).
    rewrite sin_period, neg_sin, sin_neg. field.
Qed.
Lemma C51_bounce_ok : forall t,
  computes RS glm_ease_bounce_in [Val (VF t)] (VF (bounce t)) [] /\
  computes RS glm_ease_bounce_out [Val (VF t)] (VF (mirrored bounce t)) [] /\
  computes RS glm_ease_bounce_inout [Val (VF t)] (VF (if Rlt_dec t (1/2) then (1 - drop (2 * t)) / 2 else (1 + drop (2 * t - 1)) / 2)) [].
Proof.
  repeat split; ez.
  all: try (exfalso; lra).
Qed.

(** ** What the curves look like *)
Lemma mirrored_ends : forall f, f 0 = 0 -> f 1 = 1 -> mirrored f 0 = 0 /\ mirrored f 1 = 1.
Proof. intros f H0 H1. unfold mirrored. rewrite Rminus_0_r, Rminus_eq_0, H0, H1. lra. Qed.
Lemma glued_ends : forall f, f 0 = 0 -> f 1 = 1 -> glued f 0 = 0 /\ glued f 1 = 1 /\ glued f (1/2) = 1/2.
Proof.
  intros f H0 H1. unfold glued, mirrored. rifs; try (exfalso; lra).
  replace (2 * 0) with 0 by ring. replace (1 - (2 * 1 - 1)) with 0 by ring. replace (1 - (2 * (1/2) - 1)) with 1 by field. rewrite H0, H1. lra.
Qed.
Lemma elast_1 : elast 1 = 1.
Proof.
  unfold elast. replace (13 * PI / 2 * 1) with (PI / 2 + 2 * INR 3 * PI) by (simpl; field). rewrite sin_period, sin_PI2.
  replace (10 * (1 - 1)) with 0 by ring. rewrite Rpower_O; lra.
Qed.
Lemma drop_ends : drop 0 = 0 /\ drop 1 = 1.
Proof. unfold drop. rifs; lra. Qed.
(** every "in" curve starts at 0 and ends at 1 *)
Lemma in_ends : forall f, List.In f [sine; power 2; power 3; power 4; power 5; circ; expo; back overshoot; back (overshoot * 1525/1000); elast; bounce] ->
  f 0 = 0 /\ f 1 = 1.
Proof.
  intros f H. simpl in H. repeat (destruct H as [<-|H]); try contradiction; try (unfold power, back; split; ring); try (apply mirrored_ends; apply drop_ends).
  - unfold sine. rewrite Rmult_0_r, Rmult_1_r, cos_0, cos_PI2. lra.
  - unfold circ. rewrite Rmult_0_r, Rmult_1_r, Rminus_0_r, Rminus_eq_0, sqrt_0, sqrt_1. lra.
  - unfold expo. rifs; try (exfalso; lra). split; auto. replace (10 * (1 - 1)) with 0 by ring. apply Rpower_O. lra.
  - split; [|apply elast_1]. unfold elast. rewrite Rmult_0_r, sin_0. ring.
Qed.
(** every curve starts at 0 and ends at 1; the symmetric ones pass through the middle *)
Lemma C51_ends_ok : forall f, List.In f [sine; power 2; power 3; power 4; power 5; circ; expo; back overshoot; back (overshoot * 1525/1000); elast; bounce] ->
  f 0 = 0 /\ f 1 = 1 /\ mirrored f 0 = 0 /\ mirrored f 1 = 1 /\ glued f 0 = 0 /\ glued f 1 = 1 /\ glued f (1/2) = 1/2.
Proof.
  intros f H. destruct (in_ends f H) as [A B]. pose proof (mirrored_ends f A B). pose proof (glued_ends f A B). tauto.
Qed.
(** the symmetric curves are point-symmetric about the middle (in the middle itself by the previous theorem) *)
Lemma C51_symmetric_ok : forall f t, t <> 1/2 -> glued f (1 - t) = 1 - glued f t.
Proof.
  intros f t H. unfold glued, mirrored. rifs; try (exfalso; lra).
  - replace (1 - (2 * t - 1)) with (2 * (1 - t)) by ring. field.
  - replace (1 - (2 * (1 - t) - 1)) with (2 * t) by ring. field.
Qed.
Lemma C51_symmetric_ex : 0 <> 1/2.
Proof. lra. Qed.

(** ** The two halves join without a jump *)
Lemma glued_continuous : forall f, f 1 = 1 -> continuity_pt f 1 -> continuity_pt (glued f) (1/2).
Proof.
  intros f H1 C e He. destruct (C e He) as (d & Hd & D). exists (d / 2). split; [lra|]. intros x [_ Hx].
  simpl in *. unfold R_dist in *. assert (G : glued f (1/2) = 1/2).
  { unfold glued, mirrored. rifs; try (exfalso; lra). replace (1 - (2 * (1/2) - 1)) with 1 by field. rewrite H1. lra. }
  rewrite G. assert (K : forall y, Rabs (y - 1) < d -> Rabs (f y - 1) < e).
  { intros y Hy. destruct (Req_dec y 1) as [->|N]; [rewrite H1, Rminus_eq_0, Rabs_R0; lra|]. rewrite <- H1 at 1. apply D. split; auto. split; [exact I|auto]. }
  unfold glued, mirrored. assert (Rabs (2 * x - 1) < d). { replace (2 * x - 1) with (2 * (x - 1/2)) by field. rewrite Rabs_mult, (Rabs_pos_eq 2); lra. }
  rifs.
  - specialize (K (2 * x) H). replace (f (2 * x) / 2 - 1/2) with ((f (2*x) - 1) * /2) by field. rewrite Rabs_mult, (Rabs_pos_eq (/2)) by lra. pose proof (Rabs_pos (f (2 * x) - 1)). lra.
  - specialize (K (1 - (2 * x - 1))). replace ((1 + (1 - f (1 - (2 * x - 1)))) / 2 - 1 / 2) with (- ((f (1 - (2 * x - 1)) - 1) * / 2)) by field.
    rewrite Rabs_Ropp, Rabs_mult, (Rabs_pos_eq (/2)) by lra. pose proof (Rabs_pos (f (1 - (2 * x - 1)) - 1)). 
    assert (Rabs (1 - (2 * x - 1) - 1) < d). { replace (1 - (2 * x - 1) - 1) with (- (2 * x - 1)) by ring. rewrite Rabs_Ropp. auto. } specialize (K H2). lra.
Qed.
Lemma continuity_local : forall f g x d, 0 < d -> (forall y, Rabs (y - x) < d -> f y = g y) -> continuity_pt g x -> continuity_pt f x.
Proof.
  intros f g x d Hd E C e He. destruct (C e He) as (d' & Hd' & D). exists (Rmin d d'). split; [apply Rmin_pos; auto|].
  intros y [Hy Ry]. simpl in *. unfold R_dist in *. assert (Rabs (y - x) < d /\ Rabs (y - x) < d') as [A B].
  { split; eapply Rlt_le_trans; try apply Ry; [apply Rmin_l|apply Rmin_r]. }
  rewrite E by auto. rewrite (E x) by (rewrite Rminus_eq_0, Rabs_R0; auto). apply D. auto.
Qed.
Lemma C51_join_ok : forall f, List.In f [sine; power 2; power 3; power 4; power 5; circ; expo; back (overshoot * 1525/1000); elast; bounce] ->
  continuity_pt (glued f) (1/2).
Proof.
  intros f H. apply glued_continuous.
  - apply in_ends. simpl in *. tauto.
  - simpl in H. repeat (destruct H as [<-|H]); try contradiction.
    + unfold sine. reg.
    + unfold power. reg.
    + unfold power. reg.
    + unfold power. reg.
    + unfold power. reg.
    + unfold circ. reg. lra.
    + apply continuity_local with (g := fun t => exp (10 * (t - 1) * ln 2)) (d := 1); [lra| |reg].
      intros y Hy. unfold expo. rifs; [exfalso; subst; rewrite Rminus_0_l, Rabs_Ropp, Rabs_R1 in Hy; lra|reflexivity].
    + unfold back. reg.
    + apply (continuity_local _ (fun t => sin (13 * PI / 2 * t) * exp (10 * (t - 1) * ln 2)) 1 1); [lra|reflexivity|reg].
    + apply continuity_local with (g := fun t => 1 - 121/16 * (1 - t) ^ 2) (d := 4/11); [lra| |reg].
      intros y Hy. apply Rabs_def2 in Hy. unfold bounce, mirrored, drop. rifs; try (exfalso; lra). reflexivity.
Qed.
(** ... but the symmetric bounce curve is not the bounce followed by its mirror image: it starts at 1/2, sinks to 0 and jumps back to 1/2 *)
Lemma C51_bounce_inout_refuted_ok :
  computes RS glm_ease_bounce_inout [Val (VF 0)] (VF (1/2)) [] /\
  (exists t, ~ computes RS glm_ease_bounce_inout [Val (VF t)] (VF (glued bounce t)) []) /\
  ~ continuity_pt (fun t => if Rlt_dec t (1/2) then (1 - drop (2 * t)) / 2 else (1 + drop (2 * t - 1)) / 2) (1/2).
Proof.
  assert (E : computes RS glm_ease_bounce_inout [Val (VF 0)] (VF (1/2)) []).
  { destruct (C51_bounce_ok 0) as (_ & _ & A). replace (1/2) with (if Rlt_dec 0 (1/2) then (1 - drop (2 * 0)) / 2 else (1 + drop (2 * 0 - 1)) / 2); auto.
    replace (2 * 0) with 0 by ring. destruct drop_ends as [-> _]. rifs; lra. }
  repeat split; auto.
  - exists 0. intros H. other_outcome H E. assert (G : glued bounce 0 = 0) by (apply C51_ends_ok; simpl; tauto). rewrite G in Er. injection Er. lra.
  - intros C. destruct (C (1/4)) as (d & Hd & D); [lra|]. set (x := 1/2 - Rmin (d / 2) (1/100)).
    assert (0 < Rmin (d / 2) (1/100) <= 1/100 /\ Rmin (d/2) (1/100) <= d/2). { unfold Rmin. destruct Rle_dec; lra. }
    specialize (D x). simpl in D. unfold R_dist in D.
    assert (A : D_x no_cond (1/2) x /\ Rabs (x - 1/2) < d). { split; [split; [exact I|unfold x; lra]|]. unfold x. rewrite Rabs_left; lra. }
    apply D in A. revert A. unfold drop. rifs; try (unfold x in *; exfalso; lra); intros A. apply Rabs_def2 in A. unfold x in *. 
    set (h := Rmin (d/2) (1/100)) in *. nra.
Qed.
