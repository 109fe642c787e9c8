(** * Rounding errors of polynomial expressions (proof tool) *)

From Coq Require Import ZArith Bool List Reals Lra Lia Psatz Floats.SpecFloat.
From Flocq Require Import Core.
From Verif Require Import B32.
From Verif.Spec Require Import Float32.
From Verif.Proofs Require Import Flo.
Import ListNotations.
Local Open Scope R_scope.

Inductive pe := PV (x : b32) | PAdd (a b : pe) | PSub (a b : pe) | PMul (a b : pe).
Fixpoint bfl (e : pe) : b32 :=
  match e with
  | PV x => x
  | PAdd a b => SFadd prec emax (bfl a) (bfl b)
  | PSub a b => SFsub prec emax (bfl a) (bfl b)
  | PMul a b => SFmul prec emax (bfl a) (bfl b)
  end.
Fixpoint ev (e : pe) : R :=
  match e with
  | PV x => rval x
  | PAdd a b => ev a + ev b
  | PSub a b => ev a - ev b
  | PMul a b => ev a * ev b
  end.
Fixpoint maj (e : pe) : R :=
  match e with
  | PV x => rabs x
  | PAdd a b | PSub a b => maj a + maj b
  | PMul a b => maj a * maj b
  end.
Fixpoint wt (e : pe) : nat :=
  match e with
  | PV x => O
  | PAdd a b | PSub a b => S (max (wt a) (wt b))
  | PMul a b => S (wt a + wt b)
  end.
Fixpoint und (e : pe) : R :=
  match e with
  | PV x => 0
  | PAdd a b | PSub a b => (1 + u) * (und a + und b)
  | PMul a b => (1 + u) * ((1 + u) ^ wt a * maj a * und b + (1 + u) ^ wt b * maj b * und a + und a * und b) + eta
  end.
Fixpoint allnum (e : pe) : Prop :=
  match e with
  | PV x => number x
  | PAdd a b | PSub a b | PMul a b => allnum a /\ allnum b
  end.

Lemma u_pos : 0 < u. Proof. unfold u. lra. Qed.
Lemma eta_pos : 0 < eta. Proof. unfold eta. apply powerRZ_lt. lra. Qed.
Lemma pow1 : forall n, 1 <= (1 + u) ^ n.
Proof. intros. apply pow_R1_Rle. pose proof u_pos. lra. Qed.
Lemma pow_mono : forall n m, (n <= m)%nat -> (1 + u) ^ n <= (1 + u) ^ m.
Proof. intros. apply Rle_pow; auto. pose proof u_pos. lra. Qed.
Lemma maj_pos : forall e, 0 <= maj e.
Proof. induction e; simpl; try lra; [apply Rabs_pos|]. apply Rmult_le_pos; auto. Qed.
Lemma ev_maj : forall e, Rabs (ev e) <= maj e.
Proof.
  induction e; simpl.
  - apply Rle_refl.
  - eapply Rle_trans; [apply Rabs_triang|]. lra.
  - unfold Rminus. eapply Rle_trans; [apply Rabs_triang|]. rewrite Rabs_Ropp. lra.
  - rewrite Rabs_mult. apply Rmult_le_compat; auto using Rabs_pos.
Qed.
Lemma und_pos : forall e, 0 <= und e.
Proof.
  pose proof u_pos. pose proof eta_pos. induction e; simpl; try lra; try (apply Rmult_le_pos; lra).
  pose proof (pow1 (wt e1)). pose proof (pow1 (wt e2)). pose proof (maj_pos e1). pose proof (maj_pos e2).
  assert (0 <= (1 + u) ^ wt e1 * maj e1 * und e2) by (apply Rmult_le_pos; auto; apply Rmult_le_pos; lra).
  assert (0 <= (1 + u) ^ wt e2 * maj e2 * und e1) by (apply Rmult_le_pos; auto; apply Rmult_le_pos; lra).
  assert (0 <= und e1 * und e2) by (apply Rmult_le_pos; auto).
  assert (0 <= (1 + u) * ((1 + u) ^ wt e1 * maj e1 * und e2 + (1 + u) ^ wt e2 * maj e2 * und e1 + und e1 * und e2)) by (apply Rmult_le_pos; lra). lra.
Qed.
Lemma bfl_valid : forall e, allnum e -> inb32 (bfl e) = true.
Proof.
  induction e; simpl; intros.
  - apply H.
  - apply add_valid; tauto. - apply sub_valid; tauto. - apply mul_valid; tauto.
Qed.

(** one rounding of a sum *)
Lemma sum_step : forall x y a b P Ma Mb Ua Ub d, Rabs (x - a) <= (P - 1) * Ma + Ua -> Rabs (y - b) <= (P - 1) * Mb + Ub ->
  Rabs a <= Ma -> Rabs b <= Mb -> 1 <= P -> Rabs d <= u -> Rabs ((x + y) * (1 + d) - (a + b)) <= ((1 + u) * P - 1) * (Ma + Mb) + (1 + u) * (Ua + Ub).
Proof.
  intros x y a b P Ma Mb Ua Ub d Hx Hy Ha Hb HP Hd. pose proof u_pos.
  replace ((x + y) * (1 + d) - (a + b)) with (((x - a) + (y - b)) * (1 + d) + (a + b) * d) by ring.
  eapply Rle_trans; [apply Rabs_triang|]. rewrite !Rabs_mult.
  assert (D : Rabs (1 + d) <= 1 + u). { eapply Rle_trans; [apply Rabs_triang|]. rewrite Rabs_R1. lra. }
  assert (A : Rabs (x - a + (y - b)) <= (P - 1) * (Ma + Mb) + (Ua + Ub)). { eapply Rle_trans; [apply Rabs_triang|]. lra. }
  assert (B : Rabs (a + b) <= Ma + Mb). { eapply Rle_trans; [apply Rabs_triang|]. lra. }
  assert (X : Rabs (x - a + (y - b)) * Rabs (1 + d) <= ((P - 1) * (Ma + Mb) + (Ua + Ub)) * (1 + u)) by (apply Rmult_le_compat; auto using Rabs_pos).
  assert (Y : Rabs (a + b) * Rabs d <= (Ma + Mb) * u) by (apply Rmult_le_compat; auto using Rabs_pos).
  nra.
Qed.
(** one rounding of a product *)
Lemma mul_step : forall x y a b P Q Ma Mb Ua Ub d e, Rabs (x - a) <= (P - 1) * Ma + Ua -> Rabs (y - b) <= (Q - 1) * Mb + Ub ->
  Rabs a <= Ma -> Rabs b <= Mb -> Rabs d <= u -> Rabs e <= eta ->
  Rabs (x * y * (1 + d) + e - a * b) <= ((1 + u) * (P * Q) - 1) * (Ma * Mb) + ((1 + u) * (P * Ma * Ub + Q * Mb * Ua + Ua * Ub) + eta).
Proof.
  intros x y a b P Q Ma Mb Ua Ub d e Hx Hy Ha Hb Hd He. pose proof u_pos.
  replace (x * y * (1 + d) + e - a * b) with (((x - a) * (y - b) + a * (y - b) + b * (x - a)) * (1 + d) + a * b * d + e) by ring.
  set (Ex := (P - 1) * Ma + Ua) in *. set (Ey := (Q - 1) * Mb + Ub) in *.
  assert (D : Rabs (1 + d) <= 1 + u). { eapply Rle_trans; [apply Rabs_triang|]. rewrite Rabs_R1. lra. }
  assert (A : Rabs ((x - a) * (y - b) + a * (y - b) + b * (x - a)) <= Ex * Ey + Ma * Ey + Mb * Ex).
  { eapply Rle_trans; [apply Rabs_triang|]. apply Rplus_le_compat. eapply Rle_trans; [apply Rabs_triang|]. apply Rplus_le_compat.
    all: rewrite Rabs_mult; apply Rmult_le_compat; auto using Rabs_pos. }
  assert (B : Rabs (a * b * d) <= Ma * Mb * u).
  { rewrite !Rabs_mult. apply Rmult_le_compat; auto using Rabs_pos. apply Rmult_le_pos; apply Rabs_pos. apply Rmult_le_compat; auto using Rabs_pos. }
  assert (X : Rabs (((x - a) * (y - b) + a * (y - b) + b * (x - a)) * (1 + d)) <= (Ex * Ey + Ma * Ey + Mb * Ex) * (1 + u)).
  { rewrite Rabs_mult. apply Rmult_le_compat; auto using Rabs_pos. }
  eapply Rle_trans; [apply Rabs_triang|]. eapply Rle_trans; [apply Rplus_le_compat_r; apply Rabs_triang|].
  eapply Rle_trans; [apply Rplus_le_compat; [apply Rplus_le_compat; [exact X|exact B]|exact He]|]. unfold Ex, Ey. apply Req_le. ring.
Qed.

Theorem poly_err : forall e, allnum e -> finite (bfl e) = true -> Rabs (rval (bfl e) - ev e) <= ((1 + u) ^ wt e - 1) * maj e + und e.
Proof.
  induction e as [x|a IHa b IHb|a IHa b IHb|a IHa b IHb]; intros N F.
  - simpl. rewrite Rminus_diag_eq by auto. rewrite Rabs_R0. lra.
  - destruct N as [Na Nb]. pose proof (add_fin _ _ F) as [Fa Fb]. specialize (IHa Na Fa). specialize (IHb Nb Fb).
    assert (Ka : number (bfl a)) by (split; auto using bfl_valid). assert (Kb : number (bfl b)) by (split; auto using bfl_valid).
    destruct (add_rnd _ _ Ka Kb) as [E _]. specialize (E F). cbn [bfl]. rewrite E. destruct (err_add _ _ (proj1 Ka) (proj1 Kb)) as (d & D & ->).
    cbn [ev maj wt und]. change ((1 + u) ^ S (max (wt a) (wt b))) with ((1 + u) * (1 + u) ^ max (wt a) (wt b)).
    apply sum_step; auto using ev_maj, pow1.
    + eapply Rle_trans; [exact IHa|]. apply Rplus_le_compat_r. apply Rmult_le_compat_r; [apply maj_pos|]. apply Rplus_le_compat_r. apply pow_mono. lia.
    + eapply Rle_trans; [exact IHb|]. apply Rplus_le_compat_r. apply Rmult_le_compat_r; [apply maj_pos|]. apply Rplus_le_compat_r. apply pow_mono. lia.
  - destruct N as [Na Nb]. pose proof (sub_fin _ _ F) as [Fa Fb]. specialize (IHa Na Fa). specialize (IHb Nb Fb).
    assert (Ka : number (bfl a)) by (split; auto using bfl_valid). assert (Kb : number (bfl b)) by (split; auto using bfl_valid).
    destruct (sub_rnd _ _ Ka Kb) as [E _]. specialize (E F). cbn [bfl]. rewrite E.
    assert (X : exists d, Rabs d <= u /\ rnd (rval (bfl a) - rval (bfl b)) = (rval (bfl a) - rval (bfl b)) * (1 + d)).
    { destruct (err_add (bfl a) (SFopp (bfl b))) as (d & D & R); [apply Ka|apply opp_valid; apply Kb|]. rewrite opp_value in R. exists d. split; auto. }
    destruct X as (d & D & ->).
    cbn [ev maj wt und]. change ((1 + u) ^ S (max (wt a) (wt b))) with ((1 + u) * (1 + u) ^ max (wt a) (wt b)).
    unfold Rminus at 2 4. apply sum_step; auto using ev_maj, pow1.
    + eapply Rle_trans; [exact IHa|]. apply Rplus_le_compat_r. apply Rmult_le_compat_r; [apply maj_pos|]. apply Rplus_le_compat_r. apply pow_mono. lia.
    + replace (- rval (bfl b) - - ev b) with (- (rval (bfl b) - ev b)) by ring. rewrite Rabs_Ropp.
      eapply Rle_trans; [exact IHb|]. apply Rplus_le_compat_r. apply Rmult_le_compat_r; [apply maj_pos|]. apply Rplus_le_compat_r. apply pow_mono. lia.
    + rewrite Rabs_Ropp. apply ev_maj.
  - destruct N as [Na Nb]. pose proof (mul_fin _ _ F) as [Fa Fb]. specialize (IHa Na Fa). specialize (IHb Nb Fb).
    assert (Ka : number (bfl a)) by (split; auto using bfl_valid). assert (Kb : number (bfl b)) by (split; auto using bfl_valid).
    destruct (mul_rnd _ _ Ka Kb) as [E _]. specialize (E F). cbn [bfl]. rewrite E. destruct (err_any (rval (bfl a) * rval (bfl b))) as (d & e & D & H & _ & ->).
    cbn [ev maj wt und]. change ((1 + u) ^ S (wt a + wt b)) with ((1 + u) * (1 + u) ^ (wt a + wt b)). rewrite pow_add.
    apply mul_step; auto using ev_maj.
Qed.

(** no overflow below a cap *)
Fixpoint cap (B : R) (e : pe) : R :=
  match e with
  | PV x => B
  | PAdd a b | PSub a b => (1 + u) * (cap B a + cap B b)
  | PMul a b => (1 + u) * (cap B a * cap B b) + eta
  end.
Fixpoint capped (B : R) (e : pe) : Prop :=
  match e with
  | PV x => Rabs (rval x) <= B
  | PAdd a b | PSub a b | PMul a b => capped B a /\ capped B b /\ cap B e < big
  end.
Theorem poly_fin : forall B e, allnum e -> capped B e -> finite (bfl e) = true /\ Rabs (rval (bfl e)) <= cap B e.
Proof.
  intros B. induction e as [x|a IHa b IHb|a IHa b IHb|a IHa b IHb]; intros N C.
  - split; [apply N|apply C].
  - destruct N as [Na Nb]. destruct C as (Ca & Cb & C). destruct (IHa Na Ca) as [Fa Ba]. destruct (IHb Nb Cb) as [Fb Bb].
    assert (Ka : number (bfl a)) by (split; auto using bfl_valid). assert (Kb : number (bfl b)) by (split; auto using bfl_valid).
    destruct (add_rnd _ _ Ka Kb) as [E G]. cbn [bfl cap] in *. destruct (err_add _ _ (proj1 Ka) (proj1 Kb)) as (d & D & R).
    assert (X : Rabs (rnd (rval (bfl a) + rval (bfl b))) <= (1 + u) * (cap B a + cap B b)).
    { rewrite R, Rabs_mult, Rmult_comm. apply Rmult_le_compat; auto using Rabs_pos.
      - eapply Rle_trans; [apply Rabs_triang|]. rewrite Rabs_R1. lra.
      - eapply Rle_trans; [apply Rabs_triang|]. lra. }
    assert (F : finite (SFadd prec emax (bfl a) (bfl b)) = true) by (apply G; lra). split; auto. rewrite E; auto.
  - destruct N as [Na Nb]. destruct C as (Ca & Cb & C). destruct (IHa Na Ca) as [Fa Ba]. destruct (IHb Nb Cb) as [Fb Bb].
    assert (Ka : number (bfl a)) by (split; auto using bfl_valid). assert (Kb : number (bfl b)) by (split; auto using bfl_valid).
    destruct (sub_rnd _ _ Ka Kb) as [E G]. cbn [bfl cap] in *.
    destruct (err_add (bfl a) (SFopp (bfl b))) as (d & D & R); [apply Ka|apply opp_valid; apply Kb|]. rewrite opp_value in R.
    assert (X : Rabs (rnd (rval (bfl a) - rval (bfl b))) <= (1 + u) * (cap B a + cap B b)).
    { unfold Rminus. rewrite R, Rabs_mult, Rmult_comm. apply Rmult_le_compat; auto using Rabs_pos.
      - eapply Rle_trans; [apply Rabs_triang|]. rewrite Rabs_R1. lra.
      - eapply Rle_trans; [apply Rabs_triang|]. rewrite Rabs_Ropp. lra. }
    assert (F : finite (SFsub prec emax (bfl a) (bfl b)) = true) by (apply G; lra). split; auto. rewrite E; auto.
  - destruct N as [Na Nb]. destruct C as (Ca & Cb & C). destruct (IHa Na Ca) as [Fa Ba]. destruct (IHb Nb Cb) as [Fb Bb].
    assert (Ka : number (bfl a)) by (split; auto using bfl_valid). assert (Kb : number (bfl b)) by (split; auto using bfl_valid).
    destruct (mul_rnd _ _ Ka Kb) as [E G]. cbn [bfl cap] in *. destruct (err_any (rval (bfl a) * rval (bfl b))) as (d & e & D & H & _ & R).
    assert (X : Rabs (rnd (rval (bfl a) * rval (bfl b))) <= (1 + u) * (cap B a * cap B b) + eta).
    { rewrite R. eapply Rle_trans; [apply Rabs_triang|]. apply Rplus_le_compat; auto. rewrite !Rabs_mult, Rmult_comm. apply Rmult_le_compat; auto using Rabs_pos.
      - apply Rmult_le_pos; apply Rabs_pos.
      - eapply Rle_trans; [apply Rabs_triang|]. rewrite Rabs_R1. lra.
      - apply Rmult_le_compat; auto using Rabs_pos. }
    assert (F : finite (SFmul prec emax (bfl a) (bfl b)) = true) by (apply G; lra). split; auto. rewrite E; auto.
Qed.
