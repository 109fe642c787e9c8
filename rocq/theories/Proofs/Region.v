(** * Updating regions of memory (proof tool) *)

From Coq Require Import String List ZArith Bool Lia.
From Verif Require Import MiniC Contract SymCall.
Import ListNotations.
Local Open Scope Z_scope.
Local Open Scope list_scope.

Section R.
Context {S : Scalar}.
Notation F := (T S).
Implicit Types (m : mem F) (p q : ptr) (cs ds : list (cell F)).

Lemma mreads_intro : forall n m b o cs, length cs = n -> (forall k, (k < n)%nat -> mread m b (o + Z.of_nat k) = nth_error cs k) ->
  mreads m b o n = Some cs.
Proof.
  induction n; intros m b o cs L H; destruct cs as [|c cs]; try discriminate; auto. simpl.
  pose proof (H O ltac:(lia)) as H0. rewrite Z.add_0_r in H0. rewrite H0. simpl.
  rewrite (IHn m b (o + 1) cs); auto. intros k Hk. specialize (H (Datatypes.S k) ltac:(lia)). simpl in H. rewrite <- H. f_equal. lia.
Qed.
Lemma holds_nth : forall m p cs, holds m p cs <-> forall k, (k < length cs)%nat -> mread m (fst p) (snd p + Z.of_nat k) = nth_error cs k.
Proof.
  intros. unfold holds. split; intros H.
  - apply (mreads_nth S) in H. apply H.
  - apply mreads_intro; auto.
Qed.
Lemma holds_readable : forall m p cs, holds m p cs -> readable S m p (length cs).
Proof. intros m p cs H. apply valid_readable. unfold valid. rewrite H. discriminate. Qed.
Lemma readable_valid : forall n m p, readable S m p n -> valid m p n.
Proof.
  unfold valid. induction n; intros m [b o] H; simpl; [discriminate|].
  destruct (mread m b o) eqn:E. 2:{ exfalso. apply (H b o); auto. split; simpl; lia. }
  specialize (IHn m (b, o + 1)). simpl in IHn. destruct (mreads m b (o + 1) n); [discriminate|]. apply IHn.
  intros b' o' [-> I]. apply H. simpl in *. split; simpl; lia.
Qed.
Lemma readable_part : forall m p n k j, readable S m p n -> (k + j <= n)%nat -> readable S m (fst p, snd p + Z.of_nat k) j.
Proof. intros m p n k j H L b o [-> I]. apply H. simpl in *. split; simpl; lia. Qed.
Lemma readable_upd : forall m p cs q n, readable S m p (length cs) -> readable S m q n -> readable S (upd m p cs) q n.
Proof.
  intros m p cs q n H Hq b o I. destruct (upd_ok S m p cs H) as (_ & A & B). destruct (inr_dec p (length cs) b o) as [J|J].
  - rewrite A by auto. apply nth_error_Some. destruct J. lia.
  - rewrite B by auto. auto.
Qed.
Lemma holds_upd_same : forall m p cs, readable S m p (length cs) -> holds (upd m p cs) p cs.
Proof.
  intros m p cs H. apply holds_nth. intros k Hk. destruct (upd_ok S m p cs H) as (_ & A & _). rewrite A by (split; lia). f_equal. lia.
Qed.
Lemma holds_upd_apart : forall m p cs q ds, readable S m p (length cs) -> apart p (length cs) q (length ds) -> holds m q ds -> holds (upd m p cs) q ds.
Proof.
  intros m p cs q ds H Ap Hq. apply holds_nth. intros k Hk. rewrite holds_nth in Hq. destruct (upd_ok S m p cs H) as (_ & _ & B).
  rewrite B; auto. intros I. apply (apart_inr _ _ _ _ _ _ Ap I). split; lia.
Qed.
Lemma holds_part : forall m p cs k j, holds m p cs -> (k + j <= length cs)%nat -> holds m (fst p, snd p + Z.of_nat k) (firstn j (skipn k cs)).
Proof.
  intros m p cs k j H L. rewrite holds_nth in *. simpl. rewrite firstn_length, skipn_length. intros i Hi.
  replace (snd p + Z.of_nat k + Z.of_nat i) with (snd p + Z.of_nat (k + i)) by lia. rewrite H by lia.
  rewrite <- (firstn_skipn k cs) at 1. rewrite nth_error_app2; rewrite firstn_length, Nat.min_l by lia; [|lia].
  replace (k + i - k)%nat with i by lia. rewrite <- (firstn_skipn j (skipn k cs)) at 1. rewrite nth_error_app1; auto. rewrite firstn_length, skipn_length. lia.
Qed.
Lemma upd_nil : forall m p, upd m p [] = m.
Proof. reflexivity. Qed.
Lemma upd_held : forall m p cs, holds m p cs -> upd m p cs = m.
Proof.
  intros m p cs H. destruct (upd_ok S m p cs (holds_readable _ _ _ H)) as (L & A & B). apply mem_ext; auto.
  intros b o. destruct (inr_dec p (length cs) b o) as [J|J]; [|apply B; auto]. rewrite A by auto. rewrite holds_nth in H. destruct J as [-> J].
  specialize (H (Z.to_nat (o - snd p)) ltac:(lia)). rewrite Z2Nat.id in H by lia. rewrite <- H. f_equal. lia.
Qed.
Lemma upd_same : forall m p cs ds, readable S m p (length ds) -> length cs = length ds -> upd (upd m p cs) p ds = upd m p ds.
Proof.
  intros m p cs ds H L. assert (H' : readable S m p (length cs)) by (rewrite L; auto).
  destruct (upd_ok S m p cs H') as (L1 & A1 & B1). destruct (upd_ok S m p ds H) as (L2 & A2 & B2).
  destruct (upd_ok S (upd m p cs) p ds (readable_upd _ _ _ _ _ H' H)) as (L3 & A3 & B3).
  apply mem_ext; [congruence|]. intros b o. destruct (inr_dec p (length ds) b o) as [J|J].
  - rewrite A3, A2; auto.
  - rewrite B3, B2, B1; auto. rewrite L; auto.
Qed.
Lemma upd_app : forall m p cs ds, readable S m p (length cs + length ds) ->
  upd (upd m p cs) (fst p, snd p + Z.of_nat (length cs)) ds = upd m p (cs ++ ds).
Proof.
  intros m p cs ds H.
  assert (H1 : readable S m p (length cs)).
  { pose proof (readable_part m p _ 0 (length cs) H ltac:(lia)) as X. rewrite Z.add_0_r in X. destruct p; exact X. }
  assert (H2 : readable S m (fst p, snd p + Z.of_nat (length cs)) (length ds)) by (apply (readable_part m p _ _ _ H); lia).
  assert (H3 : readable S m p (length (cs ++ ds))) by (rewrite app_length; auto).
  destruct (upd_ok S m p cs H1) as (L1 & A1 & B1). destruct (upd_ok S m p _ H3) as (L2 & A2 & B2).
  destruct (upd_ok S (upd m p cs) _ ds (readable_upd _ _ _ _ _ H1 H2)) as (L3 & A3 & B3).
  apply mem_ext; [congruence|]. intros b o. rewrite app_length in A2, B2.
  destruct (inr_dec (fst p, snd p + Z.of_nat (length cs)) (length ds) b o) as [J|J].
  - rewrite A3 by auto. destruct J as [-> J]. simpl in *. rewrite A2 by (split; lia). rewrite nth_error_app2 by lia. f_equal. lia.
  - rewrite B3 by auto. destruct (inr_dec p (length cs) b o) as [I|I].
    + rewrite A1 by auto. destruct I as [-> I]. rewrite A2 by (split; lia). rewrite nth_error_app1 by lia. reflexivity.
    + rewrite B1 by auto. symmetry. apply B2. intros [-> X]. destruct (Z_lt_dec o (snd p + Z.of_nat (length cs))).
      * apply I. split; lia.
      * apply J. split; simpl; lia.
Qed.
Lemma apart_sym : forall p n q k, apart p n q k -> apart q k p n.
Proof. unfold apart. intros. destruct H as [H|[H|H]]; auto. Qed.
Lemma apart_part : forall p n q k i j, apart p n q k -> (i + j <= n)%nat -> apart (fst p, snd p + Z.of_nat i) j q k.
Proof. unfold apart. simpl. intros. destruct H as [H|[H|H]]; auto. right; left; lia. right; right; lia. Qed.

(** a call of a two-pointer function that copies or computes [ds] from [cs] *)
Lemma call2 : forall g cs n ds m p q, computes S g [InA cs; Out n] VVoid [ds] -> holds m p cs -> readable S m q n ->
  apart q n p (length cs) \/ (p = q /\ n = length cs) ->
  call S g [VP (fst p) (snd p); VP (fst q) (snd q)] m = Ok (VVoid, upd m q ds).
Proof.
  intros g cs n ds m p q C H V A. apply (C m [p; q]). split.
  - repeat constructor; simpl; auto. apply readable_valid; auto.
  - intros i j a b x y Nij Ha Hb Hx Hy W P.
    destruct i as [|[|[|i]]], j as [|[|[|j]]]; simpl in *; try congruence; try discriminate;
      injection Ha as <-; injection Hb as <-; injection Hx as <-; injection Hy as <-; simpl in *; try discriminate.
    destruct A as [A|[-> ->]]; auto.
Qed.
End R.
