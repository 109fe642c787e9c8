(** * No execution changes the sizes of objects (proof tool) *)

From Coq Require Import String List ZArith Bool Lia.
From Verif Require Import MiniC SymSound.
From Verif.Proofs Require Import Loop.
Import ListNotations.
Local Open Scope nat_scope.
Local Open Scope list_scope.

Section Shape.
Variable S : Scalar.
Notation F := (T S).
Definition sizes (m : mem F) : list nat := map (@length _) m.

Lemma bound : forall A B (x : res A) (k : A -> res B) y, rbind x k = Ok y -> exists a, x = Ok a /\ k a = Ok y.
Proof. intros A B [a|] k y H; [eauto|discriminate]. Qed.
Lemma lset_len : forall A (l : list A) k x, length (lset l k x) = length l.
Proof. induction l; destruct k; simpl; auto. Qed.
Lemma lset_sizes : forall (m : mem F) b blk blk', nth_error m b = Some blk -> length blk' = length blk -> sizes (lset m b blk') = sizes m.
Proof. induction m; destruct b; simpl; intros; try discriminate. injection H as <-. unfold sizes. simpl. f_equal. auto. unfold sizes in *. simpl. f_equal. eauto. Qed.
Lemma mwrite_sizes : forall (m : mem F) b o c m', mwrite m b o c = Some m' -> sizes m' = sizes m.
Proof.
  intros m b o c m' H. unfold mwrite in H. destruct (mread m b o); [|discriminate]. destruct (nth_error m b) as [blk|] eqn:E; [|discriminate].
  injection H as <-. eapply lset_sizes; eauto. apply lset_len.
Qed.
Lemma mwrites_sizes : forall cs (m : mem F) b o m', mwrites m b o cs = Some m' -> sizes m' = sizes m.
Proof.
  induction cs; intros m b o m' H; simpl in H. congruence.
  destruct (mwrite m b o a) as [m1|] eqn:E; [|discriminate]. rewrite (IHcs _ _ _ _ H). eapply mwrite_sizes; eauto.
Qed.
Lemma store_sizes : forall (m : mem F) p v m', store S m p v = Ok m' -> sizes m' = sizes m.
Proof.
  intros m p v m' H. unfold store in H. apply bound in H. destruct H as ([b o] & _ & H). apply bound in H. destruct H as (c & _ & H).
  destruct (mwrite m b o c) eqn:E; [|discriminate]. injection H as <-. eapply mwrite_sizes; eauto.
Qed.
Lemma storeA_sizes : forall (m : mem F) n p v m', storeA S m n p v = Ok m' -> sizes m' = sizes m.
Proof.
  intros m n p v m' H. unfold storeA in H. apply bound in H. destruct H as ([b o] & _ & H). destruct v; try discriminate.
  destruct (Nat.eqb _ _); [|discriminate]. match type of H with of_opt _ ?x = _ => destruct x eqn:E; [|discriminate] end. injection H as <-. eapply mwrites_sizes; eauto.
Qed.
Lemma storeV_sizes : forall (m : mem F) n p v m', storeV S m n p v = Ok m' -> sizes m' = sizes m.
Proof.
  intros m n p v m' H. unfold storeV in H. apply bound in H. destruct H as ([b o] & _ & H). destruct v; try discriminate.
  destruct (Nat.leb _ _); [|discriminate]. apply bound in H. destruct H as (cs & _ & H). match type of H with of_opt _ ?x = _ => destruct x eqn:E; [|discriminate] end. injection H as <-. eapply mwrites_sizes; eauto.
Qed.
Lemma params_grow : forall ps vs (m : mem F) r m', bind_params S ps vs m = Ok (r, m') -> exists t, m' = m ++ t.
Proof.
  induction ps as [|[x [n|]] ps IH]; intros vs m r m' H; simpl in H.
  - destruct vs; [|discriminate]. injection H as _ <-. exists []. rewrite app_nil_r. auto.
  - destruct vs as [|[] vs]; try discriminate. destruct (Nat.eqb _ _); [|discriminate]. apply bound in H. destruct H as ([r1 m1] & H1 & H2). injection H2 as _ <-.
    destruct (IH _ _ _ _ H1) as [t ->]. eexists ([_] ++ t). rewrite app_assoc. auto.
  - destruct vs as [|v vs]; [discriminate|]. apply bound in H. destruct H as ([r1 m1] & H1 & H2). injection H2 as _ <-. eauto.
Qed.
Lemma locals_grow : forall ls (m : mem F), exists t, snd (bind_locals S ls m) = m ++ t.
Proof.
  induction ls as [|[x [n|]] ls IH]; intros m; simpl.
  - exists []. rewrite app_nil_r. auto.
  - destruct (IH (m ++ [repeat CU n])) as [t E]. destruct (bind_locals S ls _) as [r1 m1]. simpl in *. subst. exists ([repeat CU n] ++ t). rewrite app_assoc. auto.
  - destruct (IH m) as [t E]. destruct (bind_locals S ls _) as [r1 m1]. simpl in *. eauto.
Qed.

Ltac next H := apply bound in H; let a := fresh "a" in let E := fresh "E" in destruct H as (a & E & H).
Ltac done H := injection H; clear H; intros; subst.

Theorem keeps :
  (forall e r m v m', eval S e r m = Ok (v, m') -> sizes m' = sizes m) /\
  (forall es r m vs m', evals S es r m = Ok (vs, m') -> sizes m' = sizes m) /\
  (forall s r m fl r' m', exec S s r m = Ok (fl, r', m') -> sizes m' = sizes m) /\
  (forall f vs m v m', call S f vs m = Ok (v, m') -> sizes m' = sizes m).
Proof.
  apply syn_ind; intros.
  all: try (match goal with h : eval S ?e ?r ?m = Ok (?v, ?m') |- _ =>
     change (eval S e r m) with (ltac:(let t := eval cbn [eval] in (eval S e r m) in exact t)) in h end).
  all: try match goal with h : exec S (SFor _ _ _ _) _ _ = _ |- _ => rewrite exec_for in h end.
  all: try match goal with h : call S (Fun _ _ _) _ _ = _ |- _ => rewrite call_fun in h end.
  all: try match goal with h : exec S ?e ?r ?m = Ok _ |- _ => cbn [exec] in h; fold (exec S) (eval S) (evals S) (call S) in h end.
  all: try match goal with h : evals S ?e ?r ?m = Ok _ |- _ => cbn [evals] in h; fold (exec S) (eval S) (evals S) (call S) in h end.
  all: fold (exec S) (eval S) (evals S) (call S) in *.
  all: repeat match goal with
    | h : rbind _ _ = Ok _ |- _ => next h
    | h : (match ?x with _ => _ end) = Ok _ |- _ => let E := fresh "X" in destruct x eqn:E; try discriminate
    | h : Ok _ = Ok _ |- _ => done h
    end.
  all: repeat match goal with
    | h : store S _ _ _ = Ok _ |- _ => apply store_sizes in h
    | h : storeA S _ _ _ _ = Ok _ |- _ => apply storeA_sizes in h
    | h : storeV S _ _ _ _ = Ok _ |- _ => apply storeV_sizes in h
    | IH : forall _ _ _ _, eval S ?e _ _ = _ -> _, h : eval S ?e _ _ = Ok _ |- _ => apply IH in h
    | IH : forall _ _ _ _ _, exec S ?e _ _ = _ -> _, h : exec S ?e _ _ = Ok _ |- _ => apply IH in h
    | IH : forall _ _ _ _, evals S ?e _ _ = _ -> _, h : evals S ?e _ _ = Ok _ |- _ => apply IH in h
    | IH : forall _ _ _ _, call S ?e _ _ = _ -> _, h : call S ?e _ _ = Ok _ |- _ => apply IH in h
    end.
  all: subst; try congruence.
  - rewrite <- E, <- E0. clear E E0. match goal with h : forloop _ _ _ ?k ?z _ ?m1 = _ |- _ => revert h; generalize k; revert r m1; generalize z end. intros z2 r m1 n. revert z2 r m1. induction n; intros z2 r m1 H2.
    + cbn in H2. done H2. auto.
    + rewrite forloop_S in H2. next H2. destruct a as [[[|] r1] m2]. rewrite (IHn _ _ _ H2). eauto. done H2. eauto.
  - assert (m' = firstn (length m) m2) by (destruct f; simpl in H0; congruence). subst m'.
    destruct (params_grow _ _ _ _ _ E) as [t1 ->]. destruct (locals_grow locals (m ++ t1)) as [t2 Y]. rewrite X0 in Y. simpl in Y. subst m1.
    unfold sizes in *. rewrite <- firstn_map, E0, !map_app, <- app_assoc. rewrite <- (map_length (@length _) m) at 1.
    rewrite firstn_app, firstn_all, Nat.sub_diag. simpl. apply app_nil_r.
Qed.
Definition exec_sizes := proj1 (proj2 (proj2 keeps)).
Definition call_sizes := proj2 (proj2 (proj2 keeps)).
Lemma mread_beyond : forall (m : mem F) b o n, nth_error (sizes m) b = Some n -> (Z.of_nat n <= o)%Z -> mread m b o = None.
Proof.
  intros m b o n H L. unfold mread. destruct (Z.ltb_spec o 0); auto. unfold sizes in H. rewrite nth_error_map in H.
  destruct (nth_error m b); auto. injection H as <-. apply nth_error_None. lia.
Qed.
End Shape.
