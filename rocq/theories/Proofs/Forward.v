(** * Functions that only call another function with their own parameters (proof tool) *)

From Coq Require Import String List ZArith Bool Lia.
From Verif Require Import MiniC.
From Verif.Spec Require Import CallApi.
From Verif.Proofs Require Import Loop.
Import ListNotations.
Local Open Scope list_scope.

Fixpoint names (es : exprs) : option (list string) :=
  match es with
  | Enil => Some []
  | Econs (EV x) es' => match names es' with Some l => Some (x :: l) | None => None end
  | _ => None
  end.
Fixpoint plain (ps : list (string * option nat)) : option (list string) :=
  match ps with
  | [] => Some []
  | (x, None) :: ps' => match plain ps' with Some l => Some (x :: l) | None => None end
  | _ => None
  end.
Fixpoint slist_eqb (a b : list string) : bool :=
  match a, b with [], [] => true | x :: a', y :: b' => String.eqb x y && slist_eqb a' b' | _, _ => false end.
Fixpoint fresh (x : string) (l : list string) : bool :=
  match l with [] => true | y :: l' => negb (String.eqb x y) && fresh x l' end.
Fixpoint distinct (l : list string) : bool :=
  match l with [] => true | x :: l' => fresh x l' && distinct l' end.
(** no "return e" in a statement *)
Fixpoint nonret (s : stmt) : bool :=
  match s with
  | SSeq a b | SIf _ a b => nonret a && nonret b
  | SFor _ _ _ b => nonret b
  | SRet _ => false
  | _ => true
  end.
Definition void (f : fundef) : bool := match f with Fun _ _ b => nonret b end.
Definition arity (f : fundef) : option nat :=
  match f with Fun ps _ _ => match plain ps with Some l => Some (length l) | None => None end end.

Definition fwd (f : fundef) : option fundef :=
  match f with
  | Fun ps [] b =>
    match plain ps with
    | None => None
    | Some l =>
      let ok g es := match names es with Some l' => slist_eqb l l' | None => false end && distinct l &&
                     match arity g with Some n => Nat.eqb n (length l) | None => false end in
      match b with
      | SRet (ECall g es) => if ok g es then Some g else None
      | SExp (ECall g es) => if ok g es && void g then Some g else None
      | _ => None
      end
    end
  | _ => None
  end.
Fixpoint resolve (n : nat) (f : fundef) : fundef :=
  match n with O => f | S n' => match fwd f with Some g => resolve n' g | None => f end end.

Lemma slist_eqb_eq : forall a b, slist_eqb a b = true -> a = b.
Proof.
  induction a; destruct b; simpl; try discriminate; auto. intros H. apply andb_prop in H. destruct H as [H1 H2].
  apply String.eqb_eq in H1. subst. f_equal. auto.
Qed.
Section Fwd.
Variable S : Scalar.
Notation F := (T S).

Lemma bind_plain : forall ps l vs (m : mem F), plain ps = Some l ->
  bind_params S ps vs m = if Nat.eqb (length vs) (length l) then Ok (combine l vs, m) else Err XArity.
Proof.
  induction ps as [|[x [n|]] ps IH]; simpl; intros l vs m E; try discriminate.
  - injection E as <-. destruct vs; reflexivity.
  - destruct (plain ps) as [l'|]; [|discriminate]. injection E as <-. destruct vs as [|v vs]; [reflexivity|].
    rewrite (IH l' vs m eq_refl). simpl. destruct (Nat.eqb (length vs) (length l')); reflexivity.
Qed.
Lemma lookup_fresh : forall x l (vs : list (value F)), fresh x l = true -> lookup x (combine l vs) = None.
Proof.
  induction l as [|y l IH]; intros vs H; [reflexivity|]. simpl in *. apply andb_prop in H. destruct H as [H1 H2].
  destruct vs; [reflexivity|]. simpl. destruct (String.eqb x y); [discriminate|]. auto.
Qed.
Lemma var_skip : forall x (a r : env F), lookup x a = None -> var S (a ++ r) x = var S r x.
Proof.
  intros x a r H. unfold var. f_equal. induction a as [|[y v] a IH]; [reflexivity|]. simpl in *. destruct (String.eqb x y); [discriminate|]. auto.
Qed.
Lemma fresh_app : forall x a b, fresh x (a ++ b) = fresh x a && fresh x b.
Proof. induction a; simpl; intros; auto. rewrite IHa. apply andb_assoc. Qed.
Lemma evals_names : forall es l (vs : list (value F)) a va m, names es = Some l -> length vs = length l -> length a = length va ->
  distinct (a ++ l) = true -> Forall (fun v => v <> VU) vs ->
  evals S es (combine (a ++ l) (va ++ vs)) m = Ok (vs, m).
Proof.
  induction es as [|e es IH]; intros l vs a va m E L La D N.
  - injection E as <-. destruct vs; [reflexivity|discriminate].
  - simpl in E. destruct e; try discriminate. destruct (names es) as [l'|]; [|discriminate]. injection E as <-.
    destruct vs as [|v vs]; [discriminate|]. inversion N; subst. injection L as L.
    change (evals S (Econs (EV x) es) (combine (a ++ x :: l') (va ++ v :: vs)) m) with
      (do (w, m1) <- (do w <- var S (combine (a ++ x :: l') (va ++ v :: vs)) x; Ok (w, m)); do (ws, m2) <- evals S es (combine (a ++ x :: l') (va ++ v :: vs)) m1; Ok (w :: ws, m2)).
    assert (V : var S (combine (a ++ x :: l') (va ++ v :: vs)) x = Ok v).
    { assert (A : combine (a ++ x :: l') (va ++ v :: vs) = combine a va ++ (x, v) :: combine l' vs).
      { clear -La. revert va La. induction a; destruct va; simpl; intros; try discriminate; auto. f_equal. apply IHa. lia. }
      rewrite A, var_skip.
      - unfold var. simpl. rewrite String.eqb_refl. destruct v; congruence.
      - apply lookup_fresh. clear -D. induction a; simpl in *; auto. apply andb_prop in D. destruct D as [D1 D2].
        rewrite fresh_app in D1. apply andb_prop in D1. destruct D1 as [_ D1]. simpl in D1. apply andb_prop in D1. destruct D1 as [D1 _].
        rewrite (IHa D2), andb_true_r, String.eqb_sym. auto. }
    rewrite V. cbn [rbind].
    replace (a ++ x :: l') with ((a ++ [x]) ++ l') by (rewrite <- app_assoc; reflexivity).
    replace (va ++ v :: vs) with ((va ++ [v]) ++ vs) by (rewrite <- app_assoc; reflexivity).
    rewrite (IH l' vs); auto.
    + rewrite !app_length; simpl; lia.
    + rewrite <- app_assoc. auto.
Qed.
Lemma exec_nonret : forall s r (m : mem F) fl r1 m1, nonret s = true -> exec S s r m = Ok (fl, r1, m1) -> fl = FNext \/ fl = FRet VVoid.
Proof.
  assert (B : forall A B (x : res A) (k : A -> res B) y, rbind x k = Ok y -> exists a, x = Ok a /\ k a = Ok y).
  { intros A B [a|] k y H; [eauto|discriminate]. }
  induction s; intros r m fl r1 m1 N E; cbn [nonret] in N; try discriminate.
  - cbn in E. injection E as <- <- <-. auto.
  - rewrite exec_seq in E. apply B in E. destruct E as ([[f ra] ma] & E1 & E2). apply andb_prop in N. destruct N.
    destruct f; [eauto|]. injection E2 as <- <- <-. eauto.
  - apply B in E. destruct E as ([v ma] & _ & E2). injection E2 as <- <- <-. auto.
  - apply B in E. destruct E as ([v ma] & _ & E2). apply B in E2. destruct E2 as ([v' mb] & _ & E2). apply B in E2. destruct E2 as (mc & _ & E2). injection E2 as <- <- <-. auto.
  - apply B in E. destruct E as ([v ma] & _ & E2). apply B in E2. destruct E2 as ([v' mb] & _ & E2). apply B in E2. destruct E2 as (mc & _ & E2). injection E2 as <- <- <-. auto.
  - apply B in E. destruct E as ([v ma] & _ & E2). apply B in E2. destruct E2 as ([v' mb] & _ & E2). apply B in E2. destruct E2 as (mc & _ & E2). injection E2 as <- <- <-. auto.
  - apply B in E. destruct E as ([v ma] & _ & E2). injection E2 as <- <- <-. auto.
  - rewrite exec_if in E. apply B in E. destruct E as ([v ma] & _ & E2). apply B in E2. destruct E2 as (x & _ & E2). apply andb_prop in N. destruct N. destruct x; eauto.
  - rewrite exec_for in E. apply B in E. destruct E as ([v ma] & _ & E2). apply B in E2. destruct E2 as ([w mb] & _ & E2).
    destruct v; try discriminate. destruct w; try discriminate.
    revert E2. generalize (Z.to_nat (z0 - z)). intros n. revert z r mb. induction n; intros z r mb E.
    + cbn in E. injection E as <- <- <-. auto.
    + rewrite forloop_S in E. apply B in E. destruct E as ([[f ra] mc] & E1 & E2). destruct f; [eauto|].
      injection E2 as <- <- <-. eauto.
  - apply B in E. destruct E as ([v ma] & _ & E2). apply B in E2. destruct E2 as (x & _ & E2). destruct x; [|discriminate]. injection E2 as <- <- <-. auto.
  - cbn in E. injection E as <- <- <-. auto.
Qed.
Lemma call_void : forall f vs (m : mem F) v m1, void f = true -> call S f vs m = Ok (v, m1) -> v = VVoid.
Proof.
  intros [ps ls b] vs m v m1 N E. rewrite call_fun in E. destruct (bind_params S ps vs m) as [[r ma]|]; [|discriminate]. cbn [rbind] in E.
  destruct (bind_locals S ls ma) as [r2 m2]. destruct (exec S b (r ++ r2) m2) as [[[f ra] mc]|] eqn:X; [|discriminate]. cbn [rbind] in E.
  destruct (exec_nonret _ _ _ _ _ _ N X); subst; injection E as <- _; auto.
Qed.
Lemma call_cut : forall f vs (m : mem F) v m1, call S f vs m = Ok (v, m1) -> firstn (length m) m1 = m1.
Proof.
  intros [ps ls b] vs m v m1 E. rewrite call_fun in E. destruct (bind_params S ps vs m) as [[r ma]|]; [|discriminate]. cbn [rbind] in E.
  destruct (bind_locals S ls ma) as [r2 m2]. destruct (exec S b (r ++ r2) m2) as [[[f ra] mc]|] eqn:X; [|discriminate]. cbn [rbind] in E.
  destruct f; injection E as _ <-; rewrite firstn_firstn; f_equal; lia.
Qed.
Lemma call_arity : forall g n vs (m : mem F), arity g = Some n -> length vs <> n -> call S g vs m = Err XArity.
Proof.
  intros [ps ls b] n vs m A L. rewrite call_fun. simpl in A. destruct (plain ps) as [l|] eqn:P; [|discriminate]. injection A as <-.
  rewrite (bind_plain _ _ _ _ P). destruct (Nat.eqb_spec (length vs) (length l)); [contradiction|reflexivity].
Qed.
Lemma fwd_call : forall f g vs (m : mem F), fwd f = Some g -> Forall (fun v => v <> VU) vs -> call S f vs m = call S g vs m.
Proof.
  intros [ps [|? ?] b] g vs m E N; [|discriminate]. simpl in E. destruct (plain ps) as [l|] eqn:P; [|discriminate].
  assert (X : exists es, (b = SRet (ECall g es) \/ b = SExp (ECall g es) /\ void g = true) /\ names es = Some l /\ distinct l = true /\ arity g = Some (length l)).
  { destruct b; try discriminate; destruct e; try discriminate;
      destruct (names es) as [l'|] eqn:En; try discriminate; destruct (slist_eqb l l') eqn:El; try discriminate;
      destruct (distinct l) eqn:D; try discriminate; simpl in E; destruct (arity f) as [k|] eqn:A; try discriminate;
      destruct (Nat.eqb_spec k (length l)); try discriminate; subst; apply slist_eqb_eq in El; subst l'; simpl in E.
    - destruct (void f) eqn:V; [|discriminate]. injection E as ->. exists es; intuition.
    - injection E as ->. exists es; intuition. }
  destruct X as (es & Hb & En & D & A). rewrite call_fun, (bind_plain _ _ _ _ P).
  destruct (Nat.eqb_spec (length vs) (length l)) as [L|L]; [|rewrite (call_arity _ _ _ _ A L); reflexivity].
  cbn [rbind bind_locals]. rewrite app_nil_r.
  pose proof (evals_names es l vs [] [] m En L eq_refl D N) as Ev. simpl in Ev.
  assert (C : eval S (ECall g es) (combine l vs) m = call S g vs m).
  { change (eval S (ECall g es) (combine l vs) m) with (do (ws, m1) <- evals S es (combine l vs) m; call S g ws m1). rewrite Ev. reflexivity. }
  destruct Hb as [->|[-> V]].
  - rewrite exec_ret, C. destruct (call S g vs m) as [[v m1]|] eqn:Cg; [|reflexivity]. cbn [rbind]. rewrite (call_cut _ _ _ _ _ Cg). reflexivity.
  - rewrite exec_exp.
    rewrite C. destruct (call S g vs m) as [[v m1]|] eqn:Cg; [|reflexivity]. cbn [rbind]. rewrite (call_cut _ _ _ _ _ Cg), (call_void _ _ _ _ _ V Cg). reflexivity.
Qed.
End Fwd.
Lemma resolve_same : forall n f, same_effect f (resolve n f).
Proof.
  induction n; intros f S vs m N; [reflexivity|]. simpl. destruct (fwd f) as [g|] eqn:E; [|reflexivity].
  rewrite (fwd_call S f g vs m E N). apply IHn. auto.
Qed.
Lemma same_resolved : forall n f g, resolve n f = resolve n g -> same_effect f g.
Proof. intros n f g E S vs m N. rewrite (resolve_same n f S vs m N), (resolve_same n g S vs m N), E. reflexivity. Qed.

(** every exported function has exactly the effect of the inline function of the same name *)
Lemma C57_exported_ok : Forall (fun p => same_effect (fst p) (snd p)) exported.
Proof. unfold exported. repeat (apply Forall_cons; [apply (same_resolved 12); vm_compute; reflexivity|]). constructor. Qed.
Lemma C57_exported_ex : length exported = 743%nat.
Proof. reflexivity. Qed.
