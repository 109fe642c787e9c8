(** * Deciding agreement of builds (proof tool) *)

From Coq Require Import List ZArith Bool.
From Verif Require Import MiniC RScalar Contract Sym SymSound SymCall.
From Verif.Spec Require Import Types Agree Builds.
From Verif.Proofs Require Import Safe Same RNorm RNormSound.
Import ListNotations.

Definition results (K : nat) (f : fundef) (ps : list param) :=
  flat_map (fun sa => map (fun p => y_call K (sro sa) f (sactuals sa p) (sregions sa p) (nfloats ps)) (patterns sa)) (build ps 0 0 0).
Definition exactly (K : nat) (p : fundef * fundef * list param) : Prop :=
  let '(f, g, ps) := p in safeb K f ps = true /\ results K f ps = results K g ps.
Lemma flat_map_dep : forall A B C (h : A -> list B) (u v : A -> B -> C) l,
  flat_map (fun x => map (u x) (h x)) l = flat_map (fun x => map (v x) (h x)) l -> forall x y, List.In x l -> List.In y (h x) -> u x y = v x y.
Proof.
  intros A B C h u v l. induction l as [|a l IH]; intros E x y I J; [destruct I|]. simpl in E.
  assert (X : map (u a) (h a) = map (v a) (h a) /\ flat_map (fun x => map (u x) (h x)) l = flat_map (fun x => map (v x) (h x)) l).
  { revert E. generalize (flat_map (fun x => map (u x) (h x)) l), (flat_map (fun x => map (v x) (h x)) l). generalize (h a). clear.
    induction l; simpl; intros p q E; auto. inversion E. destruct (IHl _ _ H1). split; auto. f_equal; auto. }
  destruct X as [X1 X2]. destruct I as [->|I]; [|eapply IH; eauto]. clear -X1 J. induction (h x) as [|z m IH]; [destruct J|].
  simpl in X1. inversion X1. destruct J as [->|J]; auto.
Qed.
Lemma exactly_ok : forall K p, exactly K p -> forall S, agree_on S p.
Proof.
  intros K [[f g] ps] [H1 H2] S args HF. destruct (build_ok S ps args HF [] [] []) as (is & bs & fs & sa & I & Lf & E). simpl in E.
  apply (agree_intro S K f g sa args is bs fs E). apply Forall_forall. intros pat J. rewrite Lf. split.
  - unfold safeb in H1. rewrite forallb_forall in H1. specialize (H1 _ I). rewrite forallb_forall in H1. apply (H1 _ J).
  - unfold results in H2. exact (flat_map_dep _ _ _ patterns
      (fun sa p => y_call K (sro sa) f (sactuals sa p) (sregions sa p) (nfloats ps))
      (fun sa p => y_call K (sro sa) g (sactuals sa p) (sregions sa p) (nfloats ps)) _ H2 sa pat I J).
Qed.
Definition err_eqb (x y : err) : bool :=
  match x, y with
  | XBounds, XBounds | XUninit, XUninit | MiniC.XNull, MiniC.XNull | XOverflow, XOverflow | XDivZero, XDivZero | XShift, XShift
  | XAssert, XAssert | XFloatDomain, XFloatDomain | XType, XType | XArity, XArity | XNoReturn, XNoReturn => true
  | _, _ => false
  end.
Fixpoint tree_eqb {A} (e : A -> A -> bool) (t u : tree A) : bool :=
  match t, u with
  | TLeaf a, TLeaf b => e a b
  | TErr, TErr => true
  | TIf b t1 t2, TIf c u1 u2 => bexp_eqb b c && tree_eqb e t1 u1 && tree_eqb e t2 u2
  | TGuard x g t1, TGuard y h u1 => err_eqb x y && bexp_eqb g h && tree_eqb e t1 u1
  | _, _ => false
  end.
Definition vm_eqb (x y : sval * smem) : bool := sval_eqb (fst x) (fst y) && list_eqb (list_eqb scell_eqb) (snd x) (snd y).
Definition result_eqb (x y : tree (sval * smem) * nat * binds) : bool :=
  tree_eqb vm_eqb (fst (fst x)) (fst (fst y)) && Nat.eqb (snd (fst x)) (snd (fst y)) &&
  list_eqb (fun a b => Nat.eqb (fst a) (fst b) && sexp_eqb (snd a) (snd b)) (snd x) (snd y).
Lemma err_eqb_eq : forall x y, err_eqb x y = true -> x = y.
Proof. destruct x, y; simpl; intros; auto; discriminate. Qed.
Lemma vm_eqb_eq : forall x y, vm_eqb x y = true -> x = y.
Proof.
  intros [a b] [c d] H. unfold vm_eqb in H. simpl in H. apply andb_prop in H. destruct H as [H1 H2]. f_equal.
  - apply sval_eqb_eq. auto.
  - revert H2. apply list_eqb_eq. apply list_eqb_eq. apply scell_eqb_eq.
Qed.
Lemma tree_eqb_eq : forall A (e : A -> A -> bool), (forall x y, e x y = true -> x = y) -> forall t u, tree_eqb e t u = true -> t = u.
Proof.
  intros A e E. induction t; destruct u; simpl; intros H; try discriminate; auto; repeat (apply andb_prop in H; destruct H as [H ?]);
    f_equal; auto using bexp_eqb_eq, err_eqb_eq.
Qed.
Lemma result_eqb_eq : forall x y, result_eqb x y = true -> x = y.
Proof.
  intros [[t n] w] [[t' n'] w'] H. unfold result_eqb in H. simpl in H. apply andb_prop in H. destruct H as [H H3]. apply andb_prop in H. destruct H as [H1 H2].
  apply (tree_eqb_eq _ _ vm_eqb_eq) in H1. apply Nat.eqb_eq in H2. subst. f_equal.
  revert H3. apply list_eqb_eq. intros [a b] [c d] X. simpl in X. apply andb_prop in X. destruct X as [X1 X2]. apply Nat.eqb_eq in X1. apply sexp_eqb_eq in X2. congruence.
Qed.
Definition exactb (K : nat) (p : fundef * fundef * list param) : bool :=
  let '(f, g, ps) := p in safeb K f ps && list_eqb result_eqb (results K f ps) (results K g ps).
Lemma exact_all : forall K l, forallb (exactb K) l = true -> Forall (fun p => forall S, agree_on S p) l.
Proof.
  intros K l H. apply Forall_forall. intros [[f g] ps] I. rewrite forallb_forall in H. specialize (H _ I). simpl in H. apply andb_prop in H. destruct H as [H1 H2].
  apply exactly_ok with K. split; auto. revert H2. apply list_eqb_eq. apply result_eqb_eq.
Qed.

Definition ragreeb (t0 : table) (K : nat) (p : fundef * fundef * list param) : bool :=
  let '(f, g, ps) := p in
  forallb (fun sa => forallb (ragree_at t0 K f g sa (nfloats ps)) (patterns sa)) (build ps 0 0 0).
Lemma ragreeb_ok : forall t0 K p, ragreeb t0 K p = true -> agree_on RS p.
Proof.
  intros t0 K [[f g] ps] H args HF. destruct (build_ok RS ps args HF [] [] []) as (is & bs & fs & sa & I & Lf & E). simpl in E.
  apply (ragree_intro t0 K f g sa args is bs fs E). rewrite Lf. unfold ragreeb in H. rewrite forallb_forall in H. apply H. auto.
Qed.
Lemma real_all : forall t0 K l, forallb (ragreeb t0 K) l = true -> Forall (agree_on RS) l.
Proof. intros t0 K l H. apply Forall_forall. intros p I. apply ragreeb_ok with t0 K. rewrite forallb_forall in H. auto. Qed.

Ltac exact_all K := match goal with |- Forall _ ?l => apply (exact_all K l); vm_cast_no_check (eq_refl true) end.
Ltac real_all K := match goal with |- Forall _ ?l => apply (real_all [] K l); vm_cast_no_check (eq_refl true) end.
Ltac coarse_all K := match goal with |- Forall _ ?l => apply (real_all [KCoarse] K l); vm_cast_no_check (eq_refl true) end.
