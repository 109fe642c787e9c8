(** * Soundness of the symbolic evaluator with respect to [MiniC.call]. *)

From Coq Require Import String List ZArith Bool Lia.
From Verif Require Import MiniC Sym.
Import ListNotations.
Open Scope Z_scope.

(** ** Meaning of symbolic objects *)

Record asg (F : Type) := {
  a_f : nat -> F;
  a_i : nat -> Z;
  a_b : nat -> bool;
  a_c : nat -> cell F
}.
Arguments a_f {F}. Arguments a_i {F}. Arguments a_b {F}. Arguments a_c {F}.

Lemma y_mread_bound : forall sm b k c, y_mread sm b k = Some c ->
  0 <= k /\ exists blk, nth_error sm b = Some blk /\ k < Z.of_nat (length blk).
Proof.
  intros sm b k c H. unfold y_mread in H. destruct (k <? 0) eqn:E; try discriminate.
  apply Z.ltb_ge in E. split; auto. destruct (nth_error sm b) as [blk|]; try discriminate.
  exists blk. split; auto. assert (nth_error blk (Z.to_nat k) <> None) by congruence.
  apply nth_error_Some in H0. lia.
Qed.

Local Arguments fop1 : simpl never.
Local Arguments fop2 : simpl never.
Local Arguments mkint : simpl never.
Local Arguments in_int : simpl never.

Section Den.
Variable S : Scalar.
Notation F := (T S).
Variable a : asg F.

Fixpoint fden (s : sexp) : F :=
  match s with
  | SVar n => a_f a n
  | SLit n d => s_lit S n d
  | SPi n d => s_pi S n d
  | SOp1 o x => s_op1 S o (fden x)
  | SOp2 o x y => s_op2 S o (fden x) (fden y)
  | SFma x y z => s_fma S (fden x) (fden y) (fden z)
  | SIte c x y => if bden c then fden x else fden y
  | SOfZ i => s_ofZ S (iden i)
  end
with bden (b : bexp) : bool :=
  match b with
  | BLit x => x
  | BVar n => a_b a n
  | BCmpF c x y => s_cmp S c (fden x) (fden y)
  | BTest t x => s_test S t (fden x)
  | BCmpI c x y => icmp c (iden x) (iden y)
  | BNot x => negb (bden x)
  | BIte c x y => if bden c then bden x else bden y
  | BOk1 o x => s_ok1 S o (fden x)
  | BOk2 o x y => s_ok2 S o (fden x) (fden y)
  | BIn i => in_int (iden i)
  end
with iden (i : iexp) : Z :=
  match i with
  | ILit z => z
  | IVar n => a_i a n
  | IOp o x y => iop_z o (iden x) (iden y)
  | INeg x => - iden x
  | IAbs x => Z.abs (iden x)
  | IOfB b => b2z (bden b)
  | IIte c x y => if bden c then iden x else iden y
  end.

Definition lden (l : slane) : lane F :=
  match l with
  | YF s => LF (fden s)
  | YS b => LS b
  | YM b => LM (bden b)
  | YSel b s => LSel (bden b) (fden s)
  end.

Variable pi : list (nat * Z).   (* placement of the regions *)
Variable L : nat.               (* number of blocks of the caller's memory *)

Definition pden (b : nat) : nat * Z :=
  match nth_error pi b with Some p => p | None => ((L + (b - length pi))%nat, 0) end.

Fixpoint cden (c : scell) : cell F :=
  match c with
  | KU => CU
  | KF s => CF (fden s)
  | KI i => CI (iden i)
  | KP b o => CP (fst (pden b)) (snd (pden b) + o)
  | KOpq n => a_c a n
  | KIte c x y => if bden c then cden x else cden y
  end.

Fixpoint vden (v : sval) : value F :=
  match v with
  | XU => VU
  | XVoid => VVoid
  | XF s => VF (fden s)
  | XI i => VI (iden i)
  | XB b => VB (bden b)
  | XP b o => VP (fst (pden b)) (snd (pden b) + o)
  | XNull => VNull
  | XV l => VV (map lden l)
  | XT l => VT (map (map lden) l)
  | XA l => VA (map cden l)
  | XIte c x y => if bden c then vden x else vden y
  end.

Definition eden (r : senv) : env F := map (fun p => (fst p, vden (snd p))) r.
Definition mden (m : smem) : list (list (cell F)) := map (map cden) m.
Definition flden (f : sflow) : flow F := match f with YNext => FNext | YRet v => FRet (vden v) end.

Fixpoint tden {A} (t : tree A) : option A :=
  match t with
  | TLeaf a => Some a
  | TErr => None
  | TIf b t u => if bden b then tden t else tden u
  | TGuard e g t => if bden g then tden t else None
  end.
(** the error reached, if any *)
Fixpoint tbad {A} (t : tree A) : option err :=
  match t with
  | TLeaf a => None
  | TErr => None
  | TIf b t u => if bden b then tbad t else tbad u
  | TGuard e g t => if bden g then tbad t else Some e
  end.

Definition sat (w : binds) : Prop := Forall (fun p => a_f a (fst p) = fden (snd p)) w.

(** ** Equality tests *)

Lemma op1_eqb_eq : forall x y, op1_eqb x y = true -> x = y.
Proof. destruct x, y; simpl; congruence. Qed.
Lemma op2_eqb_eq : forall x y, op2_eqb x y = true -> x = y.
Proof. destruct x, y; simpl; congruence. Qed.
Lemma cmp_eqb_eq : forall x y, cmp_eqb x y = true -> x = y.
Proof. destruct x, y; simpl; congruence. Qed.
Lemma ftest_eqb_eq : forall x y, ftest_eqb x y = true -> x = y.
Proof. destruct x, y; simpl; congruence. Qed.
Lemma ibin_eqb_eq : forall x y, ibin_eqb x y = true -> x = y.
Proof. destruct x, y; simpl; congruence. Qed.

Ltac band :=
  repeat match goal with
  | H : _ && _ = true |- _ => apply andb_prop in H; destruct H
  | H : op1_eqb _ _ = true |- _ => apply op1_eqb_eq in H
  | H : op2_eqb _ _ = true |- _ => apply op2_eqb_eq in H
  | H : cmp_eqb _ _ = true |- _ => apply cmp_eqb_eq in H
  | H : ftest_eqb _ _ = true |- _ => apply ftest_eqb_eq in H
  | H : ibin_eqb _ _ = true |- _ => apply ibin_eqb_eq in H
  | H : Nat.eqb _ _ = true |- _ => apply Nat.eqb_eq in H
  | H : Pos.eqb _ _ = true |- _ => apply Pos.eqb_eq in H
  | H : Bool.eqb _ _ = true |- _ => apply Bool.eqb_prop in H
  | H : (_ =? _)%Z = true |- _ => apply Z.eqb_eq in H
  end.

Lemma exp_eqb_eq :
  (forall x y, sexp_eqb x y = true -> x = y) /\
  (forall x y, bexp_eqb x y = true -> x = y) /\
  (forall x y, iexp_eqb x y = true -> x = y).
Proof.
  apply sbi_ind; intros; destruct y; simpl in *; try discriminate; band; subst; f_equal; auto.
Qed.
Lemma sexp_eqb_eq : forall x y, sexp_eqb x y = true -> x = y. Proof. apply exp_eqb_eq. Qed.
Lemma bexp_eqb_eq : forall x y, bexp_eqb x y = true -> x = y. Proof. apply exp_eqb_eq. Qed.
Lemma iexp_eqb_eq : forall x y, iexp_eqb x y = true -> x = y. Proof. apply exp_eqb_eq. Qed.

Lemma slane_eqb_eq : forall x y, slane_eqb x y = true -> x = y.
Proof.
  destruct x, y; simpl; intros; try discriminate; band; f_equal; auto using sexp_eqb_eq, bexp_eqb_eq.
Qed.
Lemma scell_eqb_eq : forall x y, scell_eqb x y = true -> x = y.
Proof.
  induction x; destruct y; simpl; intros; try discriminate; auto; band; f_equal;
    auto using sexp_eqb_eq, bexp_eqb_eq, iexp_eqb_eq.
Qed.
Lemma list_eqb_eq : forall A (e : A -> A -> bool), (forall x y, e x y = true -> x = y) ->
  forall x y, list_eqb e x y = true -> x = y.
Proof. induction x; destruct y; simpl; intros; try discriminate; auto; band; f_equal; auto. Qed.
Lemma sval_eqb_eq : forall x y, sval_eqb x y = true -> x = y.
Proof.
  induction x; destruct y; simpl; intros; try discriminate; auto; band; f_equal;
    eauto using sexp_eqb_eq, bexp_eqb_eq, iexp_eqb_eq, list_eqb_eq, slane_eqb_eq, scell_eqb_eq.
Qed.

(** ** Smart constructors *)

Lemma mkNot_den : forall b, bden (mkNot b) = negb (bden b).
Proof. destruct b; simpl; auto. rewrite negb_involutive; auto. Qed.

Lemma mkBIte_den : forall c x y, bden (mkBIte c x y) = if bden c then bden x else bden y.
Proof.
  intros c x y. unfold mkBIte.
  assert (H : bden (if bexp_eqb x y then x else
     match x, y with BLit true, BLit false => c | BLit false, BLit true => mkNot c | _, _ => BIte c x y end)
     = if bden c then bden x else bden y).
  { destruct (bexp_eqb x y) eqn:E.
    - apply bexp_eqb_eq in E; subst. destruct (bden c); auto.
    - assert (G : bden (BIte c x y) = if bden c then bden x else bden y) by reflexivity.
      destruct x; auto. destruct b; destruct y; auto; destruct b; auto; simpl.
      + destruct (bden c); auto.
      + rewrite mkNot_den. destruct (bden c); auto. }
  destruct c; auto. destruct b; auto.
Qed.

Lemma mkSIte_den : forall c x y, fden (mkSIte c x y) = if bden c then fden x else fden y.
Proof.
  intros c x y. unfold mkSIte.
  assert (H : fden (if sexp_eqb x y then x else SIte c x y) = if bden c then fden x else fden y).
  { destruct (sexp_eqb x y) eqn:E; auto. apply sexp_eqb_eq in E; subst. destruct (bden c); auto. }
  destruct c; auto. destruct b; auto.
Qed.

Lemma mkIIte_den : forall c x y, iden (mkIIte c x y) = if bden c then iden x else iden y.
Proof.
  intros c x y. unfold mkIIte.
  assert (H : iden (if iexp_eqb x y then x else IIte c x y) = if bden c then iden x else iden y).
  { destruct (iexp_eqb x y) eqn:E; auto. apply iexp_eqb_eq in E; subst. destruct (bden c); auto. }
  destruct c; auto. destruct b; auto.
Qed.

Lemma mkIOp_den : forall o x y, iden (mkIOp o x y) = iop_z o (iden x) (iden y).
Proof. intros. unfold mkIOp. destruct x, y; auto. Qed.
Lemma mkINeg_den : forall x, iden (mkINeg x) = - iden x.
Proof. destruct x; auto. Qed.
Lemma mkIAbs_den : forall x, iden (mkIAbs x) = Z.abs (iden x).
Proof. destruct x; auto. Qed.
Lemma mkIOfB_den : forall x, iden (mkIOfB x) = b2z (bden x).
Proof. destruct x; auto. Qed.
Lemma mkCmpI_den : forall c x y, bden (mkCmpI c x y) = icmp c (iden x) (iden y).
Proof. intros. unfold mkCmpI. destruct x, y; auto. Qed.

Lemma irange_ok : forall i l h, irange i = Some (l, h) -> l <= iden i <= h.
Proof.
  induction i; simpl; intros l h H; try discriminate.
  - inversion H; lia.
  - destruct o; try discriminate; destruct (irange i1) as [[? ?]|]; try discriminate;
      destruct (irange i2) as [[? ?]|]; try discriminate; inversion H; subst; simpl;
      specialize (IHi1 _ _ eq_refl); specialize (IHi2 _ _ eq_refl); lia.
  - destruct (irange i) as [[? ?]|]; try discriminate; inversion H; subst.
    specialize (IHi _ _ eq_refl); lia.
  - inversion H; subst. destruct (bden b); simpl; lia.
  - destruct (irange i1) as [[? ?]|]; try discriminate;
      destruct (irange i2) as [[? ?]|]; try discriminate; inversion H; subst; simpl;
      specialize (IHi1 _ _ eq_refl); specialize (IHi2 _ _ eq_refl). destruct (bden c); lia.
Qed.

Lemma mkIn_den : forall i, bden (mkIn i) = in_int (iden i).
Proof.
  intros. unfold mkIn. destruct (irange i) as [[l h]|] eqn:E; auto.
  destruct (in_int l && in_int h) eqn:G; auto. apply irange_ok in E. simpl. symmetry.
  unfold in_int in *. apply andb_prop in G; destruct G as [G1 G2].
  apply andb_prop in G1; destruct G1; apply andb_prop in G2; destruct G2.
  apply andb_true_intro. rewrite !Z.leb_le in *. lia.
Qed.

Lemma mkIf_den : forall A b (t u : tree A), tden (mkIf b t u) = if bden b then tden t else tden u.
Proof. intros. destruct b; auto. destruct b; auto. Qed.
Lemma mkGuard_den : forall A e g (t : tree A), tden (mkGuard e g t) = if bden g then tden t else None.
Proof. intros. destruct g; auto. destruct b; auto. Qed.
Lemma mkIf_bad : forall A b (t u : tree A), tbad (mkIf b t u) = if bden b then tbad t else tbad u.
Proof. intros. destruct b; auto. destruct b; auto. Qed.
Lemma mkGuard_bad : forall A e g (t : tree A), tbad (mkGuard e g t) = if bden g then tbad t else Some e.
Proof. intros. destruct g; auto. destruct b; auto. Qed.

(** ** The monad *)

Definition runs {A} (m : M A) (n : nat) (x : A) : Prop :=
  sat (snd (m n)) /\ tden (fst (fst (m n))) = Some x.

Lemma sat_app : forall v w, sat (v ++ w) <-> sat v /\ sat w.
Proof. intros. unfold sat. apply Forall_app. Qed.

Lemma runs_ret : forall A (x y : A) n, runs (ret x) n y -> y = x.
Proof. intros A x y n [_ H]. simpl in H. congruence. Qed.
Lemma runs_fail : forall A (y : A) n, runs fail n y -> False.
Proof. intros A y n [_ H]. discriminate. Qed.

Lemma runs_tbind : forall A B (t : tree A) (k : A -> M B) n c,
  sat (snd (tbind t k n)) -> tden (fst (fst (tbind t k n))) = Some c ->
  exists x n', tden t = Some x /\ runs (k x) n' c.
Proof.
  induction t; simpl; intros k n c HS H.
  - exists a0, n. repeat split; auto.
  - discriminate.
  - destruct (tbind t1 k n) as [[t1' n1] w1] eqn:E1.
    destruct (tbind t2 k n1) as [[t2' n2] w2] eqn:E2. simpl in *.
    rewrite mkIf_den in H. apply sat_app in HS. destruct HS.
    destruct (bden b).
    + apply (IHt1 k n); rewrite E1; auto.
    + apply (IHt2 k n1); rewrite E2; auto.
  - destruct (tbind t k n) as [[t1' n1] w1] eqn:E1. simpl in *.
    rewrite mkGuard_den in H. destruct (bden g); try discriminate.
    apply (IHt k n); rewrite E1; auto.
Qed.

Lemma runs_bind : forall A B (m : M A) (k : A -> M B) n c,
  runs (mbind m k) n c -> exists x n', runs m n x /\ runs (k x) n' c.
Proof.
  unfold mbind. intros A B m k n c [HS H].
  destruct (m n) as [[t n1] w1] eqn:E. destruct (tbind t k n1) as [[u n2] w2] eqn:E2. simpl in *.
  apply sat_app in HS. destruct HS.
  destruct (runs_tbind _ _ t k n1 c) as (x & n' & ? & ?).
  - rewrite E2; auto.
  - rewrite E2; auto.
  - exists x, n'. split; auto. split; rewrite E; auto.
Qed.

Lemma runs_guard : forall e g n x, runs (guard e g) n x -> bden g = true.
Proof.
  intros e g n x [_ H]. unfold guard in H. simpl in H. rewrite mkGuard_den in H.
  destruct (bden g); congruence.
Qed.

Lemma runs_branch : forall A b (m1 m2 : M A) n x,
  runs (branch b m1 m2) n x -> exists n', if bden b then runs m1 n' x else runs m2 n' x.
Proof.
  intros A b m1 m2 n x H. unfold branch in H.
  assert (G : runs (fun n => let '(t, n1, w1) := m1 n in let '(u, n2, w2) := m2 n1 in (TIf b t u, n2, w1 ++ w2)) n x ->
    exists n', if bden b then runs m1 n' x else runs m2 n' x).
  { intros [HS K]. destruct (m1 n) as [[t n1] w1] eqn:E1. destruct (m2 n1) as [[u n2] w2] eqn:E2. simpl in *.
    apply sat_app in HS. destruct HS. destruct (bden b).
    - exists n. split; rewrite E1; auto.
    - exists n1. split; rewrite E2; auto. }
  destruct b; try (exact (G H)). destruct b; exists n; exact H.
Qed.

Lemma runs_mopt : forall A (o : option A) n x, runs (mopt o) n x -> o = Some x.
Proof. intros A [y|] n x H; simpl in H. apply runs_ret in H; congruence. apply runs_fail in H; tauto. Qed.

(** *** Errors *)
Definition fails {A} (m : M A) (n : nat) (e : err) : Prop :=
  sat (snd (m n)) /\ tbad (fst (fst (m n))) = Some e.

Lemma fails_ret : forall A (x : A) n e, fails (ret x) n e -> False.
Proof. intros A x n e [_ H]. discriminate. Qed.
Lemma fails_fail : forall A n e, fails (@fail A) n e -> False.
Proof. intros A n e [_ H]. discriminate. Qed.
Lemma fails_tbind : forall A B (t : tree A) (k : A -> M B) n e,
  sat (snd (tbind t k n)) -> tbad (fst (fst (tbind t k n))) = Some e ->
  tbad t = Some e \/ exists x n', tden t = Some x /\ fails (k x) n' e.
Proof.
  induction t; simpl; intros k n c HS H.
  - right. exists a0, n. repeat split; auto.
  - discriminate.
  - destruct (tbind t1 k n) as [[t1' n1] w1] eqn:E1.
    destruct (tbind t2 k n1) as [[t2' n2] w2] eqn:E2. simpl in *.
    rewrite mkIf_bad in H. apply sat_app in HS. destruct HS.
    destruct (bden b).
    + apply (IHt1 k n); rewrite E1; auto.
    + apply (IHt2 k n1); rewrite E2; auto.
  - destruct (tbind t k n) as [[t1' n1] w1] eqn:E1. simpl in *.
    rewrite mkGuard_bad in H. destruct (bden g); auto.
    apply (IHt k n); rewrite E1; auto.
Qed.
Lemma fails_bind : forall A B (m : M A) (k : A -> M B) n e,
  fails (mbind m k) n e -> fails m n e \/ exists x n', runs m n x /\ fails (k x) n' e.
Proof.
  unfold mbind. intros A B m k n c [HS H].
  destruct (m n) as [[t n1] w1] eqn:E. destruct (tbind t k n1) as [[u n2] w2] eqn:E2. simpl in *.
  apply sat_app in HS. destruct HS.
  destruct (fails_tbind _ _ t k n1 c) as [? | (x & n' & ? & ?)].
  - rewrite E2; auto.
  - rewrite E2; auto.
  - left. split; rewrite E; auto.
  - right. exists x, n'. split; auto. split; rewrite E; auto.
Qed.
Lemma fails_guard : forall e g n e', fails (guard e g) n e' -> bden g = false /\ e' = e.
Proof.
  intros e g n x [_ H]. unfold guard in H. simpl in H. rewrite mkGuard_bad in H.
  destruct (bden g); simpl in H; inversion H; auto.
Qed.
Lemma fails_branch : forall A b (m1 m2 : M A) n e,
  fails (branch b m1 m2) n e -> exists n', if bden b then fails m1 n' e else fails m2 n' e.
Proof.
  intros A b m1 m2 n x H. unfold branch in H.
  assert (G : fails (fun n => let '(t, n1, w1) := m1 n in let '(u, n2, w2) := m2 n1 in (TIf b t u, n2, w1 ++ w2)) n x ->
    exists n', if bden b then fails m1 n' x else fails m2 n' x).
  { intros [HS K]. destruct (m1 n) as [[t n1] w1] eqn:E1. destruct (m2 n1) as [[u n2] w2] eqn:E2. simpl in *.
    apply sat_app in HS. destruct HS. destruct (bden b).
    - exists n. split; rewrite E1; auto.
    - exists n1. split; rewrite E2; auto. }
  destruct b; try (exact (G H)). destruct b; exists n; exact H.
Qed.
Lemma fails_mopt : forall A (o : option A) n e, fails (mopt o) n e -> False.
Proof. intros A [y|] n x H; simpl in H. apply fails_ret in H; auto. apply fails_fail in H; auto. Qed.

(** collapsing *)
Definition gtrue (eg : err * bexp) : Prop := bden (snd eg) = true.
Lemma strip_den : forall A (t : tree A) gs u x, strip t = (gs, u) ->
  Forall gtrue gs -> tden u = Some x -> tden t = Some x.
Proof.
  induction t; simpl; intros gs v x H HG HU; try (inversion H; subst; auto; fail).
  destruct (strip t) as [gs' w] eqn:E. inversion H; subst. inversion HG; subst.
  unfold gtrue in H2. simpl in H2. rewrite H2. eapply IHt; eauto.
Qed.

Lemma guards_den : forall A gs (t : tree A) x, tden (guards gs t) = Some x ->
  Forall gtrue gs /\ tden t = Some x.
Proof.
  induction gs as [|[e g] gs]; simpl; intros t x H; auto.
  rewrite mkGuard_den in H. destruct (bden g) eqn:E; try discriminate.
  apply IHgs in H. destruct H; auto.
Qed.

(** the first false guard *)
Fixpoint gbad (gs : list (err * bexp)) : option err :=
  match gs with [] => None | (e, g) :: gs' => if bden g then gbad gs' else Some e end.
Lemma guards_bad : forall A gs (t : tree A), tbad (guards gs t) = match gbad gs with Some e => Some e | None => tbad t end.
Proof.
  induction gs as [|[e g] gs]; simpl; intros t; auto.
  rewrite mkGuard_bad. destruct (bden g); auto.
Qed.
Lemma strip_bad : forall A (t : tree A) gs u e, strip t = (gs, u) -> gbad gs = Some e -> tbad t = Some e.
Proof.
  induction t; simpl; intros gs v x H HG; try (inversion H; subst; discriminate).
  destruct (strip t) as [gs' w] eqn:E. inversion H; subst. simpl in HG.
  destruct (bden g); auto. eapply IHt; eauto.
Qed.
Lemma gbad_app : forall a b, gbad (a ++ b) = match gbad a with Some e => Some e | None => gbad b end.
Proof. induction a0 as [|[e g] l]; simpl; intros; auto. destruct (bden g); auto. Qed.
Lemma gbad_imp : forall b gs, gbad (map (imp b) gs) = if bden b then gbad gs else None.
Proof.
  induction gs as [|[e g] gs]; simpl; auto. { destruct (bden b); auto. }
  rewrite mkBIte_den. simpl. rewrite IHgs. destruct (bden b); auto.
Qed.

Lemma collapse_den : forall A (join : bexp -> A -> A -> option A) (eqv : A -> A -> Prop),
  (forall x, eqv x x) -> (forall x y z, eqv x y -> eqv y z -> eqv x z) ->
  (forall b x y z, join b x y = Some z -> if bden b then eqv x z else eqv y z) ->
  forall t z, tden (collapse join t) = Some z -> exists x, tden t = Some x /\ eqv x z.
Proof.
  intros A join eqv Hr Ht Hj. induction t; simpl; intros z H; eauto; try discriminate.
  - destruct (strip (collapse join t1)) as [g1 c1] eqn:E1.
    destruct (strip (collapse join t2)) as [g2 c2] eqn:E2.
    assert (HIf : tden (TIf b (collapse join t1) (collapse join t2)) = Some z ->
       exists x, (if bden b then tden t1 else tden t2) = Some x /\ eqv x z).
    { simpl. destruct (bden b); intros K; [apply IHt1 in K | apply IHt2 in K]; auto. }
    destruct c1; destruct c2; try (exact (HIf H)); try discriminate.
    destruct (join b a0 a1) as [a2|] eqn:EJ; try (exact (HIf H)).
    apply guards_den in H. destruct H as [HG HA]. simpl in HA. inversion HA; subst a2.
    apply Hj in EJ. rewrite Forall_app, !Forall_map in HG. destruct HG as [HG1 HG2].
    destruct (bden b) eqn:EB.
    + assert (K : tden (collapse join t1) = Some a0).
      { eapply strip_den; eauto. eapply Forall_impl; [|exact HG1]. intros [e g] Hg.
        unfold gtrue, imp in *. simpl in *. rewrite mkBIte_den, EB in Hg. auto. }
      apply IHt1 in K. destruct K as (x & ? & ?). eauto.
    + assert (K : tden (collapse join t2) = Some a1).
      { eapply strip_den; eauto. eapply Forall_impl; [|exact HG2]. intros [e g] Hg.
        unfold gtrue, imp in *. simpl in *. rewrite mkBIte_den, mkNot_den, EB in Hg. auto. }
      apply IHt2 in K. destruct K as (x & ? & ?). eauto.
  - destruct (bden g); try discriminate. auto.
Qed.
Lemma collapse_bad : forall A (join : bexp -> A -> A -> option A) t e,
  tbad (collapse join t) = Some e -> tbad t = Some e.
Proof.
  intros A join. induction t; simpl; intros z H; eauto; try discriminate.
  - destruct (strip (collapse join t1)) as [g1 c1] eqn:E1.
    destruct (strip (collapse join t2)) as [g2 c2] eqn:E2.
    assert (HIf : tbad (TIf b (collapse join t1) (collapse join t2)) = Some z ->
       (if bden b then tbad t1 else tbad t2) = Some z).
    { simpl. destruct (bden b); intros K; [apply IHt1 in K | apply IHt2 in K]; auto. }
    destruct c1; destruct c2; try (exact (HIf H)); try discriminate.
    destruct (join b a0 a1) as [a2|] eqn:EJ; try (exact (HIf H)).
    rewrite guards_bad, gbad_app, !gbad_imp, mkNot_den in H. simpl in H.
    destruct (bden b); simpl in H.
    + apply IHt1. eapply strip_bad; eauto. destruct (gbad g1); auto.
    + apply IHt2. eapply strip_bad; eauto. destruct (gbad g2); auto.
  - destruct (bden g); auto.
Qed.

(** joins *)
Lemma mapo2_den : forall A B (f : A -> A -> option A) (d : A -> B) (c : bool),
  (forall x y z, f x y = Some z -> d z = if c then d x else d y) ->
  forall x y z, mapo2 f x y = Some z -> map d z = if c then map d x else map d y.
Proof.
  intros A B f d c Hf. induction x; destruct y; simpl; intros z H; try discriminate.
  - inversion H; destruct c; auto.
  - destruct (f a0 a1) eqn:E; try discriminate. destruct (mapo2 f x y) eqn:E2; try discriminate.
    inversion H; subst. simpl. apply Hf in E. apply IHx in E2. rewrite E, E2. destruct c; auto.
Qed.

Lemma join_lane_den : forall c x y z, join_lane c x y = Some z -> lden z = if bden c then lden x else lden y.
Proof.
  intros c x y z H.
  assert (G : (if slane_eqb x y then Some x else None) = Some z -> lden z = if bden c then lden x else lden y).
  { destruct (slane_eqb x y) eqn:E; intros K; inversion K; subst. apply slane_eqb_eq in E; subst. destruct (bden c); auto. }
  destruct x, y; try (exact (G H)); simpl in H; inversion H; subst; simpl;
    rewrite ?mkSIte_den, ?mkBIte_den; destruct (bden c); auto.
Qed.
Lemma join_cell_den : forall c x y, cden (join_cell c x y) = if bden c then cden x else cden y.
Proof.
  intros c x y.
  assert (G : cden (if scell_eqb x y then x else KIte c x y) = if bden c then cden x else cden y).
  { destruct (scell_eqb x y) eqn:E; auto. apply scell_eqb_eq in E; subst. destruct (bden c); auto. }
  destruct x, y; try (exact G); simpl; rewrite ?mkSIte_den, ?mkIIte_den; destruct (bden c); auto.
Qed.
Lemma join_val_den : forall c x y, vden (join_val c x y) = if bden c then vden x else vden y.
Proof.
  intros c x y.
  assert (G : vden (if sval_eqb x y then x else XIte c x y) = if bden c then vden x else vden y).
  { destruct (sval_eqb x y) eqn:E; auto. apply sval_eqb_eq in E; subst. destruct (bden c); auto. }
  destruct x, y; try (exact G); unfold join_val.
  - simpl; rewrite ?mkSIte_den; destruct (bden c); auto.
  - simpl; rewrite ?mkIIte_den; destruct (bden c); auto.
  - simpl; rewrite ?mkBIte_den; destruct (bden c); auto.
  - destruct (mapo2 (join_lane c) l l0) eqn:E; auto.
    eapply mapo2_den with (d := lden) (c := bden c) in E; [|apply join_lane_den].
    simpl. rewrite E. destruct (bden c); auto.
  - destruct (mapo2 (fun a b => Some (join_cell c a b)) l l0) eqn:E; auto.
    eapply mapo2_den with (d := cden) (c := bden c) in E.
    2:{ intros x y z H; inversion H; apply join_cell_den. }
    simpl. rewrite E. destruct (bden c); auto.
Qed.
Lemma join_mem_den : forall c x y z, join_mem c x y = Some z -> mden z = if bden c then mden x else mden y.
Proof.
  intros c x y z H. unfold join_mem in H. unfold mden.
  eapply mapo2_den; [|exact H]. intros p q r K.
  eapply mapo2_den; [|exact K]. intros u v w J; inversion J; apply join_cell_den.
Qed.
Lemma join_env_den : forall c x y z, join_env c x y = Some z -> eden z = if bden c then eden x else eden y.
Proof.
  intros c x y z H. unfold join_env in H. unfold eden.
  eapply mapo2_den; [|exact H]. intros [p v] [q w] r K. simpl in K.
  destruct (String.eqb p q) eqn:E; inversion K; subst. apply String.eqb_eq in E; subst. simpl.
  rewrite join_val_den. destruct (bden c); auto.
Qed.

Definition eqv_vm (x y : sval * smem) : Prop := vden (fst x) = vden (fst y) /\ mden (snd x) = mden (snd y).
Definition eqv_ex (x y : sflow * senv * smem) : Prop :=
  flden (fst (fst x)) = flden (fst (fst y)) /\ eden (snd (fst x)) = eden (snd (fst y)) /\ mden (snd x) = mden (snd y).

Lemma runs_collapse_vm : forall (m : M (sval * smem)) n x, runs (mcollapse join_vm m) n x ->
  exists y, runs m n y /\ eqv_vm y x.
Proof.
  intros m n x [HS H]. unfold mcollapse in *. destruct (m n) as [[t n1] w1] eqn:E. simpl in *.
  apply collapse_den with (eqv := eqv_vm) in H.
  - destruct H as (y & ? & ?). exists y. split; auto. split; rewrite E; auto.
  - split; auto.
  - unfold eqv_vm; intuition congruence.
  - intros b p q r J. unfold join_vm in J. destruct (join_mem b (snd p) (snd q)) eqn:EM; inversion J; subst.
    apply join_mem_den in EM. unfold eqv_vm; simpl. rewrite join_val_den, EM. destruct (bden b); auto.
Qed.
Lemma runs_collapse_ex : forall (m : M (sflow * senv * smem)) n x, runs (mcollapse join_exec m) n x ->
  exists y, runs m n y /\ eqv_ex y x.
Proof.
  intros m n x [HS H]. unfold mcollapse in *. destruct (m n) as [[t n1] w1] eqn:E. simpl in *.
  apply collapse_den with (eqv := eqv_ex) in H.
  - destruct H as (y & ? & ?). exists y. split; auto. split; rewrite E; auto.
  - repeat split; auto.
  - unfold eqv_ex; intuition congruence.
  - intros b [[p1 p2] p3] [[q1 q2] q3] r J. unfold join_exec in J.
    destruct (join_flow b p1 q1) eqn:EF; try discriminate.
    destruct (join_env b p2 q2) eqn:EE; try discriminate.
    destruct (join_mem b p3 q3) eqn:EM; try discriminate. inversion J; subst.
    apply join_mem_den in EM. apply join_env_den in EE. unfold eqv_ex; simpl. rewrite EE, EM.
    assert (EF' : flden s = if bden b then flden p1 else flden q1).
    { destruct p1, q1; simpl in EF; inversion EF; subst; simpl; try rewrite join_val_den; destruct (bden b); auto. }
    rewrite EF'. destruct (bden b); auto.
Qed.

Ltac rinv :=
  repeat match goal with
  | H : runs (mbind _ _) _ _ |- _ => apply runs_bind in H; destruct H as (? & ? & ? & ?)
  | H : runs (ret _) _ _ |- _ => apply runs_ret in H
  | H : runs fail _ _ |- _ => apply runs_fail in H; destruct H
  | H : runs (guard _ _) _ _ |- _ => apply runs_guard in H
  | H : runs (mopt _) _ _ |- _ => apply runs_mopt in H
  end.

Lemma fails_collapse : forall A join (m : M A) n e, fails (mcollapse join m) n e -> fails m n e.
Proof.
  intros A join m n x [HS H]. unfold mcollapse in *. destruct (m n) as [[t n1] w1] eqn:E. simpl in *.
  apply collapse_bad in H. split; rewrite E; auto.
Qed.
Ltac finv :=
  repeat match goal with
  | H : fails (mbind _ _) _ _ |- _ => apply fails_bind in H; destruct H as [H | (? & ? & ? & H)]
  | H : fails (ret _) _ _ |- _ => apply fails_ret in H; destruct H
  | H : fails fail _ _ |- _ => apply fails_fail in H; destruct H
  | H : fails (guard _ _) _ _ |- _ => let E := fresh "E" in apply fails_guard in H; destruct H as [H E]; subst
  | H : fails (mopt _) _ _ |- _ => apply fails_mopt in H; destruct H
  end; rinv.

Section Ops.
Variable K : nat.

Lemma sbind_ok : forall s n s', runs (sbind K s) n s' -> fden s' = fden s.
Proof.
  intros s n s' [HS H]. unfold sbind in *. destruct (ssize K s); simpl in *.
  - inversion H; subst. inversion HS; subst. auto.
  - inversion H; auto.
Qed.

Lemma mmap_ok : forall A B C (f : A -> M B) (d : B -> C) (g : A -> C),
  (forall x n y, runs (f x) n y -> d y = g x) ->
  forall l n l', runs (mmap f l) n l' -> map d l' = map g l.
Proof.
  intros A B C f d g Hf. induction l; simpl; intros n l' H; rinv; subst; simpl; auto.
  f_equal; eauto.
Qed.

Lemma vbind_ok : forall v n v', runs (vbind K v) n v' -> vden v' = vden v.
Proof.
  intros v n v' H. destruct v; simpl in H; rinv; subst; simpl; auto.
  - apply sbind_ok in H. congruence.
  - f_equal. eapply mmap_ok; [|exact H]. intros y m z J. destruct y; simpl in J; rinv; subst; auto.
    match goal with J : runs (sbind _ _) _ _ |- _ => apply sbind_ok in J; simpl; congruence end.
Qed.

Lemma op1_ok : forall o x n y, runs (y_op1 o x) n y -> fop1 S o (fden x) = Ok (fden y).
Proof.
  intros o x n y H. unfold y_op1 in H. unfold fop1. destruct (total1 o); rinv; subst; auto.
  simpl in H. rewrite H. auto.
Qed.
Lemma op2_ok : forall o x z n y, runs (y_op2 o x z) n y -> fop2 S o (fden x) (fden z) = Ok (fden y).
Proof.
  intros o x z n y H. unfold y_op2 in H. unfold fop2. destruct (total2 o); rinv; subst; auto.
  simpl in H. rewrite H. auto.
Qed.

Local Opaque fop1 fop2.

Lemma farith_ok : forall o x y n z, runs (y_farith o x y) n z -> farith S o (fden x) (fden y) = Ok (fden z).
Proof. intros o x y n z H. destruct o; simpl in *; eauto using op2_ok; rinv. Qed.

Lemma shift_okb_den : forall b, bden (shift_okb b) = shift_ok (iden b).
Proof. intros. unfold shift_okb, shift_ok. rewrite mkBIte_den, !mkCmpI_den. simpl. destruct (0 <=? iden b); auto. Qed.

Lemma mkint_ok : forall z, in_int z = true -> mkint z = Ok z.
Proof. intros z H. unfold mkint. rewrite H. auto. Qed.

Lemma iarith_ok : forall o x y n z, runs (y_iarith o x y) n z -> iarith o (iden x) (iden y) = Ok (iden z).
Proof.
  intros o x y n z H. unfold y_iarith in H.
  destruct o; rinv; subst;
    repeat match goal with
    | H : bden _ = true |- _ => rewrite ?mkIn_den, ?mkNot_den, ?mkCmpI_den, ?shift_okb_den, ?mkIOp_den in H; simpl in H
    end; rewrite ?mkIOp_den; simpl;
    repeat match goal with
    | H : negb ?c = true |- _ => apply negb_true_iff in H; rewrite H
    | H : ?c = true |- _ => rewrite H
    end; simpl; rewrite ?mkint_ok by auto; auto.
Qed.

Lemma y_bin_ok : forall o x y n z, runs (y_bin o x y) n z -> ev_bin S o (vden x) (vden y) = Ok (vden z).
Proof.
  intros o x y n z H. destruct x, y; simpl in H; try (rinv; fail); destruct o; rinv; subst; simpl; auto.
  - apply farith_ok in H. rewrite H. auto.
  - apply iarith_ok in H. rewrite H. auto.
  - rewrite mkCmpI_den. auto.
Qed.

Lemma y_neg_ok : forall x n z, runs (y_neg x) n z -> ev_neg S (vden x) = Ok (vden z).
Proof.
  intros x n z H. destruct x; simpl in H; rinv; subst; simpl.
  - apply op1_ok in H. rewrite H. auto.
  - rewrite mkIn_den, mkINeg_den in H. rewrite mkint_ok; auto. simpl. rewrite mkINeg_den. auto.
Qed.

Lemma y_cast_ok : forall t x n z, runs (y_cast t x) n z -> ev_cast S t (vden x) = Ok (vden z).
Proof.
  intros t x n z H. destruct t, x; simpl in H; rinv; subst; simpl; rewrite ?mkIOfB_den; auto.
  rewrite mkNot_den, mkCmpI_den. auto.
Qed.

Lemma y_bool_ok : forall x n b, runs (y_bool x) n b -> to_bool S (vden x) = Ok (bden b).
Proof. intros x n b H. destruct x; simpl in H; rinv; subst; auto. Qed.

Lemma ylf_ok : forall x n s, runs (ylf x) n s -> lf S (lden x) = Ok (fden s).
Proof. intros x n s H. destruct x; simpl in H; rinv; subst; auto. Qed.

Ltac lane_tac :=
  repeat match goal with
  | H : runs (ylf _) _ _ |- _ => apply ylf_ok in H; rewrite H; simpl; clear H
  | H : runs (y_op1 _ _) _ _ |- _ => apply op1_ok in H; rewrite H; simpl; clear H
  | H : runs (y_op2 _ _ _) _ _ |- _ => apply op2_ok in H; rewrite H; simpl; clear H
  end.

Lemma lane1_ok : forall o x n z, runs (y_lane1 o x) n z -> lane1 S o (lden x) = Ok (lden z).
Proof. intros. unfold y_lane1, lane1 in *. rinv; subst; lane_tac; auto. Qed.
Lemma lane2_ok : forall o x y n z, runs (y_lane2 o x y) n z -> lane2 S o (lden x) (lden y) = Ok (lden z).
Proof. intros. unfold y_lane2, lane2 in *. rinv; subst; lane_tac; auto. Qed.
Lemma fma_ok : forall x y w n z, runs (y_fma x y w) n z -> lane_fma S (lden x) (lden y) (lden w) = Ok (lden z).
Proof. intros. unfold y_fma, lane_fma in *. rinv; subst; lane_tac; auto. Qed.
Lemma pick_ok : forall c x y n z, runs (y_pick c x y) n z -> lane_pick S c (lden x) (lden y) = Ok (lden z).
Proof. intros. unfold y_pick, lane_pick in *. rinv; subst; lane_tac; auto. Qed.
Lemma lcmp_ok : forall c x y n z, runs (y_lcmp c x y) n z -> lane_cmp S c (lden x) (lden y) = Ok (lden z).
Proof. intros. unfold y_lcmp, lane_cmp in *. rinv; subst; lane_tac; auto. Qed.
Lemma xor_ok : forall x y n z, runs (y_xor x y) n z -> lane_xor S (lden x) (lden y) = Ok (lden z).
Proof.
  intros x y n z H. destruct x, y; simpl in H; try (rinv; fail);
    try (destruct b; rinv; subst; simpl; lane_tac; auto; fail).
Qed.
Lemma andnot_ok : forall x y n z, runs (y_andnot x y) n z -> lane_andnot S (lden x) (lden y) = Ok (lden z).
Proof.
  intros x y n z H. destruct x, y; simpl in H; try (rinv; fail).
  destruct b; rinv; subst; simpl; lane_tac; auto.
Qed.
Lemma and_ok : forall x y n z, runs (y_and x y) n z -> lane_and S (lden x) (lden y) = Ok (lden z).
Proof. intros x y n z H. destruct x, y; simpl in H; rinv; subst; simpl; auto. Qed.
Lemma or_ok : forall x y n z, runs (y_or x y) n z -> lane_or S (lden x) (lden y) = Ok (lden z).
Proof.
  intros x y n z H. destruct x, y; simpl in H; rinv; subst; simpl.
  rewrite mkNot_den, mkBIte_den in H. rewrite !mkSIte_den. simpl in H.
  destruct (bden b); simpl in *; [|auto]. destruct (bden b0); simpl in *; try discriminate. auto.
Qed.

Lemma mapM_ok : forall A B A' B' (f : A -> M B) (g : A' -> res B') (dA : A -> A') (dB : B -> B'),
  (forall x n y, runs (f x) n y -> g (dA x) = Ok (dB y)) ->
  forall l n l', runs (mmap f l) n l' -> mapM g (map dA l) = Ok (map dB l').
Proof.
  intros A B A' B' f g dA dB Hf. induction l; simpl; intros n l' H; rinv; subst; simpl; auto.
  erewrite Hf by eauto. simpl. erewrite IHl by eauto. auto.
Qed.
Lemma map2M_ok : forall A B C A' B' C' (f : A -> B -> M C) (g : A' -> B' -> res C') (dA : A -> A') (dB : B -> B') (dC : C -> C'),
  (forall x y n z, runs (f x y) n z -> g (dA x) (dB y) = Ok (dC z)) ->
  forall l k n l', runs (mmap2 f l k) n l' -> map2M g (map dA l) (map dB k) = Ok (map dC l').
Proof.
  intros A B C A' B' C' f g dA dB dC Hf. induction l; destruct k; simpl; intros n l' H; rinv; subst; simpl; auto.
  erewrite Hf by eauto. simpl. erewrite IHl by eauto. auto.
Qed.
Lemma map3M_ok : forall A B C D A' B' C' D' (f : A -> B -> C -> M D) (g : A' -> B' -> C' -> res D')
  (dA : A -> A') (dB : B -> B') (dC : C -> C') (dD : D -> D'),
  (forall x y w n z, runs (f x y w) n z -> g (dA x) (dB y) (dC w) = Ok (dD z)) ->
  forall l k j n l', runs (mmap3 f l k j) n l' -> map3M g (map dA l) (map dB k) (map dC j) = Ok (map dD l').
Proof.
  intros A B C D A' B' C' D' f g dA dB dC dD Hf.
  induction l; destruct k; destruct j; simpl; intros n l' H; rinv; subst; simpl; auto.
  erewrite Hf by eauto. simpl. erewrite IHl by eauto. auto.
Qed.

Lemma nth_error_map' : forall A B (f : A -> B) l n, nth_error (map f l) n = option_map f (nth_error l n).
Proof. induction l; destruct n; simpl; auto. Qed.

Lemma map_repeat : forall A B (f : A -> B) x n, map f (repeat x n) = repeat (f x) n.
Proof. induction n; simpl; f_equal; auto. Qed.

Lemma y_prim_ok : forall p vs n z, runs (y_prim p vs) n z -> ev_prim S p (map vden vs) = Ok (vden z).
Proof.
  intros p vs n z H.
  assert (Hperm : forall l, p = PVperm l -> ev_prim S p (map vden vs) = Ok (vden z)).
  { intros l ->. unfold y_prim in H. rinv; subst. simpl.
    assert (G : mapM (fun ik : nat * nat => match nth_error (map vden vs) (fst ik) with
       | Some (VV v) => of_opt XType (nth_error v (snd ik)) | _ => Err XType end) (map (fun x => x) l) = Ok (map lden x)).
    { eapply mapM_ok; [|exact H]. intros [i k] m y J. simpl in *. rewrite nth_error_map'.
      destruct (nth_error vs i) as [v|]; simpl; [|rinv].
      destruct v; rinv. simpl. rewrite nth_error_map'. rewrite J. auto. }
    rewrite map_id in G. rewrite G. auto. }
  assert (Hmk : p = PVmk -> ev_prim S p (map vden vs) = Ok (vden z)).
  { intros ->. unfold y_prim in H. rinv; subst. simpl.
    erewrite mapM_ok; [|  | exact H]. simpl; eauto.
    intros y m w J. destruct y; rinv; subst; auto. }
  assert (Htup : p = PTup -> ev_prim S p (map vden vs) = Ok (vden z)).
  { intros ->. unfold y_prim in H. rinv; subst. simpl.
    erewrite mapM_ok; [|  | exact H]. simpl; eauto.
    intros y m w J. destruct y; rinv; subst; auto. }
  destruct p; eauto; clear Hperm Hmk Htup;
    destruct vs as [|v1 [|v2 [|v3 [|v4 vs]]]]; simpl in H; try (rinv; fail);
    try (destruct v1; simpl in H; try (rinv; fail));
    try (destruct v2; simpl in H; try (rinv; fail));
    try (destruct v3; simpl in H; try (rinv; fail));
    rinv; subst; simpl; lane_tac; auto;
    try (erewrite mapM_ok by (eauto using lane1_ok); simpl; auto; fail);
    try (erewrite map2M_ok by (eauto using lane2_ok, pick_ok, lcmp_ok, xor_ok, and_ok, or_ok, andnot_ok); simpl; auto; fail);
    try (erewrite map3M_ok by (eauto using fma_ok); simpl; auto; fail).
  - rewrite mkIn_den, mkIAbs_den in H. rewrite mkint_ok; auto. simpl. rewrite mkIAbs_den. auto.
  - rewrite map_repeat. auto.
  - rewrite nth_error_map', H. simpl. apply ylf_ok in H0. rewrite H0. auto.
  - rewrite map_map. auto.
  - rewrite nth_error_map', H. auto.
Qed.

(** *** Errors of the operations *)

Lemma sbind_nf : forall s n e, ~ fails (sbind K s) n e.
Proof. intros s n e [_ H]. unfold sbind in H. destruct (ssize K s); discriminate. Qed.
Lemma mmap_nf : forall A B (f : A -> M B), (forall x n e, ~ fails (f x) n e) -> forall l n e, ~ fails (mmap f l) n e.
Proof. intros A B f Hf. induction l; simpl; intros n e H; finv; try (eapply Hf; eauto; fail); eapply IHl; eauto. Qed.
Lemma vbind_nf : forall v n e, ~ fails (vbind K v) n e.
Proof.
  intros v n e H. destruct v; simpl in H; finv; try (apply sbind_nf in H; auto; fail).
  revert H. apply mmap_nf. intros x k e' J. destruct x; simpl in J; finv. apply sbind_nf in J; auto.
Qed.

Local Transparent fop1 fop2.
Lemma op1_err : forall o x n e, fails (y_op1 o x) n e -> fop1 S o (fden x) = Err e.
Proof.
  intros o x n y H. unfold y_op1 in H. unfold fop1. destruct (total1 o); finv; subst; auto.
  simpl in H. rewrite H. auto.
Qed.
Lemma op2_err : forall o x z n e, fails (y_op2 o x z) n e -> fop2 S o (fden x) (fden z) = Err e.
Proof.
  intros o x z n y H. unfold y_op2 in H. unfold fop2. destruct (total2 o); finv; subst; auto.
  simpl in H. rewrite H. auto.
Qed.
Local Opaque fop1 fop2.
Lemma farith_err : forall o x y n e, fails (y_farith o x y) n e -> farith S o (fden x) (fden y) = Err e.
Proof. intros o x y n e H. destruct o; simpl in *; eauto using op2_err; finv. Qed.
Lemma mkint_err : forall z, in_int z = false -> mkint z = Err XOverflow.
Proof. intros z H. unfold mkint. rewrite H. auto. Qed.
Lemma iarith_err : forall o x y n e, fails (y_iarith o x y) n e -> iarith o (iden x) (iden y) = Err e.
Proof.
  intros o x y n e H. unfold y_iarith in H.
  destruct o; finv; subst;
    repeat match goal with
    | H : bden _ = _ |- _ => rewrite ?mkIn_den, ?mkNot_den, ?mkCmpI_den, ?shift_okb_den, ?mkIOp_den in H; simpl in H
    end; simpl;
    repeat match goal with
    | H : negb ?c = true |- _ => apply negb_true_iff in H
    | H : negb ?c = false |- _ => apply negb_false_iff in H
    | H : ?c = true |- _ => rewrite H
    | H : ?c = false |- _ => rewrite H
    end; simpl; rewrite ?mkint_err by auto; auto.
  all: repeat match goal with H : ?c = false |- _ => rewrite H end; rewrite ?andb_false_r; auto.
Qed.
Lemma y_bin_err : forall o x y n e, fails (y_bin o x y) n e -> ev_bin S o (vden x) (vden y) = Err e.
Proof.
  intros o x y n e H. destruct x, y; simpl in H; try (finv; fail); destruct o; finv; subst; simpl; auto.
  - apply farith_err in H. rewrite H. auto.
  - apply iarith_err in H. rewrite H. auto.
Qed.
Lemma y_neg_err : forall x n e, fails (y_neg x) n e -> ev_neg S (vden x) = Err e.
Proof.
  intros x n z H. destruct x; simpl in H; finv; subst; simpl.
  - apply op1_err in H. rewrite H. auto.
  - rewrite mkIn_den, mkINeg_den in H. rewrite mkint_err; auto.
Qed.
Lemma y_cast_nf : forall t x n e, ~ fails (y_cast t x) n e.
Proof. intros t x n e H. destruct t, x; simpl in H; finv. Qed.
Lemma y_bool_nf : forall x n e, ~ fails (y_bool x) n e.
Proof. intros x n b H. destruct x; simpl in H; finv. Qed.
Lemma ylf_nf : forall x n s, ~ fails (ylf x) n s.
Proof. intros x n s H. destruct x; simpl in H; finv. Qed.

Ltac lane_err :=
  finv; subst; try (match goal with H : fails (ylf _) _ _ |- _ => apply ylf_nf in H; destruct H end);
  lane_tac;
  repeat match goal with
  | H : fails (y_op1 _ _) _ _ |- _ => apply op1_err in H; rewrite H; simpl; clear H
  | H : fails (y_op2 _ _ _) _ _ |- _ => apply op2_err in H; rewrite H; simpl; clear H
  end; auto.

Lemma lane1_err : forall o x n z, fails (y_lane1 o x) n z -> lane1 S o (lden x) = Err z.
Proof. intros. unfold y_lane1, lane1 in *. lane_err. Qed.
Lemma lane2_err : forall o x y n z, fails (y_lane2 o x y) n z -> lane2 S o (lden x) (lden y) = Err z.
Proof. intros. unfold y_lane2, lane2 in *. lane_err. Qed.
Lemma fma_nf : forall x y w n z, ~ fails (y_fma x y w) n z.
Proof. intros x y w n z H. unfold y_fma in *. lane_err. Qed.
Lemma pick_nf : forall c x y n z, ~ fails (y_pick c x y) n z.
Proof. intros c x y n z H. unfold y_pick in *. lane_err. Qed.
Lemma lcmp_nf : forall c x y n z, ~ fails (y_lcmp c x y) n z.
Proof. intros c x y n z H. unfold y_lcmp in *. lane_err. Qed.
Lemma xor_err : forall x y n z, fails (y_xor x y) n z -> lane_xor S (lden x) (lden y) = Err z.
Proof.
  intros x y n z H. destruct x, y; simpl in H; try (finv; fail);
    try (destruct b; simpl; lane_err; fail).
Qed.
Lemma andnot_err : forall x y n z, fails (y_andnot x y) n z -> lane_andnot S (lden x) (lden y) = Err z.
Proof.
  intros x y n z H. destruct x, y; simpl in H; try (finv; fail).
  destruct b; simpl; lane_err.
Qed.
Lemma and_nf : forall x y n z, ~ fails (y_and x y) n z.
Proof. intros x y n z H. destruct x, y; simpl in H; finv. Qed.
Lemma or_err : forall x y n z, fails (y_or x y) n z -> lane_or S (lden x) (lden y) = Err z.
Proof.
  intros x y n z H. destruct x, y; simpl in H; finv; subst; simpl.
  rewrite mkNot_den, mkBIte_den in H. simpl in H.
  destruct (bden b); simpl in *; [|discriminate]. destruct (bden b0); simpl in *; try discriminate. auto.
Qed.

Lemma mapM_err : forall A B A' B' (f : A -> M B) (g : A' -> res B') (dA : A -> A') (dB : B -> B'),
  (forall x n y, runs (f x) n y -> g (dA x) = Ok (dB y)) ->
  (forall x n e, fails (f x) n e -> g (dA x) = Err e) ->
  forall l n e, fails (mmap f l) n e -> mapM g (map dA l) = Err e.
Proof.
  intros A B A' B' f g dA dB Hf He. induction l; simpl; intros n e H; finv; subst; simpl.
  - erewrite He by eauto. auto.
  - erewrite Hf by eauto. simpl. erewrite IHl by eauto. auto.
Qed.
Lemma map2M_err : forall A B C A' B' C' (f : A -> B -> M C) (g : A' -> B' -> res C') (dA : A -> A') (dB : B -> B') (dC : C -> C'),
  (forall x y n z, runs (f x y) n z -> g (dA x) (dB y) = Ok (dC z)) ->
  (forall x y n e, fails (f x y) n e -> g (dA x) (dB y) = Err e) ->
  forall l k n e, fails (mmap2 f l k) n e -> map2M g (map dA l) (map dB k) = Err e.
Proof.
  intros A B C A' B' C' f g dA dB dC Hf He. induction l; destruct k; simpl; intros n e H; finv; subst; simpl.
  - erewrite He by eauto. auto.
  - erewrite Hf by eauto. simpl. erewrite IHl by eauto. auto.
Qed.
Lemma mmap2_nf : forall A B C (f : A -> B -> M C), (forall x y n e, ~ fails (f x y) n e) -> forall l k n e, ~ fails (mmap2 f l k) n e.
Proof. intros A B C f Hf. induction l; destruct k; simpl; intros n e H; finv; try (eapply Hf; eauto; fail); eapply IHl; eauto. Qed.
Lemma mmap3_nf : forall A B C D (f : A -> B -> C -> M D), (forall x y z n e, ~ fails (f x y z) n e) -> forall l k j n e, ~ fails (mmap3 f l k j) n e.
Proof. intros A B C D f Hf. induction l; destruct k; destruct j; simpl; intros n e H; finv; try (eapply Hf; eauto; fail); eapply IHl; eauto. Qed.

Lemma y_prim_err : forall p vs n e, fails (y_prim p vs) n e -> ev_prim S p (map vden vs) = Err e.
Proof.
  intros p vs n z H.
  assert (Hperm : forall l, p = PVperm l -> False).
  { intros l ->. unfold y_prim in H. finv. revert H. apply mmap_nf. intros [i k] m y J. simpl in *.
    destruct (nth_error vs i) as [v|]; simpl; [|finv]. destruct v; finv. }
  assert (Hmk : p = PVmk -> False).
  { intros ->. unfold y_prim in H. finv. revert H. apply mmap_nf. intros y m w J. destruct y; finv. }
  assert (Htup : p = PTup -> False).
  { intros ->. unfold y_prim in H. finv. revert H. apply mmap_nf. intros y m w J. destruct y; finv. }
  destruct p; try (destruct Hmk; auto; fail); try (destruct Htup; auto; fail); try (edestruct Hperm; eauto; fail); clear Hperm Hmk Htup;
    destruct vs as [|v1 [|v2 [|v3 [|v4 vs]]]]; simpl in H; try (finv; fail);
    try (destruct v1; simpl in H; try (finv; fail));
    try (destruct v2; simpl in H; try (finv; fail));
    try (destruct v3; simpl in H; try (finv; fail));
    finv; subst; simpl;
    try (match goal with H : fails (y_op1 _ _) _ _ |- _ => apply op1_err in H; rewrite H; auto end; fail);
    try (match goal with H : fails (y_op2 _ _ _) _ _ |- _ => apply op2_err in H; rewrite H; auto end; fail);
    try (erewrite mapM_err by (eauto using lane1_ok, lane1_err); simpl; auto; fail);
    try (erewrite map2M_err by (eauto using lane2_ok, xor_ok, or_ok, andnot_ok, lane2_err, xor_err, or_err, andnot_err); simpl; auto; fail);
    try (exfalso; revert H; apply mmap2_nf; intros; eauto using pick_nf, lcmp_nf, and_nf; fail);
    try (exfalso; revert H; apply mmap3_nf; intros; eauto using fma_nf; fail);
    try (exfalso; eapply ylf_nf; eauto; fail).
  rewrite mkIn_den, mkIAbs_den in H. rewrite mkint_err; auto.
Qed.

End Ops.

Lemma y_unite_ok : forall v n w, runs (y_unite v) n w -> vden w = vden v /\ vden w <> VU.
Proof.
  induction v; intros n w H; simpl in H; rinv; subst; simpl; try (split; congruence).
  apply runs_branch in H. destruct H as [n' H]. destruct (bden c); eauto.
Qed.

Lemma lookup_eden : forall x r, lookup x (eden r) = option_map vden (lookup x r).
Proof.
  induction r as [|[y v] r]; simpl; auto. destruct (String.eqb x y); auto.
Qed.
Lemma assign_eden : forall x v r, eden (assign x v r) = assign x (vden v) (eden r).
Proof.
  induction r as [|[y w] r]; simpl; auto. destruct (String.eqb x y); simpl; auto. f_equal; auto.
Qed.

Lemma y_var_ok : forall r x n v, runs (y_var r x) n v -> var S (eden r) x = Ok (vden v).
Proof.
  intros r x n v H. unfold y_var in H. unfold var. rewrite lookup_eden.
  destruct (lookup x r); simpl; rinv. apply y_unite_ok in H. destruct H as [-> H].
  destruct (vden s); auto. congruence.
Qed.

Lemma y_ilit_ok : forall i n z, runs (y_ilit i) n z -> iden i = z.
Proof.
  induction i; intros n' z' H; simpl in H; rinv; subst; simpl; auto.
  - f_equal; eauto.
  - f_equal; eauto.
  - apply runs_branch in H. destruct H as [n'' H]. destruct (bden b); rinv; subst; auto.
  - apply runs_branch in H. destruct H as [n'' H]. destruct (bden c); eauto.
Qed.

Lemma y_c2v_ok : forall c n v, runs (y_c2v c) n v -> c2v S (cden c) = Ok (vden v).
Proof.
  induction c; intros n' v H; simpl in H; rinv; subst; simpl; auto.
  apply runs_branch in H. destruct H as [n'' H]. destruct (bden c1); eauto.
Qed.
Lemma y_v2c_ok : forall v n c, runs (y_v2c v) n c -> v2c S (vden v) = Ok (cden c).
Proof. destruct v; intros n' c' H; simpl in H; rinv; subst; simpl; auto. Qed.
Lemma y_ptr_ok : forall v n b o, runs (y_ptr v) n (b, o) -> vden v = VP (fst (pden b)) (snd (pden b) + o).
Proof. destruct v; intros n' b' o' H; simpl in H; rinv; inversion H; subst; auto. Qed.
Lemma y_c2l_ok : forall c n l, runs (y_c2l c) n l ->
  (match cden c with CF t => Ok (LF t) | CU => Err XUninit | _ => Err XType end) = Ok (lden l).
Proof.
  induction c; intros n' l H; simpl in H; rinv; subst; simpl; auto.
  apply runs_branch in H. destruct H as [n'' H]. destruct (bden c1); eauto.
Qed.

(** *** No errors are reported by the remaining steps *)
Lemma y_unite_nf : forall v n e, ~ fails (y_unite v) n e.
Proof.
  induction v; intros n e H; simpl in H; finv.
  apply fails_branch in H. destruct H as [n' H]. destruct (bden c); [eapply IHv1 | eapply IHv2]; eauto.
Qed.
Lemma y_var_nf : forall r x n e, ~ fails (y_var r x) n e.
Proof. intros r x n e H. unfold y_var in H. destruct (lookup x r); finv. eapply y_unite_nf; eauto. Qed.
Lemma y_ilit_nf : forall i n e, ~ fails (y_ilit i) n e.
Proof.
  induction i; intros n' z' H; simpl in H; finv; try (eapply IHi; eauto; fail); try (eapply IHi1; eauto; fail); try (eapply IHi2; eauto; fail).
  - apply fails_branch in H. destruct H as [n'' H]. destruct (bden b); finv.
  - apply fails_branch in H. destruct H as [n'' H]. destruct (bden c); [eapply IHi1 | eapply IHi2]; eauto.
Qed.
Lemma y_c2v_nf : forall c n e, ~ fails (y_c2v c) n e.
Proof.
  induction c; intros n' e H; simpl in H; finv.
  apply fails_branch in H. destruct H as [n'' H]. destruct (bden c1); [eapply IHc1 | eapply IHc2]; eauto.
Qed.
Lemma y_v2c_nf : forall v n e, ~ fails (y_v2c v) n e.
Proof. destruct v; intros n' c' H; simpl in H; finv. Qed.
Lemma y_ptr_nf : forall v n e, ~ fails (y_ptr v) n e.
Proof. destruct v; intros n' e H; simpl in H; finv. Qed.
Lemma y_c2l_nf : forall c n e, ~ fails (y_c2l c) n e.
Proof.
  induction c; intros n' l H; simpl in H; finv.
  apply fails_branch in H. destruct H as [n'' H]. destruct (bden c1); [eapply IHc1 | eapply IHc2]; eauto.
Qed.

(** ** Memory *)

Lemma lset_length : forall A (l : list A) n x, length (lset l n x) = length l.
Proof. induction l; destruct n; simpl; auto. Qed.
Lemma nth_error_lset : forall A (l : list A) n x k,
  nth_error (lset l n x) k = if Nat.eqb n k then option_map (fun _ => x) (nth_error l k) else nth_error l k.
Proof. induction l; destruct n, k; simpl; auto; destruct (Nat.eqb _ _); auto. Qed.
Lemma map_lset : forall A B (f : A -> B) l n x, map f (lset l n x) = lset (map f l) n (f x).
Proof. induction l; destruct n; simpl; intros; f_equal; auto. Qed.
Lemma lset_same : forall A (l : list A) n x, nth_error l n = Some x -> lset l n x = l.
Proof. induction l; destruct n; simpl; intros; try discriminate; f_equal; auto. congruence. Qed.

Lemma mwrite_ok : forall F (m : mem F) b o c c0, mread m b o = Some c0 ->
  exists m', mwrite m b o c = Some m' /\ length m' = length m /\ map (@length _) m' = map (@length _) m /\
    forall b' o', mread m' b' o' = if Nat.eqb b b' && (o =? o') then Some c else mread m b' o'.
Proof.
  intros F m b o c c0 H. unfold mwrite. rewrite H. unfold mread in H.
  destruct (o <? 0) eqn:Eo; try discriminate. destruct (nth_error m b) as [blk|] eqn:Eb; try discriminate.
  eexists. split; [reflexivity|]. rewrite lset_length. split; auto.
  rewrite map_lset. rewrite lset_length. split.
  { apply lset_same. rewrite nth_error_map', Eb. auto. }
  intros b' o'. unfold mread. destruct (o' <? 0) eqn:Eo'.
  { destruct (o =? o') eqn:E; [|rewrite andb_false_r; auto]. apply Z.eqb_eq in E; subst. congruence. }
  rewrite nth_error_lset. destruct (Nat.eqb b b') eqn:E; simpl; auto.
  apply Nat.eqb_eq in E; subst b'. rewrite Eb. simpl. rewrite nth_error_lset.
  apply Z.ltb_ge in Eo. apply Z.ltb_ge in Eo'.
  destruct (o =? o') eqn:E.
  - apply Z.eqb_eq in E; subst. rewrite Nat.eqb_refl. rewrite H. auto.
  - apply Z.eqb_neq in E. destruct (Nat.eqb (Z.to_nat o) (Z.to_nat o')) eqn:E2; auto.
    apply Nat.eqb_eq in E2. lia.
Qed.

Section Rel.
Variable M0 : mem F.               (* the caller's memory *)
Hypothesis HL : L = length M0.
Variable ro : list bool.
Variable lens : list nat.          (* region lengths *)
Notation nr := (length pi).
Hypothesis Hlens : length lens = nr.
Definition inreg (i : nat) (b : nat) (o : Z) : Prop :=
  exists p n, nth_error pi i = Some p /\ nth_error lens i = Some n /\ b = fst p /\ snd p <= o < snd p + Z.of_nat n.
Hypothesis Hpi : forall i b o, inreg i b o -> (b < L)%nat.
Hypothesis Hdisj : forall i j b o, i <> j -> nth i ro false = false -> inreg i b o -> inreg j b o -> False.

Record rel (sm : smem) (m : mem F) : Prop := {
  rel_nr : (nr <= length sm)%nat;
  rel_lens : map (@length _) (firstn nr sm) = lens;
  rel_len : length m = (L + (length sm - nr))%nat;
  rel_shape : firstn L (map (@length _) m) = map (@length _) M0;
  rel_read : forall b k c, y_mread sm b k = Some c -> mread m (fst (pden b)) (snd (pden b) + k) = Some (cden c);
  rel_frame : forall b o, (b < L)%nat -> (forall i, nth i ro false = false -> ~ inreg i b o) -> mread m b o = mread M0 b o
}.

Lemma pden_reg : forall b, (b < nr)%nat -> nth_error pi b = Some (pden b).
Proof.
  intros b H. unfold pden. destruct (nth_error pi b) eqn:E; auto.
  apply nth_error_None in E. lia.
Qed.
Lemma pden_loc : forall b, (nr <= b)%nat -> pden b = ((L + (b - nr))%nat, 0).
Proof. intros b H. unfold pden. destruct (nth_error pi b) eqn:E; auto. assert (nth_error pi b <> None) by congruence. apply nth_error_Some in H0. lia. Qed.


Lemma rel_inreg : forall sm m b k c, rel sm m -> y_mread sm b k = Some c -> (b < nr)%nat ->
  inreg b (fst (pden b)) (snd (pden b) + k).
Proof.
  intros sm m b k c R H Hb. apply y_mread_bound in H. destruct H as (H0 & blk & Hn & Hk).
  exists (pden b), (length blk). split; [apply pden_reg; auto|]. split; [|split; auto; lia].
  rewrite <- (rel_lens _ _ R). rewrite nth_error_map'.
  rewrite nth_error_firstn_lt || idtac.
  assert (G : nth_error (firstn nr sm) b = Some blk).
  { rewrite <- Hn. clear - Hb. revert Hb. generalize nr. revert b. induction sm; intros b n Hb.
    - rewrite firstn_nil; auto.
    - destruct n; [lia|]. destruct b; simpl; auto. apply IHsm. lia. }
  rewrite G. auto.
Qed.

Lemma firstn_lset_ge : forall A (l : list A) n k x, (n <= k)%nat -> firstn n (lset l k x) = firstn n l.
Proof. induction l; destruct n, k; simpl; intros; auto; try lia. f_equal. apply IHl. lia. Qed.
Lemma map_length_lset : forall A (l : list (list A)) b blk x, nth_error l b = Some blk -> length x = length blk ->
  map (@length _) (lset l b x) = map (@length _) l.
Proof.
  intros. rewrite map_lset, H0. apply lset_same. rewrite nth_error_map', H. auto.
Qed.

Lemma rel_write : forall sm m b k c sm', rel sm m -> y_mwrite ro sm b k c = Some sm' ->
  exists m', mwrite m (fst (pden b)) (snd (pden b) + k) (cden c) = Some m' /\ rel sm' m'.
Proof.
  intros sm m b k c sm' R H. unfold y_mwrite in H.
  destruct (nth b ro false) eqn:Ero; try discriminate.
  destruct (y_mread sm b k) as [c0|] eqn:Er; try discriminate.
  destruct (nth_error sm b) as [blk|] eqn:Eb; try discriminate. inversion H; subst sm'; clear H.
  pose proof (rel_read _ _ R _ _ _ Er) as Hrd.
  destruct (mwrite_ok _ _ _ _ (cden c) _ Hrd) as (m' & Hw & Hl & Hs & Hm').
  exists m'. split; auto.
  assert (Hml : map (@length _) (lset sm b (lset blk (Z.to_nat k) c)) = map (@length _) sm).
  { eapply map_length_lset; eauto. apply lset_length. }
  assert (Hlen : length (lset sm b (lset blk (Z.to_nat k) c)) = length sm) by apply lset_length.
  assert (Hb : (b < length sm)%nat). { apply nth_error_Some. congruence. }
  apply y_mread_bound in Er as Hk. destruct Hk as (Hk0 & blk' & Hblk' & Hk). rewrite Eb in Hblk'. inversion Hblk'; subst blk'; clear Hblk'.
  constructor.
  - rewrite Hlen. apply (rel_nr _ _ R).
  - rewrite <- firstn_map, Hml, firstn_map. apply (rel_lens _ _ R).
  - rewrite Hlen, Hl. apply (rel_len _ _ R).
  - rewrite Hs. apply (rel_shape _ _ R).
  - intros b' k' c' Hr. rewrite Hm'.
    unfold y_mread in Hr. destruct (k' <? 0) eqn:Ek'; try discriminate.
    rewrite nth_error_lset in Hr.
    destruct (Nat.eqb b b') eqn:Ebb.
    + apply Nat.eqb_eq in Ebb; subst b'. rewrite Eb in Hr. simpl in Hr. rewrite nth_error_lset in Hr.
      apply Z.ltb_ge in Ek'. rewrite Nat.eqb_refl. simpl.
      destruct (snd (pden b) + k =? snd (pden b) + k') eqn:E.
      * apply Z.eqb_eq in E. assert (k' = k) by lia; subst k'. rewrite Nat.eqb_refl in Hr.
        destruct (nth_error blk (Z.to_nat k)); inversion Hr; auto.
      * apply Z.eqb_neq in E. destruct (Nat.eqb (Z.to_nat k) (Z.to_nat k')) eqn:E2.
        { apply Nat.eqb_eq in E2. lia. }
        apply (rel_read _ _ R). unfold y_mread. rewrite Eb. replace (k' <? 0) with false; auto. symmetry; apply Z.ltb_ge; auto.
    + apply Nat.eqb_neq in Ebb.
      assert (Hr' : y_mread sm b' k' = Some c') by (unfold y_mread; rewrite Ek'; auto).
      destruct (Nat.eqb (fst (pden b)) (fst (pden b')) && (snd (pden b) + k =? snd (pden b') + k')) eqn:E.
      2: apply (rel_read _ _ R); auto.
      exfalso. apply andb_prop in E. destruct E as [E1 E2]. apply Nat.eqb_eq in E1. apply Z.eqb_eq in E2.
      destruct (le_lt_dec nr b) as [Hge|Hlt]; destruct (le_lt_dec nr b') as [Hge'|Hlt'].
      * rewrite !pden_loc in E1 by auto. simpl in E1. lia.
      * rewrite (pden_loc b) in E1 by auto. simpl in E1. pose proof (Hpi _ _ _ (rel_inreg _ _ _ _ _ R Hr' Hlt')). lia.
      * rewrite (pden_loc b') in E1 by auto. simpl in E1. pose proof (Hpi _ _ _ (rel_inreg _ _ _ _ _ R Er Hlt)). lia.
      * pose proof (rel_inreg _ _ _ _ _ R Er Hlt) as I1. pose proof (rel_inreg _ _ _ _ _ R Hr' Hlt') as I2.
        rewrite <- E1, <- E2 in I2. eapply Hdisj; eauto.
  - intros b' o' Hb' Hni. rewrite Hm'.
    destruct (Nat.eqb (fst (pden b)) b' && (snd (pden b) + k =? o')) eqn:E.
    2: apply (rel_frame _ _ R); auto.
    exfalso. apply andb_prop in E. destruct E as [E1 E2]. apply Nat.eqb_eq in E1. apply Z.eqb_eq in E2. subst b' o'.
    destruct (le_lt_dec nr b) as [Hge|Hlt].
    + rewrite pden_loc in Hb' by auto. simpl in Hb'. lia.
    + eapply Hni; eauto. eapply rel_inreg; eauto.
Qed.

Lemma rel_writes : forall cs sm m b k sm', rel sm m -> y_mwrites ro sm b k cs = Some sm' ->
  exists m', mwrites m (fst (pden b)) (snd (pden b) + k) (map cden cs) = Some m' /\ rel sm' m'.
Proof.
  induction cs; simpl; intros sm m b k sm' R H.
  - inversion H; subst. eauto.
  - destruct (y_mwrite ro sm b k a0) as [sm1|] eqn:E; try discriminate.
    destruct (rel_write _ _ _ _ _ _ R E) as (m1 & Hw & R1). rewrite Hw.
    destruct (IHcs _ _ _ _ _ R1 H) as (m2 & Hw2 & R2). exists m2. split; auto.
    rewrite <- Hw2. f_equal. lia.
Qed.

Lemma rel_reads : forall n sm m b k cs, rel sm m -> y_mreads sm b k n = Some cs ->
  mreads m (fst (pden b)) (snd (pden b) + k) n = Some (map cden cs).
Proof.
  induction n; simpl; intros sm m b k cs R H.
  - inversion H; auto.
  - destruct (y_mread sm b k) eqn:E; try discriminate.
    destruct (y_mreads sm b (k + 1) n) eqn:E2; try discriminate. inversion H; subst.
    rewrite (rel_read _ _ R _ _ _ E). apply (IHn _ _ _ _ _ R) in E2.
    replace (snd (pden b) + k + 1) with (snd (pden b) + (k + 1)) by lia. rewrite E2. auto.
Qed.

Lemma mread_app_l : forall G (m m' : mem G) b o, (b < length m)%nat -> mread (m ++ m') b o = mread m b o.
Proof. intros. unfold mread. destruct (o <? 0); auto. rewrite nth_error_app1; auto. Qed.

Lemma rel_alloc : forall sm m cs, rel sm m -> rel (sm ++ [cs]) (m ++ [map cden cs]).
Proof.
  intros sm m cs R. pose proof (rel_nr _ _ R) as Hnr. pose proof (rel_len _ _ R) as Hl.
  constructor.
  - rewrite app_length; lia.
  - rewrite firstn_app. replace (nr - length sm)%nat with O by lia. rewrite firstn_O, app_nil_r. apply (rel_lens _ _ R).
  - rewrite !app_length. simpl. lia.
  - rewrite map_app, firstn_app, map_length. replace (L - length m)%nat with O by lia.
    rewrite firstn_O, app_nil_r. apply (rel_shape _ _ R).
  - intros b k c H. apply y_mread_bound in H as Hb. destruct Hb as (Hk & blk & Hn & Hk2).
    destruct (le_lt_dec (length sm) b) as [Hge|Hlt].
    + assert (b = length sm).
      { assert (nth_error (sm ++ [cs]) b <> None) by congruence. apply nth_error_Some in H0.
        rewrite app_length in H0. simpl in H0. lia. }
      subst b. rewrite nth_error_app2 in Hn by lia. rewrite Nat.sub_diag in Hn. simpl in Hn. inversion Hn; subst blk.
      rewrite pden_loc by auto. simpl. unfold mread, y_mread in *. destruct (k <? 0) eqn:Ek; try discriminate.
      rewrite nth_error_app2 in H by lia. rewrite Nat.sub_diag in H. simpl in H.
      rewrite nth_error_app2 by lia. replace (L + (length sm - nr) - length m)%nat with O by lia. simpl.
      rewrite nth_error_map', H. auto.
    + assert (H' : y_mread sm b k = Some c).
      { unfold y_mread in *. destruct (k <? 0); auto. rewrite nth_error_app1 in H; auto. }
      pose proof (rel_read _ _ R _ _ _ H') as Hr.
      rewrite mread_app_l; auto.
      unfold mread in Hr. destruct (_ <? 0); try discriminate.
      destruct (nth_error m (fst (pden b))) eqn:E; try discriminate.
      apply nth_error_Some. congruence.
  - intros b o Hb Hni. rewrite mread_app_l by lia. apply (rel_frame _ _ R); auto.
Qed.

Lemma nth_error_firstn' : forall A (l : list A) n k, nth_error (firstn n l) k = if Nat.ltb k n then nth_error l k else None.
Proof.
  induction l; intros n k.
  - rewrite firstn_nil. destruct k; simpl; destruct (Nat.ltb _ n); auto.
  - destruct n; simpl. { destruct k; auto. } destruct k; simpl; auto. rewrite IHl. reflexivity.
Qed.

Lemma rel_free : forall sm m sm3 m3, rel sm m -> rel sm3 m3 ->
  rel (firstn (length sm) sm3) (firstn (length m) m3).
Proof.
  intros sm m sm3 m3 R R3.
  pose proof (rel_nr _ _ R) as A1. pose proof (rel_len _ _ R) as A2.
  pose proof (rel_nr _ _ R3) as B1. pose proof (rel_len _ _ R3) as B2.
  constructor.
  - rewrite firstn_length. lia.
  - rewrite firstn_firstn. replace (Nat.min nr (length sm)) with nr by lia. apply (rel_lens _ _ R3).
  - rewrite !firstn_length. lia.
  - rewrite <- firstn_map, firstn_firstn. replace (Nat.min L (length m)) with L by lia. apply (rel_shape _ _ R3).
  - intros b k c H. apply y_mread_bound in H as Hb. destruct Hb as (Hk & blk & Hn & Hk2).
    rewrite nth_error_firstn' in Hn. destruct (Nat.ltb b (length sm)) eqn:Eb; try discriminate. apply Nat.ltb_lt in Eb.
    assert (H' : y_mread sm3 b k = Some c).
    { unfold y_mread in *. destruct (k <? 0); auto. rewrite nth_error_firstn' in H.
      replace (Nat.ltb b (length sm)) with true in H; auto. symmetry; apply Nat.ltb_lt; auto. }
    pose proof (rel_read _ _ R3 _ _ _ H') as Hr. rewrite <- Hr. unfold mread.
    destruct (_ <? 0); auto. rewrite nth_error_firstn'.
    replace (Nat.ltb (fst (pden b)) (length m)) with true; auto. symmetry. apply Nat.ltb_lt.
    destruct (le_lt_dec nr b) as [Hge|Hlt].
    + rewrite pden_loc by auto. simpl. lia.
    + pose proof (Hpi _ _ _ (rel_inreg _ _ _ _ _ R3 H' Hlt)). lia.
  - intros b o Hb Hni. rewrite <- (rel_frame _ _ R3 b o Hb Hni). unfold mread.
    destruct (_ <? 0); auto. rewrite nth_error_firstn'.
    replace (Nat.ltb b (length m)) with true; auto. symmetry. apply Nat.ltb_lt. lia.
Qed.

Lemma rel_eqv : forall sm sm' m, rel sm m -> mden sm = mden sm' -> rel sm' m.
Proof.
  intros sm sm' m R E.
  assert (EL : length sm = length sm').
  { apply (f_equal (@length _)) in E. unfold mden in E. rewrite !map_length in E. auto. }
  assert (EM : map (@length _) sm = map (@length _) sm').
  { apply (f_equal (map (@length _))) in E. unfold mden in E. rewrite !map_map in E.
    erewrite map_ext in E; [|intros; apply map_length]. symmetry in E.
    erewrite map_ext in E; [|intros; apply map_length]. auto. }
  constructor.
  - rewrite <- EL. apply (rel_nr _ _ R).
  - rewrite <- (rel_lens _ _ R). rewrite <- !firstn_map. rewrite EM. auto.
  - rewrite <- EL. apply (rel_len _ _ R).
  - apply (rel_shape _ _ R).
  - intros b k c H. unfold y_mread in H. destruct (k <? 0) eqn:Ek; try discriminate.
    destruct (nth_error sm' b) as [blk'|] eqn:E'; try discriminate.
    assert (G : nth_error (mden sm) b = Some (map cden blk')).
    { rewrite E. unfold mden. rewrite nth_error_map', E'. auto. }
    unfold mden in G. rewrite nth_error_map' in G. destruct (nth_error sm b) as [blk|] eqn:Eb; inversion G.
    assert (G2 : nth_error (map cden blk) (Z.to_nat k) = Some (cden c)).
    { match goal with E : map cden blk = map cden blk' |- _ => rewrite E end. rewrite nth_error_map', H. auto. }
    rewrite nth_error_map' in G2. destruct (nth_error blk (Z.to_nat k)) as [c1|] eqn:E1; inversion G2.
    apply (rel_read _ _ R). unfold y_mread. rewrite Ek, Eb. auto.
  - apply (rel_frame _ _ R).
Qed.

(** ** Memory operations *)

Lemma load_ok : forall sm m v n w, rel sm m -> runs (y_load sm v) n w -> load S m (vden v) = Ok (vden w).
Proof.
  intros sm m v n w R H. unfold y_load in H. apply runs_bind in H. destruct H as ([b o] & n1 & H1 & H).
  rinv. apply y_ptr_ok in H1. unfold load. rewrite H1. simpl.
  rewrite (rel_read _ _ R _ _ _ H). simpl. eapply y_c2v_ok; eauto.
Qed.
Lemma store_ok : forall sm m p v n sm', rel sm m -> runs (y_store ro sm p v) n sm' ->
  exists m', store S m (vden p) (vden v) = Ok m' /\ rel sm' m'.
Proof.
  intros sm m p v n sm' R H. unfold y_store in H. apply runs_bind in H. destruct H as ([b o] & n1 & H1 & H).
  rinv. apply y_ptr_ok in H1. apply y_v2c_ok in H. unfold store. rewrite H1. simpl. rewrite H. simpl.
  destruct (rel_write _ _ _ _ _ _ R H0) as (m' & Hw & R'). rewrite Hw. simpl. eauto.
Qed.
Lemma loadA_ok : forall sm m k v n w, rel sm m -> runs (y_loadA sm k v) n w -> loadA S m k (vden v) = Ok (vden w).
Proof.
  intros sm m k v n w R H. unfold y_loadA in H. apply runs_bind in H. destruct H as ([b o] & n1 & H1 & H).
  rinv. subst. apply y_ptr_ok in H1. unfold loadA. rewrite H1. simpl.
  erewrite rel_reads by eauto. auto.
Qed.
Lemma storeA_ok : forall sm m k p v n sm', rel sm m -> runs (y_storeA ro sm k p v) n sm' ->
  exists m', storeA S m k (vden p) (vden v) = Ok m' /\ rel sm' m'.
Proof.
  intros sm m k p v n sm' R H. unfold y_storeA in H. apply runs_bind in H. destruct H as ([b o] & n1 & H1 & H).
  apply y_ptr_ok in H1. destruct v; try (rinv; fail). destruct (Nat.eqb (length l) k) eqn:E; rinv.
  unfold storeA. rewrite H1. simpl. rewrite map_length, E.
  destruct (rel_writes _ _ _ _ _ _ R H) as (m' & Hw & R'). rewrite Hw. simpl. eauto.
Qed.
Lemma loadV_ok : forall sm m k v n w, rel sm m -> runs (y_loadV sm k v) n w -> loadV S m k (vden v) = Ok (vden w).
Proof.
  intros sm m k v n w R H. unfold y_loadV in H. apply runs_bind in H. destruct H as ([b o] & n1 & H1 & H).
  rinv. subst. apply y_ptr_ok in H1. unfold loadV. rewrite H1. simpl.
  erewrite rel_reads by eauto. simpl. erewrite mapM_ok; [|apply y_c2l_ok|eauto]. auto.
Qed.
Lemma firstn_map' : forall A B (f : A -> B) n l, firstn n (map f l) = map f (firstn n l).
Proof. induction n; destruct l; simpl; f_equal; auto. Qed.
Lemma storeV_ok : forall sm m k p v n sm', rel sm m -> runs (y_storeV ro sm k p v) n sm' ->
  exists m', storeV S m k (vden p) (vden v) = Ok m' /\ rel sm' m'.
Proof.
  intros sm m k p v n sm' R H. unfold y_storeV in H. apply runs_bind in H. destruct H as ([b o] & n1 & H1 & H).
  apply y_ptr_ok in H1. destruct v; try (rinv; fail). destruct (Nat.leb k (length l)) eqn:E; rinv.
  unfold storeV. rewrite H1. simpl. rewrite map_length, E. rewrite firstn_map'.
  erewrite mapM_ok with (dB := cden); [| |exact H].
  - simpl. destruct (rel_writes _ _ _ _ _ _ R H0) as (m' & Hw & R'). rewrite Hw. simpl. eauto.
  - intros y j c J. simpl in J. apply runs_bind in J. destruct J as (t & j1 & J & J2). rinv. subst. apply ylf_ok in J. rewrite J. auto.
Qed.

Lemma bind_params_ok : forall ps vs sm m n r sm', rel sm m -> runs (y_bind_params ps vs sm) n (r, sm') ->
  exists m', bind_params S ps (map vden vs) m = Ok (eden r, m') /\ rel sm' m'.
Proof.
  induction ps as [|[x [k|]] ps]; intros vs sm m n r sm' R H; destruct vs as [|v vs]; simpl in H; try (rinv; fail).
  - rinv. inversion H; subst. simpl. eauto.
  - destruct v; try (rinv; fail). destruct (Nat.eqb (length l) k) eqn:E; try (rinv; fail).
    apply runs_bind in H. destruct H as ([r1 sm1] & n1 & H1 & H). rinv. inversion H; subst.
    simpl. rewrite map_length, E. pose proof (rel_alloc _ _ l R) as R1.
    destruct (IHps _ _ _ _ _ _ R1 H1) as (m' & Hb & R'). rewrite Hb. simpl. exists m'. split; auto.
    rewrite pden_loc by apply (rel_nr _ _ R). simpl. rewrite (rel_len _ _ R). auto.
  - apply runs_bind in H. destruct H as ([r1 sm1] & n1 & H1 & H). rinv. inversion H; subst.
    destruct (IHps _ _ _ _ _ _ R H1) as (m' & Hb & R'). simpl. rewrite Hb. simpl. eauto.
Qed.

Lemma bind_locals_ok : forall ls sm m r sm', rel sm m -> y_bind_locals ls sm = (r, sm') ->
  exists m', bind_locals S ls m = (eden r, m') /\ rel sm' m'.
Proof.
  induction ls as [|[x [k|]] ls]; intros sm m r sm' R H; simpl in H.
  - inversion H; subst. simpl. eauto.
  - destruct (y_bind_locals ls (sm ++ [repeat KU k])) as [r1 sm1] eqn:E. inversion H; subst.
    pose proof (rel_alloc _ _ (repeat KU k) R) as R1. rewrite map_repeat in R1. simpl in R1.
    destruct (IHls _ _ _ _ R1 E) as (m' & Hb & R'). simpl. rewrite Hb. simpl. exists m'. split; auto.
    rewrite pden_loc by apply (rel_nr _ _ R). simpl. rewrite (rel_len _ _ R). auto.
  - destruct (y_bind_locals ls sm) as [r1 sm1] eqn:E. inversion H; subst.
    destruct (IHls _ _ _ _ R E) as (m' & Hb & R'). simpl. rewrite Hb. eauto.
Qed.

(** ** Main induction *)

Scheme expr_m := Induction for expr Sort Prop
  with exprs_m := Induction for exprs Sort Prop
  with stmt_m := Induction for stmt Sort Prop
  with fundef_m := Induction for fundef Sort Prop.
Combined Scheme syn_ind from expr_m, exprs_m, stmt_m, fundef_m.

Variable K : nat.

Definition Pe (e : expr) := forall r sm n v sm' m, rel sm m -> runs (y_eval K ro e r sm) n (v, sm') ->
  exists m', eval S e (eden r) m = Ok (vden v, m') /\ rel sm' m'.
Definition Pes (es : exprs) := forall r sm n vs sm' m, rel sm m -> runs (y_evals K ro es r sm) n (vs, sm') ->
  exists m', evals S es (eden r) m = Ok (map vden vs, m') /\ rel sm' m'.
Definition Ps (s : stmt) := forall r sm n fl r' sm' m, rel sm m -> runs (y_exec K ro s r sm) n (fl, r', sm') ->
  exists m', exec S s (eden r) m = Ok (flden fl, eden r', m') /\ rel sm' m'.
Definition Pf (f : fundef) := forall vs sm n v sm' m, rel sm m -> runs (y_call K ro f vs sm) n (v, sm') ->
  exists m', call S f (map vden vs) m = Ok (vden v, m') /\ rel sm' m'.

Ltac bnd := match goal with
  | H : runs (mbind (y_eval _ _ _ _ _) _) _ _ |- _ =>
      apply runs_bind in H; destruct H as ([? ?] & ? & ? & H)
  | H : runs (mbind (y_evals _ _ _ _ _) _) _ _ |- _ =>
      apply runs_bind in H; destruct H as ([? ?] & ? & ? & H)
  | H : runs (mbind (y_exec _ _ _ _ _) _) _ _ |- _ =>
      apply runs_bind in H; destruct H as ([[? ?] ?] & ? & ? & H)
  | H : runs (mbind (y_ptr _) _) _ _ |- _ =>
      apply runs_bind in H; destruct H as ([? ?] & ? & ? & H)
  | H : runs (mbind _ _) _ _ |- _ =>
      apply runs_bind in H; destruct H as (? & ? & ? & H)
  end.
Ltac ih := match goal with
  | IH : Pe ?e, R : rel ?sm ?m, H : runs (y_eval _ _ ?e _ ?sm) _ _ |- _ =>
      let E := fresh "E" in destruct (IH _ _ _ _ _ _ R H) as (? & E & ?); clear H; rewrite E; simpl
  | IH : Pes ?e, R : rel ?sm ?m, H : runs (y_evals _ _ ?e _ ?sm) _ _ |- _ =>
      let E := fresh "E" in destruct (IH _ _ _ _ _ _ R H) as (? & E & ?); clear H; rewrite E; simpl
  | IH : Ps ?e, R : rel ?sm ?m, H : runs (y_exec _ _ ?e _ ?sm) _ _ |- _ =>
      let E := fresh "E" in destruct (IH _ _ _ _ _ _ _ R H) as (? & E & ?); clear H; rewrite E; simpl
  | IH : Pf ?e, R : rel ?sm ?m, H : runs (y_call _ _ ?e _ ?sm) _ _ |- _ =>
      let E := fresh "E" in destruct (IH _ _ _ _ _ _ R H) as (? & E & ?); clear H; rewrite E; simpl
  end.
Ltac fin := rinv; repeat match goal with H : (_, _) = (_, _) |- _ => inversion H; subst; clear H end.

Lemma sound : (forall e, Pe e) /\ (forall es, Pes es) /\ (forall s, Ps s) /\ (forall f, Pf f).
Proof.
  apply syn_ind; try (intros; intros r sm n' v' sm' m R H; simpl in *; fin; simpl; eauto; fail).
  - (* EV *) intros x r sm n v sm' m R H. simpl in *. bnd. fin. apply y_var_ok in H0. rewrite H0. simpl. eauto.
  - (* EIx *) intros p IHp s i IHi r sm n v sm' m R H. simpl in *. repeat bnd. do 2 ih.
    apply y_ptr_ok in H2. rewrite H2. simpl. destruct s2; try (rinv; fail).
    bnd. fin. apply y_ilit_ok in H1. simpl. rewrite H1. eexists; split; eauto. do 3 f_equal. lia.
  - (* ELd *) intros p IHp r sm n v sm' m R H. simpl in *. apply runs_collapse_vm in H.
    destruct H as ([v1 sm1] & H & [E1 E2]). simpl in E1, E2. repeat bnd. fin.
    ih. erewrite load_ok by eauto. simpl. rewrite E1. eexists; split; eauto. eapply rel_eqv; eauto.
  - (* ELdA *) intros k p IHp r sm n v sm' m R H. simpl in *. repeat bnd. fin.
    ih. erewrite loadA_ok by eauto. simpl. eauto.
  - (* EVLd *) intros k p IHp r sm n v sm' m R H. simpl in *. repeat bnd. fin.
    ih. erewrite loadV_ok by eauto. simpl. eauto.
  - (* EBin *) intros o e1 IH1 e2 IH2 r sm n v sm' m R H. simpl in *. repeat bnd. fin. do 2 ih.
    apply y_bin_ok in H2. rewrite H2. simpl. eauto.
  - (* ENeg *) intros e1 IH1 r sm n v sm' m R H. simpl in *. repeat bnd. fin. ih.
    apply y_neg_ok in H1. rewrite H1. simpl. eauto.
  - (* ENot *) intros e1 IH1 r sm n v sm' m R H. simpl in *. repeat bnd. fin. ih.
    apply y_bool_ok in H1. rewrite H1. simpl. rewrite mkNot_den. eauto.
  - (* EAnd *) intros e1 IH1 e2 IH2 r sm n v sm' m R H. simpl in *. bnd. bnd. ih.
    apply y_bool_ok in H1. rewrite H1. simpl.
    apply runs_collapse_vm in H. destruct H as ([v1 sm1] & H & [E1 E2]). simpl in E1, E2.
    apply runs_branch in H. destruct H as [n' H]. destruct (bden x0).
    + repeat bnd. fin. ih. apply y_bool_ok in H3. rewrite H3. simpl. rewrite <- E1. simpl. eexists; split; eauto. eapply rel_eqv; eauto.
    + fin. rewrite <- E1. simpl. eexists; split; eauto. eapply rel_eqv; eauto.
  - (* EOr *) intros e1 IH1 e2 IH2 r sm n v sm' m R H. simpl in *. bnd. bnd. ih.
    apply y_bool_ok in H1. rewrite H1. simpl.
    apply runs_collapse_vm in H. destruct H as ([v1 sm1] & H & [E1 E2]). simpl in E1, E2.
    apply runs_branch in H. destruct H as [n' H]. destruct (bden x0).
    + fin. rewrite <- E1. simpl. eexists; split; eauto. eapply rel_eqv; eauto.
    + repeat bnd. fin. ih. apply y_bool_ok in H3. rewrite H3. simpl. rewrite <- E1. simpl. eexists; split; eauto. eapply rel_eqv; eauto.
  - (* ECond *) intros c IHc e1 IH1 e2 IH2 r sm n v sm' m R H. simpl in *. bnd. bnd. ih.
    apply y_bool_ok in H1. rewrite H1. simpl.
    apply runs_collapse_vm in H. destruct H as ([v1 sm1] & H & [E1 E2]). simpl in E1, E2.
    apply runs_branch in H. destruct H as [n' H]. destruct (bden x0); ih; rewrite E1;
      eexists; split; eauto; eapply rel_eqv; eauto.
  - (* ECast *) intros t e1 IH1 r sm n v sm' m R H. simpl in *. repeat bnd. fin. ih.
    apply y_cast_ok in H1. rewrite H1. simpl. eauto.
  - (* EPrim *) intros p es IH r sm n v sm' m R H. simpl in *. repeat bnd. fin. ih.
    apply y_prim_ok in H1. rewrite H1. simpl. eauto.
  - (* ECall *) intros f IHf es IH r sm n v sm' m R H. simpl in *. bnd. ih. ih. eauto.
  - (* Econs *) intros e IHe es IHes r sm n v sm' m R H. simpl in *. bnd. bnd. fin. ih. ih. eauto.
  - (* SSkip *) intros r sm n fl r' sm' m R H. simpl in *. fin. eauto.
  - (* SSeq *) intros s1 IH1 s2 IH2 r sm n fl r' sm' m R H. simpl in *. bnd. ih.
    destruct s; simpl.
    + ih. eauto.
    + fin. eauto.
  - (* SSet *) intros x e IHe r sm n fl r' sm' m R H. simpl in *. bnd. bnd. fin. ih.
    apply vbind_ok in H1. rewrite assign_eden, H1. eauto.
  - (* SSt *) intros p IHp e IHe r sm n fl r' sm' m R H. simpl in *. repeat bnd. fin. do 2 ih.
    apply vbind_ok in H2. rewrite <- H2.
    edestruct store_ok as (m3 & E3 & R3); [|eassumption|]; [eassumption|]. rewrite E3. simpl. eauto.
  - (* SStA *) intros k p IHp e IHe r sm n fl r' sm' m R H. simpl in *. repeat bnd. fin. do 2 ih.
    edestruct storeA_ok as (m3 & E3 & R3); [|eassumption|]; [eassumption|]. rewrite E3. simpl. eauto.
  - (* SVSt *) intros k p IHp e IHe r sm n fl r' sm' m R H. simpl in *. repeat bnd. fin. do 2 ih.
    apply vbind_ok in H2. rewrite <- H2.
    edestruct storeV_ok as (m3 & E3 & R3); [|eassumption|]; [eassumption|]. rewrite E3. simpl. eauto.
  - (* SExp *) intros e IHe r sm n fl r' sm' m R H. simpl in *. bnd. fin. ih. eauto.
  - (* SIf *) intros c IHc s1 IH1 s2 IH2 r sm n fl r' sm' m R H. simpl in *. bnd. bnd. ih.
    apply y_bool_ok in H1. rewrite H1. simpl.
    apply runs_collapse_ex in H. destruct H as ([[fl1 r1] sm1] & H & (E1 & E2 & E3)). simpl in E1, E2, E3.
    apply runs_branch in H. destruct H as [n' H]. destruct (bden x0); ih; rewrite E1, E2;
      eexists; split; eauto; eapply rel_eqv; eauto.
  - (* SFor *) intros x lo IHlo hi IHhi body IHb r sm n fl r' sm' m R H. simpl in *. bnd. bnd. do 2 ih.
    destruct s as [| | |[]| | | | | | |]; try (rinv; fail).
    destruct s1 as [| | |[]| | | | | | |]; try (rinv; fail). simpl.
    clear E E0 H2 R. revert x1 x3 s2 r H H0.
    generalize (Z.to_nat (z0 - z)). intros k. revert z.
    induction k as [|k IHk]; intros i n1 m2 sm2 r H R.
    + fin. rewrite assign_eden. simpl. eauto.
    + bnd. change (VI i) with (vden (XI (ILit i))). rewrite <- assign_eden. ih. destruct s; simpl.
      * eapply IHk; eauto.
      * fin. eauto.
  - (* SAssert *) intros e IHe r sm n fl r' sm' m R H. simpl in *. repeat bnd. fin. ih.
    apply y_bool_ok in H1. rewrite H1. simpl. rewrite H2. eauto.
  - (* SRet *) intros e IHe r sm n fl r' sm' m R H. simpl in *. bnd. fin. ih. eauto.
  - (* SRet0 *) intros r sm n fl r' sm' m R H. simpl in *. fin. eauto.
  - (* Fun *) intros ps ls body IHb vs sm n v sm' m R H. simpl in *.
    apply runs_bind in H. destruct H as ([r1 sm1] & n1 & H1 & H).
    destruct (y_bind_locals ls sm1) as [r2 sm2] eqn:EL.
    destruct (bind_params_ok _ _ _ _ _ _ _ R H1) as (m1 & E1 & R1).
    destruct (bind_locals_ok _ _ _ _ _ R1 EL) as (m2 & E2 & R2).
    rewrite E1. simpl. rewrite E2.
    apply runs_collapse_vm in H. destruct H as ([v1 sm3] & H & [Ev Em]). simpl in Ev, Em.
    bnd. replace (eden r1 ++ eden r2) with (eden (r1 ++ r2)) by apply map_app.
    ih. pose proof (rel_free _ _ _ _ R H2) as R4.
    destruct s; fin; simpl; rewrite <- Ev; eexists; split; eauto; eapply rel_eqv; eauto.
Qed.

(** *** Errors: the same induction *)
Ltac pinv := match goal with
  | H : fails (mbind (y_ptr _) _) _ _ |- _ =>
      apply fails_bind in H; destruct H as [H | ([? ?] & ? & ? & H)]; [exfalso; eapply y_ptr_nf; eauto|]
  end.
Lemma load_nf : forall sm v n e, ~ fails (y_load sm v) n e.
Proof. intros sm v n e H. unfold y_load in H. pinv. finv. eapply y_c2v_nf; eauto. Qed.
Lemma store_nf : forall sm p v n e, ~ fails (y_store ro sm p v) n e.
Proof. intros sm p v n e H. unfold y_store in H. pinv. finv. eapply y_v2c_nf; eauto. Qed.
Lemma loadA_nf : forall sm k v n e, ~ fails (y_loadA sm k v) n e.
Proof. intros sm k v n e H. unfold y_loadA in H. pinv. finv. Qed.
Lemma storeA_nf : forall sm k p v n e, ~ fails (y_storeA ro sm k p v) n e.
Proof. intros sm k p v n e H. unfold y_storeA in H. pinv. destruct v; finv. destruct (Nat.eqb _ _); finv. Qed.
Lemma loadV_nf : forall sm k v n e, ~ fails (y_loadV sm k v) n e.
Proof. intros sm k v n e H. unfold y_loadV in H. pinv. finv. revert H. apply mmap_nf. apply y_c2l_nf. Qed.
Lemma storeV_nf : forall sm k p v n e, ~ fails (y_storeV ro sm k p v) n e.
Proof.
  intros sm k p v n e H. unfold y_storeV in H. pinv. destruct v; finv. destruct (Nat.leb _ _); finv.
  revert H. apply mmap_nf. intros y n' e' J. finv. eapply ylf_nf; eauto.
Qed.
Lemma bind_params_nf : forall ps vs sm n e, ~ fails (y_bind_params ps vs sm) n e.
Proof.
  induction ps as [|[x [k|]] ps]; intros vs sm n e H; destruct vs as [|v vs]; simpl in H; try (finv; fail).
  - destruct v; try (finv; fail). destruct (Nat.eqb (length l) k) eqn:E; try (finv; fail).
    apply fails_bind in H. destruct H as [H | ([r1 sm1] & n1 & H1 & H)]; [eapply IHps; eauto | finv].
  - apply fails_bind in H. destruct H as [H | ([r1 sm1] & n1 & H1 & H)]; [eapply IHps; eauto | finv].
Qed.

Definition Qe (e : expr) := forall r sm n x m, rel sm m -> fails (y_eval K ro e r sm) n x -> eval S e (eden r) m = Err x.
Definition Qes (es : exprs) := forall r sm n x m, rel sm m -> fails (y_evals K ro es r sm) n x -> evals S es (eden r) m = Err x.
Definition Qs (s : stmt) := forall r sm n x m, rel sm m -> fails (y_exec K ro s r sm) n x -> exec S s (eden r) m = Err x.
Definition Qf (f : fundef) := forall vs sm n x m, rel sm m -> fails (y_call K ro f vs sm) n x -> call S f (map vden vs) m = Err x.

Ltac fb := match goal with
  | H : fails (mcollapse _ _) _ _ |- _ => apply fails_collapse in H
  | H : fails (mbind (y_eval _ _ ?e _ ?sm) _) _ _, R : rel ?sm ?m |- _ =>
      apply fails_bind in H; destruct H as [H | ([? ?] & ? & ?H & H)];
      [ match goal with IH : Qe e |- _ => erewrite IH by eauto; simpl; auto end
      | match goal with H1 : runs (y_eval _ _ e _ sm) _ _ |- _ =>
          let E := fresh "E" in destruct (proj1 sound e _ _ _ _ _ _ R H1) as (? & E & ?); clear H1; rewrite E; simpl end ]
  | H : fails (mbind (y_evals _ _ ?e _ ?sm) _) _ _, R : rel ?sm ?m |- _ =>
      apply fails_bind in H; destruct H as [H | ([? ?] & ? & ?H & H)];
      [ match goal with IH : Qes e |- _ => erewrite IH by eauto; simpl; auto end
      | match goal with H1 : runs (y_evals _ _ e _ sm) _ _ |- _ =>
          let E := fresh "E" in destruct (proj1 (proj2 sound) e _ _ _ _ _ _ R H1) as (? & E & ?); clear H1; rewrite E; simpl end ]
  | H : fails (mbind (y_exec _ _ ?e _ ?sm) _) _ _, R : rel ?sm ?m |- _ =>
      apply fails_bind in H; destruct H as [H | ([[? ?] ?] & ? & ?H & H)];
      [ match goal with IH : Qs e |- _ => erewrite IH by eauto; simpl; auto end
      | match goal with H1 : runs (y_exec _ _ e _ sm) _ _ |- _ =>
          let E := fresh "E" in destruct (proj1 (proj2 (proj2 sound)) e _ _ _ _ _ _ _ R H1) as (? & E & ?); clear H1; rewrite E; simpl end ]
  | H : fails (mbind (y_bool _) _) _ _ |- _ =>
      apply fails_bind in H; destruct H as [H | (? & ? & ?H & H)];
      [ exfalso; eapply y_bool_nf; eauto
      | match goal with H1 : runs (y_bool _) _ _ |- _ =>
          let E := fresh "E" in pose proof (y_bool_ok _ _ _ H1) as E; clear H1; rewrite E; simpl end ]
  | H : fails (mbind (vbind _ _) _) _ _ |- _ =>
      apply fails_bind in H; destruct H as [H | (? & ? & ?H & H)]; [exfalso; eapply vbind_nf; eauto|]
  end.
Ltac fbr := match goal with H : fails (branch ?b _ _) _ _ |- _ => apply fails_branch in H; destruct H as [? H]; destruct (bden b) end.

Lemma sound_err : (forall e, Qe e) /\ (forall es, Qes es) /\ (forall s, Qs s) /\ (forall f, Qf f).
Proof.
  apply syn_ind; try (intros; intros r sm n' x' m R H; simpl in *; finv; fail).
  - (* EV *) intros x r sm n e m R H. simpl in *. finv. exfalso; eapply y_var_nf; eauto.
  - (* EIx *) intros p IHp s i IHi r sm n e m R H. simpl in *. fb. fb.
    pinv. match goal with J : runs (y_ptr _) _ _ |- _ => apply y_ptr_ok in J; rewrite J end. simpl. destruct s2; finv. exfalso; eapply y_ilit_nf; eauto.
  - (* ELd *) intros p IHp r sm n e m R H. simpl in *. repeat fb. finv. exfalso; eapply load_nf; eauto.
  - (* ELdA *) intros k p IHp r sm n e m R H. simpl in *. repeat fb. finv. exfalso; eapply loadA_nf; eauto.
  - (* EVLd *) intros k p IHp r sm n e m R H. simpl in *. repeat fb. finv. exfalso; eapply loadV_nf; eauto.
  - (* EBin *) intros o e1 IH1 e2 IH2 r sm n e m R H. simpl in *. fb. fb. finv. apply y_bin_err in H. rewrite H. auto.
  - (* ENeg *) intros e1 IH1 r sm n e m R H. simpl in *. fb. finv. apply y_neg_err in H. rewrite H. auto.
  - (* ENot *) intros e1 IH1 r sm n e m R H. simpl in *. fb. fb. finv.
  - (* EAnd *) intros e1 IH1 e2 IH2 r sm n e m R H. simpl in *. fb. fb. fb. fbr; [|finv]. fb. fb. finv.
  - (* EOr *) intros e1 IH1 e2 IH2 r sm n e m R H. simpl in *. fb. fb. fb. fbr; [finv|]. fb. fb. finv.
  - (* ECond *) intros c IHc e1 IH1 e2 IH2 r sm n e m R H. simpl in *. fb. fb. fb. fbr; [eapply IH1 | eapply IH2]; eauto.
  - (* ECast *) intros t e1 IH1 r sm n e m R H. simpl in *. fb. finv. exfalso; eapply y_cast_nf; eauto.
  - (* EPrim *) intros p es IH r sm n e m R H. simpl in *. fb. finv. apply y_prim_err in H. rewrite H. auto.
  - (* ECall *) intros f IHf es IH r sm n e m R H. simpl in *. fb. eapply IHf; eauto.
  - (* Econs *) intros e IHe es IHes r sm n x m R H. simpl in *. fb. fb. finv.
  - (* SSeq *) intros s1 IH1 s2 IH2 r sm n e m R H. simpl in *. fb. destruct s; simpl; [eapply IH2; eauto | finv].
  - (* SSet *) intros x e IHe r sm n e' m R H. simpl in *. fb. fb. finv.
  - (* SSt *) intros p IHp e IHe r sm n e' m R H. simpl in *. fb. fb. fb. finv. exfalso; eapply store_nf; eauto.
  - (* SStA *) intros k p IHp e IHe r sm n e' m R H. simpl in *. fb. fb. finv. exfalso; eapply storeA_nf; eauto.
  - (* SVSt *) intros k p IHp e IHe r sm n e' m R H. simpl in *. fb. fb. fb. finv. exfalso; eapply storeV_nf; eauto.
  - (* SExp *) intros e IHe r sm n e' m R H. simpl in *. fb. finv.
  - (* SIf *) intros c IHc s1 IH1 s2 IH2 r sm n e m R H. simpl in *. fb. fb. fb. fbr; [eapply IH1 | eapply IH2]; eauto.
  - (* SFor *) intros x lo IHlo hi IHhi body IHb r sm n e m R H. simpl in *. fb. fb.
    destruct s as [| | |[]| | | | | | |]; try (finv; fail).
    destruct s1 as [| | |[]| | | | | | |]; try (finv; fail). simpl.
    clear E E0 H1 R. revert x2 x3 s2 r H H2.
    generalize (Z.to_nat (z0 - z)). intros k. revert z.
    induction k as [|k IHk]; intros i n1 m2 sm2 r H R.
    + finv.
    + change (VI i) with (vden (XI (ILit i))). rewrite <- assign_eden. fb. destruct s; simpl.
      * eapply IHk; eauto.
      * finv.
  - (* SAssert *) intros e IHe r sm n e' m R H. simpl in *. fb. fb. finv. subst. rewrite H. auto.
  - (* SRet *) intros e IHe r sm n e' m R H. simpl in *. fb. finv.
  - (* Fun *) intros ps ls body IHb vs sm n e m R H. simpl in *.
    apply fails_bind in H. destruct H as [H | ([r1 sm1] & n1 & H1 & H)]; [exfalso; eapply bind_params_nf; eauto|].
    destruct (y_bind_locals ls sm1) as [r2 sm2] eqn:EL.
    destruct (bind_params_ok _ _ _ _ _ _ _ R H1) as (m1 & E1 & R1).
    destruct (bind_locals_ok _ _ _ _ _ R1 EL) as (m2 & E2 & R2).
    rewrite E1. simpl. rewrite E2.
    replace (eden r1 ++ eden r2) with (eden (r1 ++ r2)) by apply map_app.
    fb. fb. destruct s; finv.
Qed.

End Rel.
End Den.
