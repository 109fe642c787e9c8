(** * From a symbolic run to a contract (proof tool). *)

From Coq Require Import String List ZArith Bool Lia.
From Verif Require Import MiniC Sym SymSound Contract.
Import ListNotations.
Open Scope Z_scope.

(** ** Scoping of let-bindings *)

Fixpoint sbelow (k : nat) (s : sexp) : bool :=
  match s with
  | SVar n => Nat.ltb n k
  | SLit _ _ | SPi _ _ => true
  | SOp1 _ x => sbelow k x
  | SOp2 _ x y => sbelow k x && sbelow k y
  | SFma x y z => sbelow k x && sbelow k y && sbelow k z
  | SIte c x y => bbelow k c && sbelow k x && sbelow k y
  | SOfZ i => ibelow k i
  end
with bbelow (k : nat) (b : bexp) : bool :=
  match b with
  | BLit _ | BVar _ => true
  | BCmpF _ x y => sbelow k x && sbelow k y
  | BTest _ x => sbelow k x
  | BCmpI _ x y => ibelow k x && ibelow k y
  | BNot x => bbelow k x
  | BIte c x y => bbelow k c && bbelow k x && bbelow k y
  | BOk1 _ x => sbelow k x
  | BOk2 _ x y => sbelow k x && sbelow k y
  | BIn i => ibelow k i
  end
with ibelow (k : nat) (i : iexp) : bool :=
  match i with
  | ILit _ | IVar _ => true
  | IOp _ x y => ibelow k x && ibelow k y
  | INeg x => ibelow k x
  | IAbs x => ibelow k x
  | IOfB b => bbelow k b
  | IIte c x y => bbelow k c && ibelow k x && ibelow k y
  end.

Fixpoint scoped (k : nat) (w : binds) : bool :=
  match w with
  | [] => true
  | (n, s) :: w' => Nat.eqb n k && sbelow k s && scoped (Datatypes.S k) w'
  end.

(** ** Symbolic arguments *)

Inductive sarg := SIn (cs : list scell) | SInA (cs : list scell) | SOut (n : nat) | SInOut (cs : list scell) | SVal (v : sval).

Definition ssz (a : sarg) : nat :=
  match a with SIn cs | SInA cs | SInOut cs => length cs | SOut n => n | SVal _ => O end.
Definition swritten (a : sarg) : bool := match a with SOut _ | SInOut _ => true | _ => false end.
Definition scontents (a : sarg) : list scell :=
  match a with SIn cs | SInA cs | SInOut cs => cs | _ => [] end.

Definition cands (sargs : list sarg) (a : sarg) : list (option nat) :=
  match a with
  | SInA cs => None :: map Some (filter (fun i => match nth_error sargs i with
                   | Some b => swritten b && Nat.eqb (ssz b) (length cs) | None => false end) (seq 0 (length sargs)))
  | _ => [None]
  end.
Fixpoint product {A} (ls : list (list A)) : list (list A) :=
  match ls with
  | [] => [[]]
  | l :: ls' => flat_map (fun x => map (cons x) (product ls')) l
  end.
Definition patterns (sargs : list sarg) : list (list (option nat)) := product (map (cands sargs) sargs).

Definition isalias (pat : list (option nat)) (i j : nat) : bool :=
  match nth j pat None with Some i' => Nat.eqb i i' | None => false end.
Definition aliaser (pat : list (option nat)) (i : nat) : option nat :=
  find (isalias pat i) (seq 0 (length pat)).
Definition base (sargs : list sarg) (i : nat) : nat := fold_right plus O (map ssz (firstn i sargs)).

Definition region (sargs : list sarg) (pat : list (option nat)) (i : nat) (a : sarg) : list scell :=
  match nth i pat None with
  | Some _ => []
  | None =>
    match a with
    | SIn cs | SInA cs | SInOut cs => cs
    | SVal _ => []
    | SOut n => match aliaser pat i with
                | Some j => scontents (nth j sargs (SVal XVoid))
                | None => map KOpq (seq (base sargs i) n)
                end
    end
  end.
Definition sact (pat : list (option nat)) (i : nat) (a : sarg) : sval :=
  match a with
  | SVal v => v
  | _ => match nth i pat None with Some j => XP j 0 | None => XP i 0 end
  end.
Fixpoint mapi {A B} (f : nat -> A -> B) (i : nat) (l : list A) : list B :=
  match l with [] => [] | a :: l' => f i a :: mapi f (Datatypes.S i) l' end.

Definition sregions sargs pat := mapi (region sargs pat) 0 sargs.
Definition sactuals (sargs : list sarg) pat := mapi (sact pat) 0 sargs.
Definition sro (sargs : list sarg) := map (fun a => negb (swritten a)) sargs.
Definition widx (sargs : list sarg) : list nat :=
  filter (fun i => swritten (nth i sargs (SVal XVoid))) (seq 0 (length sargs)).
Definition eqs (sargs : list sarg) (pat : list (option nat)) : list (list scell * list scell) :=
  flat_map (fun j => match nth j pat None with
    | Some i =>
      if match aliaser pat i, nth i sargs (SVal XVoid) with Some j', SOut _ => Nat.eqb j j' | _, _ => false end then []
      else [(scontents (nth j sargs (SVal XVoid)), nth i (sregions sargs pat) [])]
    | None => [] end) (seq 0 (length sargs)).

Lemma mapi_nth : forall A B (f : nat -> A -> B) l i k,
  nth_error (mapi f i l) k = option_map (f (i + k)%nat) (nth_error l k).
Proof.
  induction l; intros i k; simpl; destruct k; simpl; auto.
  - f_equal. f_equal. lia.
  - rewrite IHl. f_equal. f_equal. lia.
Qed.
Lemma mapi_length : forall A B (f : nat -> A -> B) l i, length (mapi f i l) = length l.
Proof. induction l; simpl; auto. Qed.

(** every outcome in the tree is a normal return that keeps the shape of memory, or an
    arithmetic error *)
Fixpoint safe_tree (lens : list nat) (t : tree (sval * smem)) : bool :=
  match t with
  | TLeaf (_, sm) => list_eqb Nat.eqb (map (@length _) sm) lens
  | TErr => false
  | TIf _ t u => safe_tree lens t && safe_tree lens u
  | TGuard e _ t => arith e && safe_tree lens t
  end.
Definition safe_at (K : nat) (f : fundef) (sargs : list sarg) (pat : list (option nat)) (k : nat) : bool :=
  let '(t, n, w) := y_call K (sro sargs) f (sactuals sargs pat) (sregions sargs pat) k in
  scoped k w && safe_tree (map (@length _) (sregions sargs pat)) t.

Section Call.
Variable S : Scalar.
Notation F := (T S).

(** ** Goals *)

Fixpoint tprop {A} (a : asg F) (t : tree A) (Q : A -> Prop) : Prop :=
  match t with
  | TLeaf x => Q x
  | TErr => False
  | TIf b t u => if bden S a b then tprop a t Q else tprop a u Q
  | TGuard e g t => bden S a g = true /\ tprop a t Q
  end.

Lemma tprop_den : forall A a (t : tree A) Q, tprop a t Q -> exists x, tden S a t = Some x /\ Q x.
Proof.
  induction t; simpl; intros Q H; eauto; try tauto.
  - destruct (bden S a b); auto.
  - destruct H as [-> H]. auto.
Qed.

(** the run ends in error [x] *)
Fixpoint tfail {A} (a : asg F) (t : tree A) (x : err) : Prop :=
  match t with
  | TLeaf _ => False
  | TErr => False
  | TIf b t u => if bden S a b then tfail a t x else tfail a u x
  | TGuard e g t => if bden S a g then tfail a t x else e = x
  end.

Lemma tfail_bad : forall A a (t : tree A) x, tfail a t x -> tbad S a t = Some x.
Proof.
  induction t; simpl; intros x H; eauto; try tauto.
  - destruct (bden S a b); auto.
  - destruct (bden S a g); auto. congruence.
Qed.

Lemma list_eqb_lens : forall x y, list_eqb Nat.eqb x y = true -> x = y.
Proof.
  induction x; destruct y; simpl; intros H; try discriminate; auto.
  apply andb_prop in H. destruct H as [H1 H2]. apply Nat.eqb_eq in H1. f_equal; auto.
Qed.
Lemma safe_tree_den : forall lens a t, safe_tree lens t = true ->
  (exists v sm, tden S a t = Some (v, sm) /\ list_eqb Nat.eqb (map (@length _) sm) lens = true) \/
  (exists x, arith x = true /\ tbad S a t = Some x).
Proof.
  induction t; simpl; intros H; try discriminate.
  - destruct a0 as [v sm]. left. eauto.
  - apply andb_prop in H. destruct H as [H1 H2]. destruct (bden S a b); auto.
  - apply andb_prop in H. destruct H as [H1 H2]. destruct (bden S a g); eauto.
Qed.

Definition mk (is : list Z) (bs : list bool) (ac : nat -> cell F) (fs : list F) : asg F :=
  {| a_f := fun n => nth n fs (s_lit S 0 1); a_i := fun n => nth n is 0; a_b := fun n => nth n bs false; a_c := ac |}.

Fixpoint with_binds (is : list Z) (bs : list bool) (ac : nat -> cell F) (fs : list F) (w : binds) (P : list F -> Prop) : Prop :=
  match w with
  | [] => P fs
  | (n, s) :: w' => forall t, t = fden S (mk is bs ac fs) s -> with_binds is bs ac (fs ++ [t]) w' P
  end.

Lemma below_ext : forall k (a a' : asg F), (forall n, (n < k)%nat -> a_f a n = a_f a' n) ->
  a_i a = a_i a' -> a_b a = a_b a' ->
  (forall s, sbelow k s = true -> fden S a s = fden S a' s) /\
  (forall b, bbelow k b = true -> bden S a b = bden S a' b) /\
  (forall i, ibelow k i = true -> iden S a i = iden S a' i).
Proof.
  intros k a a' H HI HB.
  apply sbi_ind; cbn [sbelow bbelow ibelow fden bden iden]; fold (fden S a) (bden S a) (iden S a) (fden S a') (bden S a') (iden S a'); intros;
    repeat match goal with
    | H : _ && _ = true |- _ => apply andb_prop in H; destruct H
    end; auto;
    try (rewrite HI; auto; fail); try (rewrite HB; auto; fail);
    try (apply Nat.ltb_lt in H0; auto);
    repeat match goal with IH : ?c = true -> _, E : ?c = true |- _ => specialize (IH E); rewrite ?IH end; auto.
Qed.

Lemma with_binds_run : forall is bs ac w fs P, scoped (length fs) w = true -> with_binds is bs ac fs w P ->
  exists ts, sat S (mk is bs ac (fs ++ ts)) w /\ P (fs ++ ts).
Proof.
  induction w as [|[n s] w]; simpl; intros fs P HS H.
  - exists []. rewrite app_nil_r. split; auto. constructor.
  - apply andb_prop in HS. destruct HS as [HS HS2]. apply andb_prop in HS. destruct HS as [HS1 HS].
    apply Nat.eqb_eq in HS1. subst n.
    specialize (H _ eq_refl). set (t := fden S (mk is bs ac fs) s) in *.
    destruct (IHw (fs ++ [t]) P) as (ts & Hs & HP).
    + rewrite app_length. simpl. rewrite Nat.add_1_r. auto.
    + auto.
    + exists (t :: ts). rewrite <- app_assoc in *. simpl in *. split; auto.
      constructor; auto. simpl. rewrite app_nth2 by lia. rewrite Nat.sub_diag. simpl.
      unfold t. apply (below_ext (length fs)); auto. intros n Hn. simpl. rewrite app_nth1; auto.
Qed.

Section Args.
Variables (is : list Z) (bs : list bool) (fs : list F).

Definition aden (ac : nat -> cell F) (pi : list (nat * Z)) (L : nat) (ts : list F) (a : sarg) : arg F :=
  let r := mk is bs ac (fs ++ ts) in
  match a with
  | SIn cs => In (map (cden S r pi L) cs)
  | SInA cs => InA (map (cden S r pi L) cs)
  | SOut n => Out n
  | SInOut cs => InOut (map (cden S r pi L) cs)
  | SVal v => Val (vden S r pi L v)
  end.

Fixpoint imps (ac : nat -> cell F) (pi : list (nat * Z)) (L : nat) (l : list (list scell * list scell)) (P : Prop) : Prop :=
  match l with
  | [] => P
  | (x, y) :: l' => map (cden S (mk is bs ac fs) pi L) x = map (cden S (mk is bs ac fs) pi L) y -> imps ac pi L l' P
  end.

Definition obl (K : nat) (f : fundef) (sargs : list sarg) (ret : value F) (outs : list (list (cell F)))
    (pat : list (option nat)) : Prop :=
  forall t n w e wi, y_call K (sro sargs) f (sactuals sargs pat) (sregions sargs pat) (length fs) = (t, n, w) ->
  eqs sargs pat = e -> widx sargs = wi ->
  scoped (length fs) w = true /\
  forall ac pi L, imps ac pi L e
    (with_binds is bs ac fs w (fun fs' => tprop (mk is bs ac fs') t (fun vm =>
       length (snd vm) = length sargs /\
       vden S (mk is bs ac fs') pi L (fst vm) = ret /\
       map (fun i => map (cden S (mk is bs ac fs') pi L) (nth i (snd vm) [])) wi = outs))).

Definition oblx (K : nat) (f : fundef) (sargs : list sarg) (x : err) (pat : list (option nat)) : Prop :=
  forall t n w e, y_call K (sro sargs) f (sactuals sargs pat) (sregions sargs pat) (length fs) = (t, n, w) ->
  eqs sargs pat = e ->
  scoped (length fs) w = true /\
  forall ac pi L, imps ac pi L e (with_binds is bs ac fs w (fun fs' => tfail (mk is bs ac fs') t x)).

End Args.

(** ** Memory lemmas *)

Lemma mreads_nth : forall n (m : mem F) b o cs, mreads m b o n = Some cs ->
  length cs = n /\ forall k, (k < n)%nat -> mread m b (o + Z.of_nat k) = nth_error cs k.
Proof.
  induction n; simpl; intros m b o cs H.
  - inversion H. split; auto. intros; lia.
  - destruct (mread m b o) eqn:E; try discriminate. destruct (mreads m b (o + 1) n) eqn:E2; try discriminate.
    inversion H; subst. apply IHn in E2. destruct E2 as [<- E2]. split; auto. intros k Hk. destruct k; simpl.
    + rewrite Z.add_0_r. auto.
    + rewrite <- E2 by lia. f_equal. lia.
Qed.

Lemma mread_lt : forall (m : mem F) b o c, mread m b o = Some c -> (b < length m)%nat.
Proof.
  intros m b o c H. unfold mread in H. destruct (o <? 0); try discriminate.
  apply nth_error_Some. destruct (nth_error m b); congruence.
Qed.

Definition inr (p : ptr) (n : nat) (b : nat) (o : Z) : Prop := b = fst p /\ snd p <= o < snd p + Z.of_nat n.

Lemma inr_dec : forall p n b o, {inr p n b o} + {~ inr p n b o}.
Proof.
  intros. unfold inr. destruct (Nat.eq_dec b (fst p)); [|right; tauto].
  destruct (Z_le_dec (snd p) o); [|right; tauto]. destruct (Z_lt_dec o (snd p + Z.of_nat n)); [left; auto|right; tauto].
Qed.

Lemma apart_inr : forall p n q k b o, apart p n q k -> inr p n b o -> inr q k b o -> False.
Proof. intros p n q k b o H [-> H1] [E H2]. destruct H as [H|[H|H]]; [congruence|lia|lia]. Qed.

Definition readable (m : mem F) (p : ptr) (n : nat) : Prop :=
  forall b o, inr p n b o -> mread m b o <> None.

Lemma valid_readable : forall m p n, valid m p n -> readable m p n.
Proof.
  intros m p n H b o [-> Ho]. unfold valid in H. destruct (mreads m (fst p) (snd p) n) as [cs|] eqn:E; [|congruence].
  apply mreads_nth in E. destruct E as [Hl E].
  specialize (E (Z.to_nat (o - snd p))). rewrite Z2Nat.id in E by lia.
  replace (snd p + (o - snd p)) with o in E by lia. rewrite E by lia.
  apply nth_error_Some. lia.
Qed.

Lemma mwrites_ok : forall cs (m : mem F) b o, readable m (b, o) (length cs) ->
  exists m', mwrites m b o cs = Some m' /\ map (@length _) m' = map (@length _) m /\
   (forall b' o', inr (b, o) (length cs) b' o' -> mread m' b' o' = nth_error cs (Z.to_nat (o' - o))) /\
   (forall b' o', ~ inr (b, o) (length cs) b' o' -> mread m' b' o' = mread m b' o').
Proof.
  induction cs; simpl; intros m b o H.
  - exists m. repeat split; auto. intros b' o' [_ Ho]. simpl in Ho. lia.
  - destruct (mread m b o) as [c0|] eqn:E0.
    2:{ exfalso. apply (H b o); auto. split; auto. simpl. lia. }
    destruct (mwrite_ok _ _ _ _ a _ E0) as (m1 & Hw & Hl & Hs & Hr). rewrite Hw.
    destruct (IHcs m1 b (o + 1)) as (m2 & Hw2 & Hs2 & Hi2 & Ho2).
    { intros b' o' [-> Ho]. simpl in *. rewrite Hr. destruct (_ && _); [congruence|].
      apply H. split; simpl; auto. lia. }
    exists m2. split; auto. split; [congruence|]. split.
    + intros b' o' [Hb Ho]. simpl in Hb, Ho. subst b'.
      destruct (Z.eq_dec o' o) as [->|Hne].
      * rewrite Ho2. 2:{ intros [_ Hx]. simpl in Hx. lia. }
        rewrite Hr, Nat.eqb_refl, Z.eqb_refl. simpl. rewrite Z.sub_diag. auto.
      * rewrite Hi2. 2:{ split; simpl; auto. lia. }
        replace (Z.to_nat (o' - o)) with (Datatypes.S (Z.to_nat (o' - (o + 1)))) by lia. auto.
    + intros b' o' Hn. rewrite Ho2. 2:{ intros [Hb Hx]. simpl in Hb, Hx. subst. apply Hn. split; simpl; auto. lia. }
      rewrite Hr. destruct (Nat.eqb b b' && (o =? o')) eqn:E; auto.
      exfalso. apply andb_prop in E. destruct E as [E1 E2]. apply Nat.eqb_eq in E1. apply Z.eqb_eq in E2. subst.
      apply Hn. split; simpl; auto. lia.
Qed.

Lemma upd_ok : forall (m : mem F) p cs, readable m p (length cs) ->
   map (@length _) (upd m p cs) = map (@length _) m /\
   (forall b' o', inr p (length cs) b' o' -> mread (upd m p cs) b' o' = nth_error cs (Z.to_nat (o' - snd p))) /\
   (forall b' o', ~ inr p (length cs) b' o' -> mread (upd m p cs) b' o' = mread m b' o').
Proof.
  intros m [b o] cs H. unfold upd. simpl. destruct (mwrites_ok _ _ _ _ H) as (m' & -> & ? & ? & ?). auto.
Qed.

Lemma upds_ok : forall l (m : mem F),
  (forall pc, List.In pc l -> readable m (fst pc) (length (snd pc))) ->
  (forall i j pc qd, i <> j -> nth_error l i = Some pc -> nth_error l j = Some qd ->
     apart (fst pc) (length (snd pc)) (fst qd) (length (snd qd))) ->
  map (@length _) (upds m l) = map (@length _) m /\
  (forall pc b o, List.In pc l -> inr (fst pc) (length (snd pc)) b o ->
     mread (upds m l) b o = nth_error (snd pc) (Z.to_nat (o - snd (fst pc)))) /\
  (forall b o, (forall pc, List.In pc l -> ~ inr (fst pc) (length (snd pc)) b o) -> mread (upds m l) b o = mread m b o).
Proof.
  induction l as [|pc l]; intros m HV HA.
  - simpl. repeat split; auto. intros pc b o [].
  - destruct (upd_ok m (fst pc) (snd pc)) as (U1 & U2 & U3); [apply HV; simpl; auto|].
    change (upds m (pc :: l)) with (upds (upd m (fst pc) (snd pc)) l).
    destruct (IHl (upd m (fst pc) (snd pc))) as (I1 & I2 & I3).
    + intros qd Hin b o Hr. destruct (inr_dec (fst pc) (length (snd pc)) b o) as [i|n].
      * rewrite U2 by auto. destruct i. apply nth_error_Some. lia.
      * rewrite U3 by auto. apply (HV qd); simpl; auto.
    + intros i j p q Hij Hi Hj. apply (HA (Datatypes.S i) (Datatypes.S j)); auto.
    + split; [congruence|]. split.
      * intros qd b o [<-|Hin] Hr; [|auto]. rewrite I3; auto.
        intros rd Hin Hr2. apply In_nth_error in Hin. destruct Hin as [k Hk].
        eapply apart_inr; [|exact Hr|exact Hr2]. apply (HA O (Datatypes.S k)); simpl; auto.
      * intros b o Hn. rewrite I3. apply U3, Hn; simpl; auto. intros; apply Hn; simpl; auto.
Qed.

Lemma nth_error_ext : forall A (l k : list A), (forall n, nth_error l n = nth_error k n) -> l = k.
Proof.
  induction l; destruct k; intros H; auto; try (specialize (H O); discriminate).
  f_equal. specialize (H O); simpl in H; congruence. apply IHl. intros n. apply (H (Datatypes.S n)).
Qed.

Lemma mem_ext : forall (m m' : mem F), map (@length _) m = map (@length _) m' ->
  (forall b o, mread m b o = mread m' b o) -> m = m'.
Proof.
  intros m m' Hs Hr.
  apply nth_error_ext. intros b.
  assert (Hb : option_map (@length _) (nth_error m b) = option_map (@length _) (nth_error m' b)).
  { rewrite <- !nth_error_map'. congruence. }
  destruct (nth_error m b) as [x|] eqn:Ex, (nth_error m' b) as [y|] eqn:Ey; simpl in Hb; try discriminate; auto.
  f_equal. apply nth_error_ext. intros k. specialize (Hr b (Z.of_nat k)). unfold mread in Hr.
  rewrite Ex, Ey, Nat2Z.id in Hr. destruct (Z.of_nat k <? 0) eqn:E; auto. apply Z.ltb_lt in E. lia.
Qed.


(** ** Choosing the aliasing pattern *)

Definition peqb (p q : ptr) : bool := Nat.eqb (fst p) (fst q) && (snd p =? snd q).
Lemma peqb_eq : forall p q, peqb p q = true -> p = q.
Proof.
  intros [a b] [c d] H. unfold peqb in H. simpl in H. apply andb_prop in H. destruct H as [H1 H2].
  apply Nat.eqb_eq in H1. apply Z.eqb_eq in H2. congruence.
Qed.
Lemma peqb_refl : forall p, peqb p p = true.
Proof. intros. unfold peqb. rewrite Nat.eqb_refl, Z.eqb_refl. auto. Qed.

Definition cand (sargs : list sarg) (cs : list scell) : list nat :=
  filter (fun i => match nth_error sargs i with
                   | Some b => swritten b && Nat.eqb (ssz b) (length cs) | None => false end) (seq 0 (length sargs)).

Definition choose (sargs : list sarg) (ps : list ptr) : list (option nat) :=
  mapi (fun j a => match a with
     | SInA cs => find (fun i => peqb (nth i ps (O, 0)) (nth j ps (O, 0))) (cand sargs cs)
     | _ => None end) 0 sargs.

Lemma product_in : forall A (ls : list (list A)) l, Forall2 (fun x l => List.In x l) l ls -> List.In l (product ls).
Proof.
  induction ls; intros l H; inversion H; subst; simpl; auto.
  apply in_flat_map. exists x. split; auto. apply in_map. auto.
Qed.

Lemma choose_in : forall sargs ps, List.In (choose sargs ps) (patterns sargs).
Proof.
  intros. apply product_in. unfold choose.
  assert (G : forall l i, Forall2 (fun x l0 => List.In x l0)
    (mapi (fun j a => match a with
     | SInA cs => find (fun i => peqb (nth i ps (O, 0)) (nth j ps (O, 0))) (cand sargs cs)
     | _ => None end) i l) (map (cands sargs) l)).
  { induction l; intros i; simpl; constructor; auto.
    destruct a; simpl; auto. destruct (find _ _) eqn:E; auto. right.
    apply find_some in E. destruct E as [E _]. apply in_map. exact E. }
  apply G.
Qed.

Section Main.
Variables (K : nat) (f : fundef) (sargs : list sarg) (args : list (arg F)).
Variables (is : list Z) (bs : list bool) (fs : list F).
Hypothesis Hargs : forall ac pi L ts, map (aden is bs fs ac pi L ts) sargs = args.
Variables (m : mem F) (ps : list ptr).
Hypothesis Hlay : layout m args ps.

Let pat := choose sargs ps.
Let L := length m.
Let blocks : list (list (cell F)) :=
  mapi (fun i a => match mreads m (fst (nth i ps (O, 0))) (snd (nth i ps (O, 0))) (ssz a) with Some cs => cs | None => repeat CU (ssz a) end) 0 sargs.
Let ac : nat -> cell F := fun n => nth n (concat blocks) CU.

Lemma len_args : length args = length sargs.
Proof. rewrite <- (Hargs ac ps L []), map_length. auto. Qed.
Lemma len_ps : length ps = length sargs.
Proof. rewrite <- len_args. symmetry. pose proof (lay_placed _ _ _ Hlay) as H. clear - H. induction H; simpl; auto. Qed.

Lemma arg_at : forall ts i a, nth_error sargs i = Some a -> nth_error args i = Some (aden is bs fs ac ps L ts a).
Proof. intros. rewrite <- (Hargs ac ps L ts), nth_error_map', H. auto. Qed.
Lemma ps_at : forall i a, nth_error sargs i = Some a -> nth_error ps i = Some (nth i ps (O, 0)).
Proof.
  intros. apply nth_error_nth'. rewrite len_ps. apply nth_error_Some. congruence.
Qed.
Lemma placed_at : forall ts i a, nth_error sargs i = Some a -> placed m (aden is bs fs ac ps L ts a) (nth i ps (O, 0)).
Proof.
  intros ts i a H. pose proof (arg_at ts _ _ H) as HA. pose proof (ps_at _ _ H) as HP.
  pose proof (lay_placed _ _ _ Hlay) as HF. revert HA HP. generalize (aden is bs fs ac ps L ts a) (nth i ps (O, 0)).
  clear - HF. revert i. induction HF; intros i b q HA HP; destruct i; simpl in *; try discriminate; eauto. congruence.
Qed.
Lemma size_aden : forall ts a, size (aden is bs fs ac ps L ts a) = ssz a.
Proof. intros ts []; simpl; rewrite ?map_length; auto. Qed.
Lemma written_aden : forall ts a, written (aden is bs fs ac ps L ts a) = swritten a.
Proof. intros ts []; auto. Qed.

Lemma pat_at : forall j a, nth_error sargs j = Some a -> nth j pat None =
  match a with SInA cs => find (fun i => peqb (nth i ps (O, 0)) (nth j ps (O, 0))) (cand sargs cs) | _ => None end.
Proof.
  intros j a H. apply nth_error_nth. unfold pat, choose. rewrite mapi_nth, H. auto.
Qed.
Lemma pat_none : forall j, nth_error sargs j = None -> nth j pat None = None.
Proof.
  intros j H. apply nth_overflow. unfold pat, choose. rewrite mapi_length. apply nth_error_None. auto.
Qed.

Lemma pat_some : forall j i, nth j pat None = Some i ->
  exists cs b, nth_error sargs j = Some (SInA cs) /\ nth_error sargs i = Some b /\ swritten b = true /\
    ssz b = length cs /\ nth i ps (O, 0) = nth j ps (O, 0).
Proof.
  intros j i H. destruct (nth_error sargs j) as [a|] eqn:Ea.
  2:{ rewrite pat_none in H; auto. discriminate. }
  rewrite (pat_at _ _ Ea) in H. destruct a; try discriminate.
  apply find_some in H. destruct H as [H1 H2]. apply peqb_eq in H2.
  unfold cand in H1. apply filter_In in H1. destruct H1 as [_ H1].
  destruct (nth_error sargs i) as [b|]; try discriminate. apply andb_prop in H1. destruct H1 as [H1 H3].
  apply Nat.eqb_eq in H3. exists cs, b. auto.
Qed.

Lemma written_noalias : forall i b, nth_error sargs i = Some b -> swritten b = true -> nth i pat None = None.
Proof. intros i b H W. rewrite (pat_at _ _ H). destruct b; auto. discriminate. Qed.

Definition spointer (a : sarg) : bool := match a with SVal _ => false | _ => true end.

Lemma pat_apart : forall i j a b, i <> j -> nth_error sargs i = Some a -> nth_error sargs j = Some b ->
  swritten a = true -> spointer b = true -> nth j pat None = None ->
  apart (nth i ps (O, 0)) (ssz a) (nth j ps (O, 0)) (ssz b).
Proof.
  intros i j a b Hij Ha Hb W P HN.
  destruct (lay_compat _ _ _ Hlay i j _ _ _ _ Hij (arg_at [] _ _ Ha) (arg_at [] _ _ Hb) (ps_at _ _ Ha) (ps_at _ _ Hb)) as [H|H].
  - rewrite written_aden; auto.
  - destruct b; auto.
  - rewrite !size_aden in H. auto.
  - exfalso. destruct H as (H1 & H2 & H3). rewrite !size_aden in H3.
    rewrite (pat_at _ _ Hb) in HN. destruct b; try discriminate.
    assert (Hc : List.In i (cand sargs cs)).
    { apply filter_In. split. apply in_seq. split; [lia|]. apply nth_error_Some. congruence.
      rewrite Ha, W. simpl. apply Nat.eqb_eq. auto. }
    apply find_none with (x := i) in HN; auto. rewrite H2, peqb_refl in HN. discriminate.
Qed.

(** ** The initial relation *)

Let regs := sregions sargs pat.
Let lens := map (@length scell) regs.

Lemma reg_at : forall i a, nth_error sargs i = Some a -> nth_error regs i = Some (region sargs pat i a).
Proof. intros i a H. unfold regs, sregions. rewrite mapi_nth, H. auto. Qed.

Lemma aliaser_some : forall i j, aliaser pat i = Some j -> nth j pat None = Some i.
Proof.
  intros i j H. apply find_some in H. destruct H as [_ H]. unfold isalias in H.
  destruct (nth j pat None); try discriminate. apply Nat.eqb_eq in H. congruence.
Qed.

Lemma reg_len : forall i a, nth_error sargs i = Some a -> nth i pat None = None -> length (region sargs pat i a) = ssz a.
Proof.
  intros i a H HN. unfold region. rewrite HN. destruct a; simpl; auto.
  destruct (aliaser pat i) as [j|] eqn:E.
  - apply aliaser_some in E. apply pat_some in E. destruct E as (cs & b & E1 & E2 & E3 & E4 & E5).
    erewrite nth_error_nth by eauto. simpl. rewrite H in E2. inversion E2; subst. simpl in E4. auto.
  - rewrite map_length, seq_length. auto.
Qed.
Lemma reg_empty : forall i a j, nth i pat None = Some j -> region sargs pat i a = [].
Proof. intros i a j H. unfold region. rewrite H. auto. Qed.

Lemma holds_read : forall p cs k, holds m p cs -> (k < length cs)%nat ->
  mread m (fst p) (snd p + Z.of_nat k) = nth_error cs k.
Proof. intros p cs k H Hk. apply mreads_nth in H. apply H. auto. Qed.

Lemma concat_nth : forall A (l : list (list A)) i k x d, nth_error l i = Some x -> (k < length x)%nat ->
  nth (fold_right plus O (map (@length _) (firstn i l)) + k) (concat l) d = nth k x d.
Proof.
  induction l; intros i k x d H Hk; destruct i; simpl in *; try discriminate.
  - inversion H; subst. apply app_nth1. auto.
  - rewrite app_nth2 by lia. rewrite <- (IHl i k x d H Hk). f_equal. lia.
Qed.

Lemma blocks_len : forall i a, nth_error sargs i = Some a -> exists x, nth_error blocks i = Some x /\ length x = ssz a.
Proof.
  intros i a H. unfold blocks. rewrite mapi_nth, H. simpl. eexists. split; [reflexivity|].
  destruct (mreads _ _ _ _) eqn:E. apply mreads_nth in E. tauto. apply repeat_length.
Qed.
Lemma base_blocks : forall i, base sargs i = fold_right plus O (map (@length _) (firstn i blocks)).
Proof.
  intros i. unfold base. f_equal. rewrite <- !firstn_map. f_equal.
  apply nth_error_ext. intros n. rewrite !nth_error_map'.
  destruct (nth_error sargs n) eqn:E.
  - destruct (blocks_len _ _ E) as (x & -> & Hx). simpl. congruence.
  - assert (G : nth_error blocks n = None).
    { apply nth_error_None. unfold blocks. rewrite mapi_length. apply nth_error_None. auto. }
    rewrite G. auto.
Qed.

Lemma reg_holds : forall ts i a k c, nth_error sargs i = Some a -> nth_error (region sargs pat i a) k = Some c ->
  mread m (fst (nth i ps (O, 0))) (snd (nth i ps (O, 0)) + Z.of_nat k) = Some (cden S (mk is bs ac (fs ++ ts)) ps L c).
Proof.
  intros ts i a k c H Hc.
  assert (HN : nth i pat None = None).
  { destruct (nth i pat None) eqn:E; auto. erewrite reg_empty in Hc by eauto. destruct k; discriminate. }
  assert (Hk : (k < ssz a)%nat). { rewrite <- (reg_len _ _ H HN). apply nth_error_Some. congruence. }
  assert (HC : forall cs p, holds m p (map (cden S (mk is bs ac (fs ++ ts)) ps L) cs) -> nth_error cs k = Some c ->
     mread m (fst p) (snd p + Z.of_nat k) = Some (cden S (mk is bs ac (fs ++ ts)) ps L c)).
  { intros cs p Hh Hn. rewrite (holds_read _ _ k Hh). rewrite nth_error_map', Hn. auto.
    rewrite map_length. apply nth_error_Some. congruence. }
  unfold region in Hc. rewrite HN in Hc. pose proof (placed_at ts _ _ H) as HP.
  destruct a; simpl in HP, Hk; try (eapply HC; eauto; fail); try lia.
  destruct (aliaser pat i) as [j|] eqn:E.
  - apply aliaser_some in E. apply pat_some in E. destruct E as (cs & b & E1 & E2 & E3 & E4 & E5).
    rewrite E5. pose proof (placed_at ts _ _ E1) as HP2. simpl in HP2.
    erewrite nth_error_nth in Hc by eauto. eapply HC; eauto.
  - rewrite nth_error_map' in Hc. rewrite (nth_error_nth' (seq (base sargs i) n) O) in Hc by (rewrite seq_length; auto).
    rewrite seq_nth in Hc by auto. simpl in Hc. inversion Hc; subst c. simpl. unfold ac.
    destruct (blocks_len _ _ H) as (x & Hx & Hl). simpl in Hl.
    rewrite base_blocks. rewrite (concat_nth _ _ _ _ x) by (auto; lia).
    unfold blocks in Hx. rewrite mapi_nth, H in Hx. simpl in Hx. inversion Hx as [Hx'].
    unfold valid in HP. destruct (mreads m _ _ n) as [cs|] eqn:Em; [|congruence]. subst x.
    apply mreads_nth in Em. rewrite (proj2 Em) by auto. apply nth_error_nth'. lia.
Qed.

Lemma inreg_at : forall i b o, inreg ps lens i b o -> exists a, nth_error sargs i = Some a /\ nth i pat None = None /\
  spointer a = true /\ inr (nth i ps (O, 0)) (ssz a) b o.
Proof.
  intros i b o (p & n & H1 & H2 & H3 & H4).
  unfold lens in H2. rewrite nth_error_map' in H2.
  destruct (nth_error sargs i) as [a|] eqn:E.
  2:{ assert (G : nth_error regs i = None).
      { apply nth_error_None. unfold regs, sregions. rewrite mapi_length. apply nth_error_None. auto. }
      rewrite G in H2. discriminate. }
  exists a. rewrite (reg_at _ _ E) in H2. simpl in H2. inversion H2; subst n.
  assert (HN : nth i pat None = None).
  { destruct (nth i pat None) eqn:EN; auto. erewrite reg_empty in H4 by eauto. simpl in H4. lia. }
  rewrite (reg_len _ _ E HN) in *. assert (HPs : nth i ps (O, 0) = p) by (apply nth_error_nth; auto). rewrite HPs.
  repeat split; auto. destruct a; auto. simpl in H4. lia. all: lia.
Qed.

Lemma sro_at : forall i a, nth_error sargs i = Some a -> nth i (sro sargs) false = negb (swritten a).
Proof. intros i a H. apply nth_error_nth. unfold sro. rewrite nth_error_map', H. auto. Qed.

Lemma inreg_lt : forall i b o, inreg ps lens i b o -> (b < L)%nat.
Proof.
  intros i b o H. destruct (inreg_at _ _ _ H) as (a & Ha & HN & HP & [-> Ho]).
  pose proof (reg_len _ _ Ha HN) as HL.
  destruct (nth_error (region sargs pat i a) (Z.to_nat (o - snd (nth i ps (O, 0))))) as [c|] eqn:E.
  - apply (reg_holds [] _ _ _ _ Ha) in E. eapply mread_lt; eauto.
  - apply nth_error_None in E. lia.
Qed.

Lemma reg_disj : forall i j b o, i <> j -> nth i (sro sargs) false = false ->
  inreg ps lens i b o -> inreg ps lens j b o -> False.
Proof.
  intros i j b o Hij Hr Hi Hj.
  destruct (inreg_at _ _ _ Hi) as (a & Ha & HNa & HPa & HIa).
  destruct (inreg_at _ _ _ Hj) as (c & Hc & HNc & HPc & HIc).
  rewrite (sro_at _ _ Ha) in Hr. apply negb_false_iff in Hr.
  eapply apart_inr; [|exact HIa|exact HIc]. eapply pat_apart; eauto.
Qed.

Lemma regs_length : length regs = length ps.
Proof. rewrite len_ps. unfold regs, sregions. apply mapi_length. Qed.

Lemma lens_length : length lens = length ps.
Proof. unfold lens. rewrite map_length. apply regs_length. Qed.

Lemma rel_init : forall ts, rel S (mk is bs ac (fs ++ ts)) ps L m (sro sargs) lens regs m.
Proof.
  intros ts. constructor.
  - rewrite regs_length. auto.
  - rewrite <- regs_length, firstn_all. auto.
  - rewrite regs_length. unfold L. lia.
  - unfold L. rewrite firstn_all2; auto. rewrite map_length. auto.
  - intros b k c H. apply y_mread_bound in H as Hb. destruct Hb as (Hk & blk & Hblk & Hk2).
    unfold y_mread in H. destruct (k <? 0) eqn:Ek; try discriminate. rewrite Hblk in H.
    assert (Hlt : (b < length ps)%nat). { rewrite <- regs_length. apply nth_error_Some. congruence. }
    destruct (nth_error sargs b) as [a|] eqn:Ea.
    2:{ apply nth_error_None in Ea. rewrite len_ps in Hlt. lia. }
    rewrite (reg_at _ _ Ea) in Hblk. inversion Hblk; subst blk.
    unfold pden. rewrite (ps_at _ _ Ea). rewrite <- (reg_holds ts _ _ _ _ Ea H).
    f_equal. rewrite Z2Nat.id by lia. auto.
  - auto.
Qed.

Lemma eqs_hold : forall P, imps is bs fs ac ps L (eqs sargs pat) P -> P.
Proof.
  intros P. unfold eqs. generalize (seq 0 (length sargs)). induction l as [|j l IHl]; simpl; auto.
  destruct (nth j pat None) as [i|] eqn:E; auto.
  match goal with |- context [if ?c then _ else _] => destruct c end; auto.
  simpl. intros H. apply IHl, H. clear H IHl.
  destruct (pat_some _ _ E) as (cs & b & E1 & E2 & E3 & E4 & E5).
  rewrite (nth_error_nth _ _ _ E1). simpl. fold regs. rewrite (nth_error_nth _ _ _ (reg_at _ _ E2)).
  pose proof (placed_at [] _ _ E1) as HP. simpl in HP. rewrite app_nil_r in HP.
  pose proof (written_noalias _ _ E2 E3) as HN. pose proof (reg_len _ _ E2 HN) as HL.
  apply nth_error_ext. intros k. destruct (le_lt_dec (length cs) k) as [Hge|Hlt].
  - transitivity (@None (cell F)); [|symmetry]; apply nth_error_None; rewrite map_length; lia.
  - rewrite (nth_error_map' _ _ _ (region sargs pat i b)).
    rewrite <- (holds_read _ _ k HP) by (rewrite map_length; auto).
    destruct (nth_error (region sargs pat i b) k) as [c|] eqn:Ec.
    + rewrite <- E5. rewrite (reg_holds [] _ _ _ _ E2 Ec), app_nil_r. auto.
    + apply nth_error_None in Ec. lia.
Qed.

Lemma actuals_den : forall ts, map (vden S (mk is bs ac (fs ++ ts)) ps L) (sactuals sargs pat) = actuals args ps.
Proof.
  intros ts. apply nth_error_ext. intros i. rewrite nth_error_map'. unfold sactuals. rewrite mapi_nth.
  assert (G : nth_error (actuals args ps) i =
     match nth_error args i, nth_error ps i with Some a, Some p => Some (actual a p) | _, _ => None end).
  { clear. revert ps i. induction args as [|a l IH]; intros [|p q] [|i]; simpl; auto. 
    destruct (nth_error l i); auto. }
  rewrite G. destruct (nth_error sargs i) as [a|] eqn:E; simpl.
  - rewrite (arg_at ts _ _ E), (ps_at _ _ E). f_equal.
    assert (HX : vden S (mk is bs ac (fs ++ ts)) ps L (match nth i pat None with Some j => XP j 0 | None => XP i 0 end)
      = VP (fst (nth i ps (O, 0))) (snd (nth i ps (O, 0)))).
    { destruct (nth i pat None) as [j|] eqn:EN; simpl.
      - destruct (pat_some _ _ EN) as (cs & b & E1 & E2 & E3 & E4 & E5).
        unfold pden. rewrite (ps_at _ _ E2), E5. rewrite Z.add_0_r. auto.
      - unfold pden. rewrite (ps_at _ _ E), Z.add_0_r. auto. }
    destruct a; simpl; auto.
  - assert (H : nth_error args i = None).
    { apply nth_error_None. rewrite len_args. apply nth_error_None. auto. }
    rewrite H. auto.
Qed.

(** ** The final memory *)

Lemma filter_seq_S : forall (g : nat -> bool) n s, filter g (seq (Datatypes.S s) n) = map Datatypes.S (filter (fun i => g (Datatypes.S i)) (seq s n)).
Proof. intros. rewrite <- seq_shift. generalize (seq s n). induction l; simpl; auto. destruct (g (Datatypes.S a)); simpl; f_equal; auto. Qed.

Lemma wptrs_gen : forall (l : list sarg) (g : sarg -> arg F) (pp : list ptr), (forall a, written (g a) = swritten a) ->
  length pp = length l ->
  wptrs (map g l) pp = map (fun i => nth i pp (O, 0))
      (filter (fun i => swritten (nth i l (SVal XVoid))) (seq 0 (length l))).
Proof.
  clear. intros l g. induction l as [|a l IH]; intros pp Hw H; destruct pp as [|p pp]; simpl in *; try discriminate; auto.
  rewrite filter_seq_S. rewrite IH by (auto; lia). rewrite Hw. destruct (swritten a); simpl.
  - f_equal. rewrite map_map. auto.
  - rewrite map_map. auto.
Qed.

Lemma wptrs_widx : wptrs args ps = map (fun i => nth i ps (O, 0)) (widx sargs).
Proof.
  rewrite <- (Hargs ac ps L []). apply wptrs_gen. apply written_aden. apply len_ps.
Qed.

Lemma main_run : forall ts t n w v sm',
  y_call K (sro sargs) f (sactuals sargs pat) (sregions sargs pat) (length fs) = (t, n, w) ->
  sat S (mk is bs ac (fs ++ ts)) w -> tden S (mk is bs ac (fs ++ ts)) t = Some (v, sm') -> length sm' = length sargs ->
  call S f (actuals args ps) m = Ok (vden S (mk is bs ac (fs ++ ts)) ps L v,
    upds m (combine (wptrs args ps) (map (fun i => map (cden S (mk is bs ac (fs ++ ts)) ps L) (nth i sm' [])) (widx sargs)))).
Proof.
  intros ts t n w v sm' EY Hsat HT Hlen.
  set (rho := mk is bs ac (fs ++ ts)) in *.
  pose proof (sound S rho ps L m eq_refl (sro sargs) lens lens_length inreg_lt reg_disj K) as (_ & _ & _ & HF).
  destruct (HF f (sactuals sargs pat) regs (length fs) v sm' m (rel_init ts)) as (m' & HC & HR).
  { split; unfold regs; rewrite EY; auto. }
  remember (map (fun i => map (cden S rho ps L) (nth i sm' [])) (widx sargs)) as outs eqn:Houts. symmetry in Houts.
  rewrite <- (actuals_den ts). fold rho. rewrite HC. do 2 f_equal.
  clear HC. pose proof (rel_nr _ _ _ _ _ _ _ _ _ HR) as R1. pose proof (rel_lens _ _ _ _ _ _ _ _ _ HR) as R2.
  pose proof (rel_len _ _ _ _ _ _ _ _ _ HR) as R3. pose proof (rel_shape _ _ _ _ _ _ _ _ _ HR) as R4.
  pose proof (rel_read _ _ _ _ _ _ _ _ _ HR) as R5. pose proof (rel_frame _ _ _ _ _ _ _ _ _ HR) as R6.
  assert (Hsm : map (@length _) sm' = lens). { rewrite firstn_all2 in R2; auto. rewrite Hlen, len_ps. auto. }
  assert (HW : forall k pc, nth_error (combine (wptrs args ps) outs) k = Some pc ->
     exists i a blk, nth_error (widx sargs) k = Some i /\ nth_error sargs i = Some a /\ swritten a = true /\
       fst pc = nth i ps (O, 0) /\ nth_error sm' i = Some blk /\ snd pc = map (cden S rho ps L) blk /\ length (snd pc) = ssz a).
  { intros k pc H. rewrite wptrs_widx, <- Houts in H.
    assert (G : forall A B C (g : A -> B) (h : A -> C) l, combine (map g l) (map h l) = map (fun x => (g x, h x)) l).
    { clear. induction l; simpl; f_equal; auto. }
    rewrite G, nth_error_map' in H. destruct (nth_error (widx sargs) k) as [i|] eqn:E; simpl in H; inversion H; subst pc; clear H.
    assert (Hin : List.In i (widx sargs)) by (eapply nth_error_In; eauto).
    unfold widx in Hin. apply filter_In in Hin. destruct Hin as [Hin Hw]. apply in_seq in Hin. simpl in Hin.
    destruct (nth_error sargs i) as [a|] eqn:Ea. 2:{ apply nth_error_None in Ea. lia. }
    rewrite (nth_error_nth _ _ _ Ea) in Hw.
    destruct (nth_error sm' i) as [blk|] eqn:Eb. 2:{ apply nth_error_None in Eb. lia. }
    exists i, a, blk. simpl. rewrite (nth_error_nth _ _ _ Eb). repeat split; auto.
    rewrite map_length. rewrite <- (reg_len _ _ Ea (written_noalias _ _ Ea Hw)).
    assert (Z1 : nth_error lens i = Some (length blk)). { rewrite <- Hsm, nth_error_map', Eb. auto. }
    unfold lens in Z1. rewrite nth_error_map', (reg_at _ _ Ea) in Z1. simpl in Z1. congruence. }
  assert (HIR : forall i a b o, nth_error sargs i = Some a -> swritten a = true -> inr (nth i ps (O,0)) (ssz a) b o -> inreg ps lens i b o).
  { intros i a b o Ha Hw [-> Ho]. exists (nth i ps (O, 0)), (ssz a). split; [eapply ps_at; eauto|]. split; auto.
    unfold lens. rewrite nth_error_map', (reg_at _ _ Ha). simpl. f_equal. apply reg_len; auto. eapply written_noalias; eauto. }
  destruct (upds_ok (combine (wptrs args ps) outs) m) as (U1 & U2 & U3).
  { intros pc Hin. apply In_nth_error in Hin. destruct Hin as [k Hk].
    destruct (HW _ _ Hk) as (i & a & blk & W1 & W2 & W3 & W4 & W5 & W6 & W7). rewrite W4, W7.
    intros b o Hr. pose proof (HIR _ _ _ _ W2 W3 Hr) as Hir.
    destruct Hr as [-> Ho]. pose proof (reg_len _ _ W2 (written_noalias _ _ W2 W3)) as HL.
    destruct (nth_error (region sargs pat i a) (Z.to_nat (o - snd (nth i ps (O, 0))))) as [c|] eqn:E.
    + apply (reg_holds [] _ _ _ _ W2) in E. rewrite Z2Nat.id in E by lia. replace (snd (nth i ps (O, 0)) + (o - snd (nth i ps (O, 0)))) with o in E by lia. congruence.
    + apply nth_error_None in E. lia. }
  { intros k1 k2 pc qd Hk H1 H2.
    destruct (HW _ _ H1) as (i & a & blk & W1 & W2 & W3 & W4 & W5 & W6 & W7).
    destruct (HW _ _ H2) as (i' & a' & blk' & W1' & W2' & W3' & W4' & W5' & W6' & W7').
    rewrite W4, W4', W7, W7'. apply pat_apart; auto.
    - intros <-. apply Hk. assert (ND : NoDup (widx sargs)) by (apply NoDup_filter, seq_NoDup).
      rewrite NoDup_nth_error in ND. apply ND. apply nth_error_Some. congruence. congruence.
    - destruct a'; auto; discriminate.
    - eapply written_noalias; eauto. }
  apply mem_ext.
  - rewrite U1, <- R4. rewrite firstn_all2; auto. rewrite map_length, R3, Hlen, len_ps. lia.
  - intros b o.
    destruct (Exists_dec (fun pc => inr (fst pc) (length (snd pc)) b o) (combine (wptrs args ps) outs)) as [HE|HE].
    { intros; apply inr_dec. }
    + apply Exists_exists in HE. destruct HE as (pc & Hin & Hr). rewrite (U2 _ _ _ Hin Hr).
      apply In_nth_error in Hin. destruct Hin as [k Hk].
      destruct (HW _ _ Hk) as (i & a & blk & W1 & W2 & W3 & W4 & W5 & W6 & W7).
      rewrite W6, nth_error_map'. rewrite W4 in *. destruct Hr as [-> Ho]. rewrite W7 in Ho.
      rewrite W6, map_length in W7.
      destruct (nth_error blk (Z.to_nat (o - snd (nth i ps (O, 0))))) as [c|] eqn:Ec.
      2:{ apply nth_error_None in Ec. lia. }
      simpl. assert (YR : y_mread sm' i (o - snd (nth i ps (O, 0))) = Some c).
      { unfold y_mread. rewrite W5. replace (_ <? 0) with false; auto. symmetry. apply Z.ltb_ge. lia. }
      apply R5 in YR. unfold pden in YR. rewrite (ps_at _ _ W2) in YR. rewrite <- YR. f_equal. lia.
    + rewrite U3. 2:{ intros pc Hin Hr. apply HE. apply Exists_exists. eauto. }
      destruct (le_lt_dec L b) as [Hge|Hlt].
      * transitivity (@None (cell F)); [|symmetry]; unfold mread; destruct (o <? 0); auto.
        -- assert (X : nth_error m' b = None) by (apply nth_error_None; rewrite R3, Hlen, len_ps; lia). rewrite X; auto.
        -- assert (X : nth_error m b = None) by (apply nth_error_None; auto). rewrite X; auto.
      * apply R6; auto. intros i Hro Hi. destruct (inreg_at _ _ _ Hi) as (a & Ha & HN & HP & HI).
        rewrite (sro_at _ _ Ha) in Hro. apply negb_false_iff in Hro.
        apply HE. apply Exists_exists.
        assert (Hin : List.In i (widx sargs)).
        { apply filter_In. split. apply in_seq. split; [lia|]. simpl. apply nth_error_Some. congruence.
          rewrite (nth_error_nth _ _ _ Ha). auto. }
        apply In_nth_error in Hin. destruct Hin as [k Hk].
        assert (Hcomb : nth_error (combine (wptrs args ps) outs) k =
           Some (nth i ps (O, 0), map (cden S rho ps L) (nth i sm' []))).
        { rewrite wptrs_widx, <- Houts. clear - Hk. revert k Hk. generalize (widx sargs).
          induction l; intros k Hk; destruct k; simpl in *; try discriminate; auto. congruence. }
        destruct (HW _ _ Hcomb) as (i' & a' & blk & W1 & W2 & W3 & W4 & W5 & W6 & W7).
        assert (i' = i) by congruence. subst i'. assert (a' = a) by congruence. subst a'.
        eexists. split. eapply nth_error_In; eauto. rewrite W7. auto.
Qed.

Theorem main : forall ret outs, Forall (obl is bs fs K f sargs ret outs) (patterns sargs) ->
  call S f (actuals args ps) m = Ok (ret, upds m (combine (wptrs args ps) outs)).
Proof.
  intros ret outs Hobl.
  pose proof (proj1 (Forall_forall _ _) Hobl _ (choose_in sargs ps)) as HO. unfold obl in HO. fold pat in HO.
  destruct (y_call K (sro sargs) f (sactuals sargs pat) (sregions sargs pat) (length fs)) as [[t n] w] eqn:EY.
  destruct (HO _ _ _ _ _ eq_refl eq_refl eq_refl) as [HS HO2]. specialize (HO2 ac ps L). apply eqs_hold in HO2.
  apply with_binds_run in HO2; auto. destruct HO2 as (ts & Hsat & HT).
  apply tprop_den in HT. destruct HT as ([v sm'] & HT & Hlen & Hret & Houts). simpl in Hlen, Hret, Houts.
  rewrite <- Hret, <- Houts. eapply main_run; eauto.
Qed.

Theorem main_err : forall x, Forall (oblx is bs fs K f sargs x) (patterns sargs) ->
  call S f (actuals args ps) m = Err x.
Proof.
  intros x Hobl.
  pose proof (proj1 (Forall_forall _ _) Hobl _ (choose_in sargs ps)) as HO. unfold oblx in HO. fold pat in HO.
  destruct (y_call K (sro sargs) f (sactuals sargs pat) (sregions sargs pat) (length fs)) as [[t n] w] eqn:EY.
  destruct (HO _ _ _ _ eq_refl eq_refl) as [HS HO2]. specialize (HO2 ac ps L). apply eqs_hold in HO2.
  apply with_binds_run in HO2; auto. destruct HO2 as (ts & Hsat & HT). apply tfail_bad in HT.
  pose proof (sound_err S (mk is bs ac (fs ++ ts)) ps L m eq_refl (sro sargs) lens lens_length inreg_lt reg_disj K) as (_ & _ & _ & HF).
  rewrite <- (actuals_den ts). apply (HF f (sactuals sargs pat) regs (length fs) x m (rel_init ts)).
  split; unfold regs; rewrite EY; auto.
Qed.

Theorem main_safe : Forall (fun p => safe_at K f sargs p (length fs) = true) (patterns sargs) ->
  (exists ret outs, Forall2 (fun a cs => length cs = size a) (filter written args) outs /\ call S f (actuals args ps) m = Ok (ret, upds m (combine (wptrs args ps) outs))) \/
  (exists x, arith x = true /\ call S f (actuals args ps) m = Err x).
Proof.
  intros Hobl.
  pose proof (proj1 (Forall_forall _ _) Hobl _ (choose_in sargs ps)) as HO. unfold safe_at in HO. fold pat in HO.
  destruct (y_call K (sro sargs) f (sactuals sargs pat) (sregions sargs pat) (length fs)) as [[t n] w] eqn:EY.
  apply andb_prop in HO. destruct HO as [HS HT].
  destruct (with_binds_run is bs ac w fs (fun _ => True) HS) as (ts & Hsat & _).
  { clear. revert fs. induction w as [|[n s] w]; simpl; auto. }
  destruct (safe_tree_den _ (mk is bs ac (fs ++ ts)) _ HT) as [(v & sm' & HD & HL) | (x & HX & HD)].
  - left. pose proof HL as HL'. apply list_eqb_lens in HL'.
    assert (Hlen : length sm' = length sargs).
    { apply (f_equal (@length _)) in HL'. rewrite !map_length in HL'. unfold sregions in HL'. rewrite mapi_length in HL'. auto. }
    do 2 eexists. split; [|eapply main_run; eauto].
    rewrite <- (Hargs ac ps L ts). unfold widx.
    assert (G : forall i a, nth_error sargs i = Some a -> swritten a = true -> length (nth i sm' []) = ssz a).
    { intros i a Ha W. rewrite <- (reg_len _ _ Ha (written_noalias _ _ Ha W)).
      assert (E : nth_error (map (@length _) sm') i = nth_error (map (@length _) (sregions sargs pat)) i) by (rewrite HL'; auto).
      rewrite !nth_error_map' in E. fold regs in E. rewrite (reg_at _ _ Ha) in E.
      destruct (nth_error sm' i) as [blk|] eqn:Eb; simpl in E; inversion E.
      rewrite (nth_error_nth _ _ _ Eb). auto. }
    generalize (aden is bs fs ac ps L ts) (size_aden ts) (written_aden ts). intros g G1 G2.
    clear - G G1 G2. set (mem := sm') in *.
    assert (forall l off, (forall i a, nth_error l i = Some a -> swritten a = true -> length (nth (off + i) mem []) = ssz a) ->
      Forall2 (fun (a : arg F) (cs : list (cell F)) => length cs = size a) (filter written (map g l))
       (map (fun i => map (cden S (mk is bs ac (fs ++ ts)) ps L) (nth (off + i) mem []))
          (filter (fun i => swritten (nth i l (SVal XVoid))) (seq 0 (length l))))) as X.
    { induction l as [|a l IH]; intros off HG; simpl; auto.
      rewrite filter_seq_S, G2. destruct (swritten a) eqn:W; simpl.
      - constructor.
        + rewrite map_length, G1. exact (HG O a eq_refl W).
        + rewrite map_map. specialize (IH (Datatypes.S off)).
          match goal with |- Forall2 _ _ (map ?h ?k) => erewrite (map_ext h) end; [apply IH|].
          * intros i b Hi Wb. rewrite <- (HG (Datatypes.S i) b Hi Wb). do 2 f_equal. lia.
          * intros i. simpl. do 2 f_equal. lia.
      - rewrite map_map. specialize (IH (Datatypes.S off)).
        match goal with |- Forall2 _ _ (map ?h ?k) => erewrite (map_ext h) end; [apply IH|].
        + intros i b Hi Wb. rewrite <- (HG (Datatypes.S i) b Hi Wb). do 2 f_equal. lia.
        + intros i. simpl. do 2 f_equal. lia. }
    apply (X sargs O). auto.
  - right. exists x. split; auto.
    pose proof (sound_err S (mk is bs ac (fs ++ ts)) ps L m eq_refl (sro sargs) lens lens_length inreg_lt reg_disj K) as (_ & _ & _ & HF).
    rewrite <- (actuals_den ts). apply (HF f (sactuals sargs pat) regs (length fs) x m (rel_init ts)).
    split; unfold regs; rewrite EY; auto.
Qed.

End Main.

Theorem computes_intro : forall K f sargs args ret outs is bs fs,
  (forall ac pi L ts, map (aden is bs fs ac pi L ts) sargs = args) ->
  Forall (obl is bs fs K f sargs ret outs) (patterns sargs) ->
  computes S f args ret outs.
Proof. intros. intros m ps Hlay. eapply main; eauto. Qed.

Theorem aborts_intro : forall K f sargs args x is bs fs,
  (forall ac pi L ts, map (aden is bs fs ac pi L ts) sargs = args) ->
  Forall (oblx is bs fs K f sargs x) (patterns sargs) ->
  aborts S f args x.
Proof. intros. intros m ps Hlay. eapply main_err; eauto. Qed.

Theorem safe_intro : forall K f sargs args is bs fs,
  (forall ac pi L ts, map (aden is bs fs ac pi L ts) sargs = args) ->
  forallb (fun p => safe_at K f sargs p (length fs)) (patterns sargs) = true ->
  memory_safe S f args.
Proof.
  intros K f sargs args is bs fs HA HB m ps Hlay.
  apply (main_safe K f sargs args is bs fs HA m ps Hlay). apply Forall_forall. apply forallb_forall. auto.
Qed.

End Call.
