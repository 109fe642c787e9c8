(** * The struct API (C56) *)

From Coq Require Import String List ZArith Bool Lia.
From Verif Require Import MiniC Contract SymSound SymCall.
From Verif.Spec Require Import StructPass.
From Verif.Proofs Require Import Loop Layout Forward.
Import ListNotations.
Local Open Scope list_scope.

Section Mem.
Context {F : Type}.
Implicit Types m bs : mem F.

Lemma Forall2_len : forall A B (P : A -> B -> Prop) l r, Forall2 P l r -> length l = length r.
Proof. induction 1; simpl; auto. Qed.
Lemma lset_app_l : forall A (l r : list A) n x, (n < length l)%nat -> lset (l ++ r) n x = lset l n x ++ r.
Proof. induction l; simpl; intros; [lia|]. destruct n; simpl; auto. f_equal. apply IHl. lia. Qed.
Lemma lset_app_r : forall A (l r : list A) n x, lset (l ++ r) (length l + n) x = l ++ lset r n x.
Proof. induction l; simpl; intros; auto. f_equal. auto. Qed.
Lemma mread_l : forall m bs b o, (b < length m)%nat -> mread (m ++ bs) b o = mread m b o.
Proof. intros. unfold mread. rewrite nth_error_app1; auto. Qed.
Lemma mread_r : forall m bs b o, mread (m ++ bs) (length m + b) o = mread bs b o.
Proof. intros. unfold mread. rewrite nth_error_app2 by lia. replace (length m + b - length m)%nat with b by lia. auto. Qed.
Lemma mreads_l : forall n m bs b o, (b < length m)%nat -> mreads (m ++ bs) b o n = mreads m b o n.
Proof. induction n; simpl; intros; auto. rewrite mread_l, IHn; auto. Qed.
Lemma mwrite_l : forall m bs b o c, (b < length m)%nat ->
  mwrite (m ++ bs) b o c = match mwrite m b o c with Some m' => Some (m' ++ bs) | None => None end.
Proof.
  intros. unfold mwrite. rewrite mread_l by auto. destruct (mread m b o); auto. rewrite nth_error_app1 by auto.
  destruct (nth_error m b); auto. rewrite lset_app_l; auto.
Qed.
Lemma mwrite_r : forall m bs b o c,
  mwrite (m ++ bs) (length m + b) o c = match mwrite bs b o c with Some m' => Some (m ++ m') | None => None end.
Proof.
  intros. unfold mwrite. rewrite mread_r. destruct (mread bs b o); auto. rewrite nth_error_app2 by lia. replace (length m + b - length m)%nat with b by lia.
  destruct (nth_error bs b); auto. rewrite lset_app_r; auto.
Qed.
Lemma mwrite_len : forall m b o c m', mwrite m b o c = Some m' -> length m' = length m.
Proof. intros m b o c m' H. unfold mwrite in H. destruct (mread m b o); [|discriminate]. destruct (nth_error m b); [|discriminate]. injection H as <-. apply lset_length. Qed.
Lemma mwrites_l : forall cs m bs b o, (b < length m)%nat ->
  mwrites (m ++ bs) b o cs = match mwrites m b o cs with Some m' => Some (m' ++ bs) | None => None end.
Proof.
  induction cs; simpl; intros; auto. rewrite mwrite_l by auto. destruct (mwrite m b o a) eqn:E; auto. apply IHcs. rewrite (mwrite_len _ _ _ _ _ E). auto.
Qed.
Lemma mwrites_r : forall cs m bs b o,
  mwrites (m ++ bs) (length m + b) o cs = match mwrites bs b o cs with Some m' => Some (m ++ m') | None => None end.
Proof. induction cs; simpl; intros; auto. rewrite mwrite_r by auto. destruct (mwrite bs b o a) eqn:E; auto. Qed.
Lemma mwrites_len : forall cs m b o m', mwrites m b o cs = Some m' -> length m' = length m.
Proof. induction cs; simpl; intros. injection H as <-; auto. destruct (mwrite m b o a) eqn:E; [|discriminate]. rewrite (IHcs _ _ _ _ H). eapply mwrite_len; eauto. Qed.
Lemma upd_l : forall m bs p cs, (fst p < length m)%nat -> upd (m ++ bs) p cs = upd m p cs ++ bs.
Proof. intros. unfold upd. rewrite mwrites_l by auto. destruct (mwrites m (fst p) (snd p) cs); auto. Qed.
Lemma upd_r : forall m bs p cs, (length m <= fst p)%nat -> exists bs', upd (m ++ bs) p cs = m ++ bs'.
Proof.
  intros. unfold upd. replace (fst p) with (length m + (fst p - length m))%nat by lia. rewrite mwrites_r.
  destruct (mwrites bs (fst p - length m) (snd p) cs); eauto.
Qed.
Lemma upd_len : forall m p cs, length (upd m p cs) = length m.
Proof. intros. unfold upd. destruct (mwrites m (fst p) (snd p) cs) eqn:E; auto. eapply mwrites_len; eauto. Qed.
Definition old (n : nat) (pc : ptr * list (cell F)) : bool := Nat.ltb (fst (fst pc)) n.
Lemma upds_cut : forall l m bs, firstn (length m) (upds (m ++ bs) l) = upds m (filter (old (length m)) l).
Proof.
  induction l as [|[p cs] l IH]; intros m bs.
  - simpl. rewrite firstn_app, firstn_all, Nat.sub_diag, firstn_O, app_nil_r. auto.
  - change (upds (m ++ bs) ((p, cs) :: l)) with (upds (upd (m ++ bs) p cs) l). simpl filter. unfold old at 1. simpl.
    destruct (Nat.ltb_spec (fst p) (length m)).
    + rewrite upd_l by auto. change (upds m ((p, cs) :: filter (old (length m)) l)) with (upds (upd m p cs) (filter (old (length m)) l)).
      rewrite <- (upd_len m p cs) at 1 2. apply IH.
    + destruct (upd_r m bs p cs H) as [bs' ->]. apply IH.
Qed.

(** ** Operands *)
Fixpoint gptrs (n : nat) (ks : list (option nat)) (ps : list ptr) : list ptr :=
  match ks, ps with
  | None :: ks', p :: ps' => p :: gptrs n ks' ps'
  | Some _ :: ks', _ :: ps' => (n, 0%Z) :: gptrs (S n) ks' ps'
  | _, _ => []
  end.
Fixpoint blks (afs : list (arg F)) (ks : list (option nat)) : mem F :=
  match afs, ks with
  | Val (VA cs) :: afs', Some _ :: ks' => cs :: blks afs' ks'
  | _ :: afs', _ :: ks' => blks afs' ks'
  | _, _ => []
  end.
(** in range *)
Definition ranged (m : mem F) (args : list (arg F)) (ps : list ptr) : Prop :=
  Forall2 (fun a p => pointer a = true -> (fst p < length m)%nat) args ps.

Lemma valid_ranged : forall m (a : arg F) p, placed m a p -> pointer a = true -> size a <> O -> (fst p < length m)%nat.
Proof.
  intros m a p P H N. assert (V : mreads m (fst p) (snd p) (size a) <> None).
  { destruct a; simpl in *; try discriminate; unfold holds in P; try (rewrite P; discriminate). exact P. }
  destruct (size a); [congruence|]. simpl in V. unfold mread in V. destruct (nth_error m (fst p)) eqn:E.
  - apply nth_error_Some. congruence.
  - destruct (snd p <? 0)%Z; congruence.
Qed.
Lemma placed_l : forall m bs (a : arg F) p, (pointer a = true -> fst p < length m)%nat -> placed m a p -> placed (m ++ bs) a p.
Proof.
  intros m bs a p R P. destruct a; simpl in *; auto; unfold holds, valid in *; rewrite mreads_l; auto.
Qed.
Lemma holds_block : forall m bs cs, holds (m ++ cs :: bs) (length m, 0%Z) cs.
Proof.
  intros. unfold holds. cbn [fst snd]. change 0%Z with (Z.of_nat 0). rewrite (mreads_block (length cs) _ _ cs 0); auto.
  - simpl. rewrite firstn_all2; auto.
  - rewrite nth_error_app2, Nat.sub_diag by lia. reflexivity.
Qed.

Lemma operands_len : forall ks (afs ags : list (arg F)), operands ks afs ags -> length afs = length ks /\ length ags = length ks.
Proof. induction 1; simpl; intuition. Qed.
Lemma gptrs_len : forall ks ps n, length ps = length ks -> length (gptrs n ks ps) = length ks.
Proof. induction ks as [|[k|] ks IH]; destruct ps; simpl; intros; try discriminate; auto; f_equal; apply IH; auto. Qed.

Lemma ops_ranged : forall ks (afs ags : list (arg F)), operands ks afs ags -> forall m ps, Forall2 (placed m) afs ps -> ranged m afs ps.
Proof.
  induction 1; intros m ps P; inversion P; subst; constructor; try apply IHoperands; auto.
  - intros Q. eapply valid_ranged; eauto.
  - discriminate.
Qed.
Lemma ops_placed : forall ks (afs ags : list (arg F)), operands ks afs ags -> forall m ps pre, Forall2 (placed m) afs ps ->
  Forall2 (placed ((m ++ pre) ++ blks afs ks)) ags (gptrs (length (m ++ pre)) ks ps).
Proof.
  induction 1; intros m ps pre P; inversion P; subst; cbn [gptrs blks]; constructor.
  - rewrite <- app_assoc. replace (match a with Val _ => _ | _ => _ end) with (blks afs ks).
    + apply placed_l; auto. intros Q. eapply valid_ranged; eauto.
    + destruct a; auto. destruct v; auto.
  - replace (match a with Val _ => _ | _ => _ end) with (blks afs ks).
    + apply IHoperands. auto.
    + destruct a; auto. destruct v; auto.
  - destruct H as [ -> | [ -> | -> ] ]; apply holds_block.
  - replace ((m ++ pre) ++ cs :: blks afs ks) with ((m ++ (pre ++ [cs])) ++ blks afs ks) by (rewrite <- !app_assoc; reflexivity).
    replace (S (length (m ++ pre))) with (length (m ++ (pre ++ [cs]))) by (rewrite app_assoc, (app_length (m ++ pre)); simpl; lia).
    apply IHoperands. auto.
Qed.
Lemma blks_none : forall a (afs : list (arg F)) ks, blks (a :: afs) (None :: ks) = blks afs ks.
Proof. intros. destruct a; auto. destruct v; auto. Qed.
(** each operand of the array function is an old one or a copy *)
Lemma ops_at : forall ks (afs ags : list (arg F)), operands ks afs ags -> forall ps n i b q, 
  nth_error ags i = Some b -> nth_error (gptrs n ks ps) i = Some q ->
  (nth_error afs i = Some b /\ nth_error ps i = Some q) \/ (n <= fst q < n + length (blks afs ks))%nat.
Proof.
  induction 1; intros ps n i b0 q A G; [destruct i; discriminate| |]; (destruct ps as [|p ps]; [destruct i; discriminate|]); cbn [gptrs] in G; destruct i; cbn [nth_error] in *.
  - left; split; congruence.
  - rewrite blks_none. eapply IHoperands; eauto.
  - injection G as <-. right. simpl. lia.
  - destruct (IHoperands _ _ _ _ _ A G) as [?|?]; auto. right. simpl. lia.
Qed.
Lemma gptrs_ge : forall ks ps n i k q, nth_error ks i = Some (Some k) -> nth_error (gptrs n ks ps) i = Some q -> (n <= fst q)%nat.
Proof.
  induction ks as [|[k0|] ks IH]; intros ps n i k q A G; [destruct i; discriminate| |]; (destruct ps as [|p ps]; [destruct i; discriminate|]); cbn [gptrs] in G; destruct i; cbn [nth_error] in *.
  - injection G as <-. auto.
  - specialize (IH _ _ _ _ _ A G). lia.
  - discriminate.
  - eapply IH; eauto.
Qed.
Lemma gptrs_fresh : forall ks ps n i j k l p q, i <> j -> nth_error ks i = Some (Some k) -> nth_error ks j = Some (Some l) ->
  nth_error (gptrs n ks ps) i = Some p -> nth_error (gptrs n ks ps) j = Some q -> fst p <> fst q.
Proof.
  induction ks as [|[k0|] ks IH]; intros ps n i j k l p q N A B G H; [destruct i; discriminate| |]; (destruct ps as [|p0 ps]; [destruct i; discriminate|]); cbn [gptrs] in G, H; destruct i, j; cbn [nth_error] in *; try congruence.
  - injection G as <-. pose proof (gptrs_ge _ _ _ _ _ _ B H). simpl. lia.
  - injection H as <-. pose proof (gptrs_ge _ _ _ _ _ _ A G). simpl. lia.
  - eapply (IH ps (S n) i j); eauto.
  - eapply (IH ps n i j); eauto.
Qed.
Lemma ops_none : forall ks (afs ags : list (arg F)), operands ks afs ags -> forall ps n i b q, nth_error ks i = Some None ->
  nth_error ags i = Some b -> nth_error (gptrs n ks ps) i = Some q -> nth_error afs i = Some b /\ nth_error ps i = Some q.
Proof.
  induction 1; intros ps n i b0 q K A G; [destruct i; discriminate| |]; (destruct ps as [|p ps]; [destruct i; discriminate|]); cbn [gptrs] in G; destruct i; cbn [nth_error] in *; try discriminate.
  - split; congruence.
  - eapply IHoperands; eauto.
  - eapply IHoperands; eauto.
Qed.
Lemma ranged_at : forall m (args : list (arg F)) ps, ranged m args ps -> forall i a p, nth_error args i = Some a -> nth_error ps i = Some p ->
  pointer a = true -> (fst p < length m)%nat.
Proof. induction 1; intros [|i] b q A B; cbn [nth_error] in *; try discriminate; [injection A as <-; injection B as <-; auto|]. eapply IHForall2; eauto. Qed.
Lemma wr_pointer : forall a : arg F, written a = true -> pointer a = true.
Proof. destruct a; auto. Qed.

Lemma ops_layout : forall ks (afs ags : list (arg F)) m ps, operands ks afs ags -> layout m afs ps ->
  layout (m ++ blks afs ks) ags (gptrs (length m) ks ps).
Proof.
  intros ks afs ags m ps O L. pose proof (lay_placed _ _ _ L) as P. split.
  - pose proof (ops_placed _ _ _ O m ps [] P) as Q. rewrite !app_nil_r in Q. exact Q.
  - intros i j a b p q N A B C D W Pb. pose proof (ops_ranged _ _ _ O _ _ P) as R.
    assert (X : forall i a p, nth_error ags i = Some a -> nth_error (gptrs (length m) ks ps) i = Some p -> pointer a = true ->
      (nth_error ks i = Some None /\ nth_error afs i = Some a /\ nth_error ps i = Some p /\ (fst p < length m)%nat) \/
      ((exists k, nth_error ks i = Some (Some k)) /\ (length m <= fst p)%nat)).
    { intros i0 a0 p0 A0 G0 P0. destruct (nth_error ks i0) as [[k|]|] eqn:K.
      - right. split; eauto. eapply gptrs_ge; eauto.
      - left. destruct (ops_none _ _ _ O _ _ _ _ _ K A0 G0). repeat split; auto. eapply ranged_at; eauto.
      - exfalso. apply nth_error_None in K. assert (i0 < length ags)%nat by (apply nth_error_Some; congruence).
        destruct (operands_len _ _ _ O). lia. }
    destruct (X _ _ _ A C (wr_pointer _ W)) as [(K1 & A1 & P1 & R1)|((k1 & K1) & R1)];
      destruct (X _ _ _ B D Pb) as [(K2 & A2 & P2 & R2)|((k2 & K2) & R2)].
    + eapply (lay_compat _ _ _ L i j); eauto.
    + left. left. lia.
    + left. left. lia.
    + left. left. eapply (gptrs_fresh ks ps (length m) i j); eauto.
Qed.
Lemma blks_len_ranged : forall ks (afs ags : list (arg F)) m ps, operands ks afs ags -> layout m afs ps ->
  forall i a p, nth_error ags i = Some a -> nth_error (gptrs (length m) ks ps) i = Some p -> pointer a = true -> (fst p < length (m ++ blks afs ks))%nat.
Proof.
  intros ks afs ags m ps O L i a p A G P. rewrite app_length. destruct (ops_at _ _ _ O _ _ _ _ _ A G) as [[A1 P1]|]; [|lia].
  pose proof (ranged_at _ _ _ (ops_ranged _ _ _ O _ _ (lay_placed _ _ _ L)) _ _ _ A1 P1 P). lia.
Qed.

(** a fresh destination after or before the other operands *)
Lemma valid_block : forall m n, valid (m ++ [repeat (@CU F) n]) (length m, 0%Z) n.
Proof. intros. unfold valid. pose proof (holds_block m [] (repeat CU n)) as H. unfold holds in H. rewrite repeat_length in H. rewrite H. discriminate. Qed.
Lemma Forall2_ranged : forall M bs (args : list (arg F)) gs, Forall2 (placed M) args gs ->
  (forall i a p, nth_error args i = Some a -> nth_error gs i = Some p -> pointer a = true -> (fst p < length M)%nat) ->
  Forall2 (placed (M ++ bs)) args gs.
Proof.
  induction 1; intros R; constructor.
  - apply placed_l; auto. apply (R O); auto.
  - apply IHForall2. intros i. apply (R (S i)).
Qed.
Lemma layout_snoc : forall M (args : list (arg F)) gs n, layout M args gs ->
  (forall i a p, nth_error args i = Some a -> nth_error gs i = Some p -> pointer a = true -> (fst p < length M)%nat) ->
  layout (M ++ [repeat CU n]) (args ++ [Out n]) (gs ++ [(length M, 0%Z)]).
Proof.
  intros M args gs n L R. assert (Ln : length args = length gs) by (eapply Forall2_len; apply (lay_placed _ _ _ L)). split.
  - apply Forall2_app. apply Forall2_ranged; auto. apply (lay_placed _ _ _ L). constructor; [|constructor]. apply valid_block.
  - assert (X : forall i a p, nth_error (args ++ [Out n]) i = Some a -> nth_error (gs ++ [(length M, 0%Z)]) i = Some p ->
      (nth_error args i = Some a /\ nth_error gs i = Some p) \/ (i = length args /\ p = (length M, 0%Z))).
    { intros i a p A G. destruct (Nat.lt_ge_cases i (length args)).
      - rewrite nth_error_app1 in A, G by lia. auto.
      - right. rewrite nth_error_app2 in A, G by lia. rewrite <- Ln in G. destruct (i - length args)%nat eqn:E; simpl in *.
        + split; [lia|congruence].
        + destruct n0; discriminate. }
    intros i j a b p q N A B C D W P.
    destruct (X _ _ _ A C) as [[A1 G1]|[I1 ->]]; destruct (X _ _ _ B D) as [[A2 G2]|[I2 ->]].
    + eapply (lay_compat _ _ _ L i j); eauto.
    + left; left. pose proof (R _ _ _ A1 G1 (wr_pointer _ W)). simpl. lia.
    + left; left. pose proof (R _ _ _ A2 G2 P). simpl. lia.
    + lia.
Qed.
Lemma layout_cons : forall M (args : list (arg F)) gs n, layout M args gs ->
  (forall i a p, nth_error args i = Some a -> nth_error gs i = Some p -> pointer a = true -> (fst p < length M)%nat) ->
  layout (M ++ [repeat CU n]) (Out n :: args) ((length M, 0%Z) :: gs).
Proof.
  intros M args gs n L R. split.
  - constructor. apply valid_block. apply Forall2_ranged; auto. apply (lay_placed _ _ _ L).
  - intros [|i] [|j] a b p q N A B C D W P; cbn [nth_error] in *.
    + lia.
    + injection C as <-. left; left. pose proof (R _ _ _ B D P). simpl. lia.
    + injection D as <-. left; left. pose proof (R _ _ _ A C (wr_pointer _ W)). simpl. lia.
    + eapply (lay_compat _ _ _ L i j); eauto.
Qed.

Lemma kept_ok : forall ks (afs ags : list (arg F)), operands ks afs ags -> forall n N ps outs, (n <= N)%nat ->
  length outs = length (filter written ags) -> Forall2 (fun a p => pointer a = true -> (fst p < n)%nat) afs ps ->
  filter (old n) (combine (wptrs ags (gptrs N ks ps)) outs) = combine (wptrs afs ps) (kept afs ags outs).
Proof.
  induction 1; intros n N ps outs Hn Lo R; inversion R; subst; cbn [gptrs wptrs] in *.
  - reflexivity.
  - destruct (written a) eqn:W; cbn [filter] in Lo; rewrite W in Lo.
    + destruct outs as [|o outs]; [discriminate|]. cbn [combine filter kept]. rewrite W. unfold old at 1. cbn [fst].
      destruct (Nat.ltb_spec (fst y) n) as [Q|Q]; [|match goal with h : pointer a = true -> (fst y < n)%nat |- _ => specialize (h (wr_pointer _ W)); lia end].
      cbn [combine]. f_equal. apply IHoperands; auto.
    + rewrite IHoperands by auto. cbn [kept]. rewrite W. destruct outs; [|reflexivity].
      cbn [combine]. destruct (wptrs afs l'), afs, ags; reflexivity.
  - destruct H as [ -> | [ -> | -> ] ]; cbn [written filter] in *.
    + rewrite IHoperands by (auto; lia). cbn [kept written]. destruct outs; [|reflexivity].
      destruct (wptrs afs l'), afs, ags; reflexivity.
    + rewrite IHoperands by (auto; lia). cbn [kept written]. destruct outs; [|reflexivity].
      destruct (wptrs afs l'), afs, ags; reflexivity.
    + destruct outs as [|o outs]; [discriminate|]. cbn [combine filter kept written]. unfold old at 1. cbn [fst].
      destruct (Nat.ltb_spec N n) as [Q|Q]; [lia|]. apply IHoperands; auto; lia.
Qed.
End Mem.

(** ** The shape of a struct function *)
Fixpoint pos (y : string) (n : nat) (ps : list (string * option nat)) (k : nat) : option nat :=
  match ps with
  | [] => None
  | (x, Some n') :: ps' => if String.eqb x y then if Nat.eqb n n' then Some k else None else pos y n ps' (S k)
  | _ :: ps' => pos y n ps' (S k)
  end.
Definition shape (f : fundef) : option (fundef * result) :=
  match f with
  | Fun ps ls b =>
    let l := map fst ps in
    let is es l' := match names es with Some l2 => slist_eqb l2 l' | None => false end in
    if distinct l then
    match ls, b with
    | [], SRet (ECall g es) => if is es l then Some (g, Returned) else None
    | [], SExp (ECall g es) => if is es l then Some (g, Nothing) else None
    | [(x, Some n)], SSeq (SExp (ECall g es)) (SRet (ELdA n' (EV y))) =>
      if Nat.eqb n n' && String.eqb x y && fresh x l then
        if is es (l ++ [x]) then Some (g, Dest n) else if is es (x :: l) then Some (g, DestFirst n) else None
      else None
    | [], SSeq (SExp (ECall g es)) (SRet (ELdA n (EV y))) =>
      match pos y n ps O with Some k => if is es l then Some (g, InPlace k) else None | None => None end
    | _, _ => None
    end
    else None
  end.

Section Exec.
Variable S : Scalar.
Notation F := (T S).

Lemma bind_ops : forall params afs ags, operands (map snd params) afs ags -> forall ps (m : mem F), length ps = length params ->
  bind_params S params (actuals afs ps) m =
    Ok (combine (map fst params) (actuals ags (gptrs (length m) (map snd params) ps)), m ++ blks afs (map snd params)).
Proof.
  induction params as [|[x k] params IH]; intros afs ags O ps m L; inversion O; subst; destruct ps as [|p ps]; try discriminate; cbn [map fst snd] in *.
  - simpl. rewrite app_nil_r. reflexivity.
  - rewrite blks_none. cbn [actuals bind_params gptrs combine]. rewrite (IH afs0 ags0) by auto. reflexivity.
  - cbn [actuals actual bind_params gptrs combine blks]. rewrite Nat.eqb_refl. rewrite (IH afs0 ags0) by auto. cbn [rbind].
    rewrite app_length. cbn [length]. rewrite Nat.add_1_r, <- app_assoc. cbn [app].
    match goal with h : _ = In _ \/ _ |- _ => destruct h as [ -> | [ -> | -> ] ]; reflexivity end.
Qed.
Lemma evals_vars : forall es l r (vs : list (value F)) m, names es = Some l -> Forall2 (fun x v => var S r x = Ok v) l vs -> evals S es r m = Ok (vs, m).
Proof.
  induction es as [|e es IH]; intros l r vs m E H.
  - injection E as <-. inversion H. reflexivity.
  - simpl in E. destruct e; try discriminate. destruct (names es) as [l'|]; [|discriminate]. injection E as <-. inversion H; subst.
    change (evals S (Econs (EV x) es) r m) with (do (w, m1) <- (do w <- var S r x; Ok (w, m)); do (ws, m2) <- evals S es r m1; Ok (w :: ws, m2)).
    rewrite H2. cbn [rbind]. rewrite (IH _ _ _ m eq_refl H4). reflexivity.
Qed.
Lemma fresh_not : forall x l, fresh x l = true -> ~ List.In x l.
Proof. induction l; simpl; intros H; auto. apply andb_prop in H. destruct H as [H1 H2]. intros [ -> | I ]; [rewrite String.eqb_refl in H1; discriminate|]. apply IHl; auto. Qed.
Lemma vars_own : forall l (vs : list (value F)) r, distinct l = true -> length vs = length l -> Forall (fun v => v <> VU) vs ->
  Forall2 (fun x v => var S (combine l vs ++ r) x = Ok v) l vs.
Proof.
  induction l as [|x l IH]; intros vs r D L N; destruct vs as [|v vs]; try discriminate; constructor; inversion N; subst; simpl in D; apply andb_prop in D; destruct D as [D1 D2].
  - unfold var. simpl. rewrite String.eqb_refl. destruct v; congruence.
  - assert (G := IH vs r D2 ltac:(simpl in L; lia) H2). assert (X := fresh_not _ _ D1).
    cbn [combine app]. revert G X. generalize (combine l vs ++ r). clear. intros e G. induction G; intros X; constructor.
    + rewrite <- H. unfold var. simpl. destruct (String.eqb_spec x0 x); [subst; simpl in X; tauto|reflexivity].
    + apply IHG. simpl in X. tauto.
Qed.
Lemma ops_defined : forall ks afs ags, operands ks afs ags -> forall ps : list ptr, Forall (fun v : value F => v <> VU) (actuals ags ps).
Proof.
  induction 1; intros ps; destruct ps; constructor; auto.
  - destruct a; simpl; try discriminate. intros ->. auto.
  - destruct H as [ -> | [ -> | -> ] ]; discriminate.
Qed.
Lemma actuals_len : forall (args : list (arg F)) ps, length ps = length args -> length (actuals args ps) = length args.
Proof. induction args; destruct ps; simpl; intros; try discriminate; auto. Qed.
Lemma actuals_app : forall (a b : list (arg F)) p q, length p = length a -> actuals (a ++ b) (p ++ q) = actuals a p ++ actuals b q.
Proof. induction a; destruct p; simpl; intros; try discriminate; auto. f_equal; auto. Qed.
Lemma wptrs_app : forall (a b : list (arg F)) p q, length p = length a -> wptrs (a ++ b) (p ++ q) = wptrs a p ++ wptrs b q.
Proof. induction a; destruct p; simpl; intros; try discriminate; auto. rewrite IHa by lia. destruct (written a); auto. Qed.
Lemma wptrs_len : forall (a : list (arg F)) p, length p = length a -> length (wptrs a p) = length (filter written a).
Proof. induction a; destruct p; simpl; intros; try discriminate; auto. destruct (written a); simpl; auto. Qed.
Lemma combine_app : forall A B (a b : list A) (c d : list B), length a = length c -> combine (a ++ b) (c ++ d) = combine a c ++ combine b d.
Proof. induction a; destruct c; simpl; intros; try discriminate; auto. f_equal; auto. Qed.
Lemma eval_call : forall g es r (vs : list (value F)) m, evals S es r m = Ok (vs, m) -> eval S (ECall g es) r m = call S g vs m.
Proof. intros. change (eval S (ECall g es) r m) with (do (ws, m1) <- evals S es r m; call S g ws m1). rewrite H. reflexivity. Qed.
Lemma eval_lda : forall n x r m b o cs, var S r x = Ok (VP b o) -> mreads m b o n = Some cs -> eval S (ELdA n (EV x)) r m = Ok (@VA F cs, m).
Proof.
  intros. change (eval S (ELdA n (EV x)) r m) with (do (vp, m1) <- (do v <- var S r x; Ok (v, m)); do v <- loadA S m1 n vp; Ok (v, m1)).
  rewrite H. cbn [rbind]. unfold loadA. cbn. rewrite H0. reflexivity.
Qed.
Lemma Forall2_at : forall A B (P : A -> B -> Prop) l r, Forall2 P l r -> forall k a b, nth_error l k = Some a -> nth_error r k = Some b -> P a b.
Proof. induction 1; intros [|k] a b E1 E2; simpl in *; try discriminate; [congruence|eauto]. Qed.
Lemma wptrs_at : forall (args : list (arg F)) ps k a p, nth_error args k = Some a -> nth_error ps k = Some p -> written a = true ->
  nth_error (wptrs args ps) (length (filter written (firstn k args))) = Some p.
Proof.
  induction args; intros ps k b p A P W; [destruct k; discriminate|]. destruct ps as [|q ps]; [destruct k; discriminate|]. destruct k; cbn [nth_error firstn] in *.
  - injection A as ->. injection P as ->. simpl. rewrite W. reflexivity.
  - cbn [filter wptrs]. destruct (written a); simpl; eapply IHargs; eauto.
Qed.
Lemma ops_count : forall ks afs ags, operands ks afs ags -> forall (m : mem F) ps outs, layout m afs ps -> sized ags outs ->
  forall bs l, filter (old (length m)) l = [] ->
  firstn (length m) (upds (m ++ bs) (combine (wptrs ags (gptrs (length m) ks ps)) outs ++ l)) = upds m (combine (wptrs afs ps) (kept afs ags outs)).
Proof.
  intros ks afs ags O m ps outs L Z bs l E. rewrite upds_cut, filter_app, E, app_nil_r. f_equal. eapply kept_ok; eauto.
  - unfold sized in Z. apply (f_equal (@length _)) in Z. rewrite !map_length in Z. auto.
  - exact (ops_ranged _ _ _ O _ _ (lay_placed _ _ _ L)).
Qed.
End Exec.

(** ** Soundness of the shape check *)
Lemma pos_ok : forall y n ps k j, pos y n ps k = Some j -> (k <= j)%nat /\ nth_error ps (j - k) = Some (y, Some n).
Proof.
  induction ps as [|[x [n'|]] ps IH]; intros k j E; simpl in E; try discriminate.
  - destruct (String.eqb_spec x y).
    + destruct (Nat.eqb_spec n n'); [|discriminate]. injection E as <-. subst. rewrite Nat.sub_diag. auto.
    + apply IH in E. destruct E. split; [lia|]. replace (j - k)%nat with (S (j - S k)) by lia. auto.
  - apply IH in E. destruct E. split; [lia|]. replace (j - k)%nat with (S (j - S k)) by lia. auto.
Qed.

Lemma shape_ok : forall f g w, shape f = Some (g, w) -> transfers f g w.
Proof.
  intros [ps0 ls b] g w E S afs ags outs ret O Z. cbn [kinds] in O.
  unfold shape in E. destruct (distinct (map fst ps0)) eqn:D; [|discriminate].
  assert (Lk := operands_len _ _ _ O). rewrite map_length in Lk. destruct Lk as [La Lg].
  (* what every case needs *)
  assert (B : forall m ps, layout m afs ps -> 
    let gs := gptrs (length m) (map snd ps0) ps in
    length gs = length ags /\ length ps = length ps0 /\
    layout (m ++ blks afs (map snd ps0)) ags gs /\
    bind_params S ps0 (actuals afs ps) m = Ok (combine (map fst ps0) (actuals ags gs), m ++ blks afs (map snd ps0)) /\
    forall r, Forall2 (fun x v => var S (combine (map fst ps0) (actuals ags gs) ++ r) x = Ok v) (map fst ps0) (actuals ags gs)).
  { intros m ps L gs. assert (Lp : length ps = length ps0) by (rewrite <- (Forall2_len _ _ _ _ _ (lay_placed _ _ _ L)); auto).
    assert (Lq : length gs = length ags) by (unfold gs; rewrite gptrs_len; rewrite map_length; lia).
    repeat split; auto.
    - apply (ops_layout _ _ _ _ _ O L).
    - apply (ops_layout _ _ _ _ _ O L).
    - apply bind_ops; auto.
    - intros r. apply vars_own; auto.
      + rewrite actuals_len, map_length; lia.
      + eapply ops_defined; eauto. }
  destruct ls as [|[x [n|]] [|? ?]]; try discriminate.
  - destruct b; try discriminate.
    + (* in place *)
      destruct b1; try discriminate. destruct e; try discriminate. destruct b2; try discriminate. destruct e; try discriminate. destruct e; try discriminate.
      destruct (pos x n ps0 0) as [k|] eqn:Ek; [|discriminate]. destruct (names es) as [l2|] eqn:En; [|discriminate].
      destruct (slist_eqb l2 (map fst ps0)) eqn:El; [|discriminate]. apply slist_eqb_eq in El. subst l2. injection E as -> <-.
      intros cs out Ak Ao C m ps L. destruct (B m ps L) as (Lq & Lp & Y & Bp & V). set (gs := gptrs (length m) (map snd ps0) ps) in *.
      apply pos_ok in Ek. destruct Ek as [_ Ek]. rewrite Nat.sub_0_r in Ek.
      rewrite call_fun, Bp. cbn [rbind bind_locals]. rewrite exec_seq, exec_exp.
      rewrite (eval_call _ _ _ _ _ _ (evals_vars _ _ _ _ _ _ En (V []))).
      destruct (computes_cells_ok _ _ _ _ _ C Z _ _ Y) as (m' & Cm & H & _). rewrite (C _ _ Y) in Cm. injection Cm as <-. rewrite (C _ _ Y).
      cbn [rbind]. rewrite exec_ret.
      destruct (nth_error gs k) as [[b o]|] eqn:Eg.
      2:{ apply nth_error_None in Eg. assert (k < length ags)%nat by (apply nth_error_Some; congruence). lia. }
      assert (Hk : nth_error (wptrs ags gs) (length (filter written (firstn k ags))) = Some (b, o)) by (eapply wptrs_at; eauto).
      pose proof (Forall2_at _ _ _ _ _ H _ _ _ Hk Ao) as Hh. unfold holds in Hh. cbn [fst snd] in Hh.
      assert (Ln : length out = n).
      { unfold sized in Z. pose proof (f_equal (fun l => nth_error l (length (filter written (firstn k ags)))) Z) as Zk. cbn beta in Zk.
        rewrite !nth_error_map, Ao in Zk. 
        assert (Fk : nth_error (filter written ags) (length (filter written (firstn k ags))) = Some (InOut cs)).
        { revert Ak. clear. revert k. induction ags; intros [|k] A; try discriminate; simpl in *.
          - injection A as ->. reflexivity.
          - destruct (written a); simpl; auto. }
        rewrite Fk in Zk. simpl in Zk. injection Zk as ->.
        assert (Kk : nth_error (map snd ps0) k = Some (Some n)) by (rewrite nth_error_map, Ek; reflexivity).
        revert Kk Ak. generalize (map snd ps0) O. clear. intros ks O. revert k. induction O; intros [|k] A B; try discriminate; simpl in *; eauto.
        destruct H as [H|[H|H]]; congruence. }
      rewrite (eval_lda S n x _ _ b o out).
      * cbn [rbind]. f_equal. f_equal. rewrite <- (app_nil_r (combine _ outs)). apply (ops_count S _ _ _ O); auto.
      * assert (Vx := Forall2_at _ _ _ _ _ (V []) k x (VP b o)). apply Vx.
        -- rewrite nth_error_map, Ek. reflexivity.
        -- revert Ak Eg. clear. generalize gs. clear gs. revert k. induction ags as [|a0 ags IH]; intros [|k] [|q gs] A B; try discriminate; cbn [nth_error actuals] in *; [|eapply IH; eauto]. injection A as ->. injection B as ->. reflexivity.
      * rewrite <- Ln. exact Hh.
    + (* nothing *)
      destruct e; try discriminate. destruct (names es) as [l2|] eqn:En; [|discriminate].
      destruct (slist_eqb l2 (map fst ps0)) eqn:El; [|discriminate]. apply slist_eqb_eq in El. subst l2. injection E as -> <-.
      intros C m ps L. destruct (B m ps L) as (Lq & Lp & Y & Bp & V).
      rewrite call_fun, Bp. cbn [rbind bind_locals]. rewrite exec_exp.
      rewrite (eval_call _ _ _ _ _ _ (evals_vars _ _ _ _ _ _ En (V []))). rewrite (C _ _ Y). cbn [rbind].
      f_equal. f_equal. rewrite <- (app_nil_r (combine _ outs)). apply (ops_count S _ _ _ O); auto.
    + (* returned *)
      destruct e; try discriminate. destruct (names es) as [l2|] eqn:En; [|discriminate].
      destruct (slist_eqb l2 (map fst ps0)) eqn:El; [|discriminate]. apply slist_eqb_eq in El. subst l2. injection E as -> <-.
      intros C m ps L. destruct (B m ps L) as (Lq & Lp & Y & Bp & V).
      rewrite call_fun, Bp. cbn [rbind bind_locals]. rewrite exec_ret.
      rewrite (eval_call _ _ _ _ _ _ (evals_vars _ _ _ _ _ _ En (V []))). rewrite (C _ _ Y). cbn [rbind].
      f_equal. f_equal. rewrite <- (app_nil_r (combine _ outs)). apply (ops_count S _ _ _ O); auto.
  - destruct b; try discriminate. destruct b1; try discriminate. destruct e; try discriminate. destruct b2; try discriminate. destruct e; try discriminate. destruct e; try discriminate.
    destruct (Nat.eqb_spec n n0); [|discriminate]. destruct (String.eqb_spec x x0); [|discriminate]. destruct (fresh x (map fst ps0)) eqn:Fr; [|discriminate].
    subst n0 x0. cbn [andb] in E. destruct (names es) as [l2|] eqn:En; [|discriminate].
    assert (Vx : forall vs d, var S (combine (map fst ps0) vs ++ [(x, VP d 0)]) x = Ok (VP d 0)).
    { intros vs d. rewrite var_skip. unfold var. simpl. rewrite String.eqb_refl. reflexivity. apply lookup_fresh. auto. }
    assert (Zl : length outs = length (filter written ags)).
    { unfold sized in Z. apply (f_equal (@length _)) in Z. rewrite !map_length in Z. auto. }
    destruct (slist_eqb l2 (map fst ps0 ++ [x])) eqn:El.
    + apply slist_eqb_eq in El. subst l2. injection E as -> <-.
      intros out Lo C m ps L. destruct (B m ps L) as (Lq & Lp & Y & Bp & V). set (gs := gptrs (length m) (map snd ps0) ps) in *.
      set (M := m ++ blks afs (map snd ps0)) in *.
      pose proof (layout_snoc _ _ _ n Y (blks_len_ranged _ _ _ _ _ O L)) as Y2. fold M in Y2.
      rewrite call_fun, Bp. cbn [rbind bind_locals]. rewrite exec_seq, exec_exp.
      assert (V2 : Forall2 (fun x0 v => var S (combine (map fst ps0) (actuals ags gs) ++ [(x, VP (length M) 0)]) x0 = Ok v) (map fst ps0 ++ [x]) (actuals (ags ++ [Out n]) (gs ++ [(length M, 0%Z)]))).
      { rewrite actuals_app by auto. apply Forall2_app. apply V. constructor; [|constructor]. apply Vx. }
      rewrite (eval_call _ _ _ _ _ _ (evals_vars _ _ _ _ _ _ En V2)).
      assert (Z2 : map (@length _) (outs ++ [out]) = map size (filter written (ags ++ [Out n]))).
      { rewrite filter_app, !map_app. unfold sized in Z. rewrite Z. simpl. rewrite Lo. reflexivity. }
      destruct (computes_cells_ok _ _ _ _ _ C Z2 _ _ Y2) as (m' & Cm & H & _). rewrite (C _ _ Y2) in Cm. injection Cm as <-. rewrite (C _ _ Y2).
      assert (Hh : holds (upds (M ++ [repeat CU n]) (combine (wptrs (ags ++ [Out n]) (gs ++ [(length M, 0%Z)])) (outs ++ [out]))) (length M, 0%Z) out).
      { apply (Forall2_at _ _ _ _ _ H (length outs)).
        - rewrite wptrs_app, nth_error_app2; rewrite ?wptrs_len; try lia. rewrite <- Zl, Nat.sub_diag. reflexivity.
        - rewrite nth_error_app2, Nat.sub_diag by lia. reflexivity. }
      cbn [rbind]. rewrite exec_ret. unfold holds in Hh. rewrite Lo in Hh. cbn [fst snd] in Hh.
      rewrite (eval_lda S n x _ _ (length M) 0 out); [|apply Vx|exact Hh].
      cbn [rbind]. f_equal. f_equal. rewrite wptrs_app by auto. rewrite combine_app by (rewrite wptrs_len by auto; auto).
      unfold M. rewrite <- app_assoc. apply (ops_count S _ _ _ O); auto.
      unfold old. simpl. destruct (Nat.ltb_spec (length (m ++ blks afs (map snd ps0))) (length m)) as [Q|Q]; auto. rewrite app_length in Q. lia.
    + destruct (slist_eqb l2 (x :: map fst ps0)) eqn:El2; [|discriminate]. apply slist_eqb_eq in El2. subst l2. injection E as -> <-.
      intros out Lo C m ps L. destruct (B m ps L) as (Lq & Lp & Y & Bp & V). set (gs := gptrs (length m) (map snd ps0) ps) in *.
      set (M := m ++ blks afs (map snd ps0)) in *.
      pose proof (layout_cons _ _ _ n Y (blks_len_ranged _ _ _ _ _ O L)) as Y2. fold M in Y2.
      rewrite call_fun, Bp. cbn [rbind bind_locals]. rewrite exec_seq, exec_exp.
      assert (V2 : Forall2 (fun x0 v => var S (combine (map fst ps0) (actuals ags gs) ++ [(x, VP (length M) 0)]) x0 = Ok v) (x :: map fst ps0) (actuals (Out n :: ags) ((length M, 0%Z) :: gs))).
      { constructor. apply Vx. apply V. }
      rewrite (eval_call _ _ _ _ _ _ (evals_vars _ _ _ _ _ _ En V2)).
      assert (Z2 : map (@length _) (out :: outs) = map size (filter written (Out n :: ags))).
      { unfold sized in Z. simpl. rewrite Z. rewrite Lo. reflexivity. }
      destruct (computes_cells_ok _ _ _ _ _ C Z2 _ _ Y2) as (m' & Cm & H & _). rewrite (C _ _ Y2) in Cm. injection Cm as <-. rewrite (C _ _ Y2).
      assert (Hh := Forall2_at _ _ _ _ _ H 0%nat (length M, 0%Z) out eq_refl eq_refl).
      cbn [rbind]. rewrite exec_ret. unfold holds in Hh. rewrite Lo in Hh. cbn [fst snd] in Hh.
      rewrite (eval_lda S n x _ _ (length M) 0 out); [|apply Vx|exact Hh].
      cbn [rbind]. f_equal. f_equal. cbn [wptrs written combine].
      change (upds (M ++ [repeat CU n]) (((length M, 0%Z), out) :: combine (wptrs ags gs) outs)) with
        (upds (upd (M ++ [repeat CU n]) (length M, 0%Z) out) (combine (wptrs ags gs) outs)).
      assert (Lm : (length m <= length M)%nat) by (unfold M; rewrite app_length; lia).
      unfold M at 1. rewrite <- app_assoc. destruct (upd_r m (blks afs (map snd ps0) ++ [repeat CU n]) (length M, 0%Z) out Lm) as [bs' ->].
      rewrite <- (app_nil_r (combine _ outs)). apply (ops_count S _ _ _ O); auto.
Qed.
