(** * What [computes] means, and that its premises can always be met *)

From Coq Require Import List ZArith Lia.
From Verif Require Import MiniC Contract SymSound SymCall.
Import ListNotations.
Open Scope Z_scope.

Section L.
Context {F : Type}.

Definition block_of (a : arg F) : list (cell F) :=
  match a with In cs | InA cs | InOut cs => cs | Out n => repeat CU n | Val _ => [] end.

Lemma mreads_block : forall n (m : mem F) b blk k, nth_error m b = Some blk -> (k + n <= length blk)%nat ->
  mreads m b (Z.of_nat k) n = Some (firstn n (skipn k blk)).
Proof.
  induction n; intros m b blk k H Hk; auto.
  cbn [mreads]. unfold mread at 1. rewrite H. destruct (Z.ltb_spec (Z.of_nat k) 0); [lia|]. rewrite Nat2Z.id.
  replace (Z.of_nat k + 1) with (Z.of_nat (S k)) by lia. rewrite (IHn m b blk (S k)) by (auto; lia).
  assert (E : exists c, nth_error blk k = Some c).
  { destruct (nth_error blk k) eqn:E; eauto. apply nth_error_None in E. lia. }
  destruct E as [c E]. rewrite E. f_equal.
  clear - E. revert k E. induction blk; intros k E; destruct k; simpl in *; try discriminate.
  - inversion E; auto.
  - rewrite IHblk; auto.
Qed.

Lemma placed_own : forall args pre (m : mem F), m = pre ++ map block_of args ->
  Forall2 (placed m) args (map (fun i => (i, 0)) (seq (length pre) (length args))).
Proof.
  induction args as [|a args IH]; intros pre m Hm; simpl; constructor.
  - assert (E : nth_error m (length pre) = Some (block_of a)).
    { subst m. rewrite nth_error_app2, Nat.sub_diag; auto. }
    destruct a; simpl in *; auto; unfold holds, valid; cbn [fst snd];
      change 0 with (Z.of_nat 0); rewrite (mreads_block _ _ _ _ 0%nat E); simpl; rewrite ?repeat_length; try lia; auto;
      try (f_equal; apply firstn_all). discriminate.
  - replace (S (length pre)) with (length (pre ++ [block_of a])) by (rewrite app_length; simpl; lia).
    apply IH. subst m. rewrite <- app_assoc. auto.
Qed.

(** every list of arguments has a layout, with each object in a block of its own *)
Lemma layout_exists_ok : forall args : list (arg F), exists m ps, layout m args ps.
Proof.
  intros args. exists (map block_of args), (map (fun i => (i, 0)) (seq 0 (length args))).
  split.
  - apply (placed_own args [] (map block_of args)). auto.
  - intros i j a b p q Hij _ _ Hp Hq W P. left. left.
    assert (forall n x, nth_error (map (fun i : nat => (i, 0)) (seq 0 (length args))) n = Some x -> fst x = n).
    { intros n x E. rewrite nth_error_map' in E. destruct (nth_error (seq 0 (length args)) n) eqn:E2; simpl in E; inversion E; subst.
      simpl. assert (n < length (seq 0 (length args)))%nat by (apply nth_error_Some; congruence).
      apply nth_error_nth with (d := O) in E2. rewrite seq_length in H. rewrite seq_nth in E2; auto. }
    apply H in Hp. apply H in Hq. congruence.
Qed.

End L.

(** [wat args ps]: the written arguments with pointer and position *)
Fixpoint wat {F} (k : nat) (args : list (arg F)) (ps : list ptr) : list (nat * (arg F * ptr)) :=
  match args, ps with
  | a :: args', p :: ps' => if written a then (k, (a, p)) :: wat (S k) args' ps' else wat (S k) args' ps'
  | _, _ => []
  end.
Lemma wat_ptrs : forall F (args : list (arg F)) ps k, wptrs args ps = map (fun x => snd (snd x)) (wat k args ps).
Proof. induction args; destruct ps; simpl; auto. intros. destruct (written a); simpl; rewrite (IHargs ps (S k)); auto. Qed.
Lemma wat_sizes : forall F (args : list (arg F)) ps k, length args = length ps ->
  map size (filter written args) = map (fun x => size (fst (snd x))) (wat k args ps).
Proof. induction args; destruct ps; simpl; auto; try discriminate. intros k H. destruct (written a); simpl; rewrite (IHargs ps (S k)); auto. Qed.
Lemma wat_in : forall F (args : list (arg F)) ps k n a p, List.In (n, (a, p)) (wat k args ps) ->
  (k <= n)%nat /\ nth_error args (n - k) = Some a /\ nth_error ps (n - k) = Some p /\ written a = true.
Proof.
  induction args; destruct ps; simpl; try tauto. intros k n b q H.
  assert (G : List.In (n, (b, q)) (wat (S k) args ps) -> (k <= n)%nat /\ nth_error (a :: args) (n - k) = Some b /\ nth_error (p :: ps) (n - k) = Some q /\ written b = true).
  { intros I. apply IHargs in I. destruct I as (I1 & I2 & I3 & I4). destruct (n - k)%nat eqn:E; [lia|].
    replace (n - S k)%nat with n0 in * by lia. repeat split; auto; lia. }
  destruct (written a) eqn:W; auto. destruct H as [H|H]; auto. inversion H; subst. rewrite Nat.sub_diag. auto.
Qed.
Lemma wat_inc : forall F (args : list (arg F)) ps k i j x y, nth_error (wat k args ps) i = Some x -> nth_error (wat k args ps) j = Some y ->
  i <> j -> fst x <> fst y.
Proof.
  assert (G : forall F (args : list (arg F)) ps k, NoDup (map fst (wat k args ps))).
  { induction args; destruct ps; simpl; try constructor. intros k. destruct (written a); auto. simpl. constructor; auto.
    intros H. apply in_map_iff in H. destruct H as ((n & b & q) & E & H). simpl in E. subst. apply wat_in in H. lia. }
  intros F args ps k i j x y Hi Hj Hij E. specialize (G F args ps k). rewrite NoDup_nth_error in G.
  apply Hij, G. rewrite map_length. apply nth_error_Some. congruence. rewrite !nth_error_map', Hi, Hj. simpl. congruence.
Qed.

(** The reading of a contract in terms of single cells. *)
Lemma computes_cells_ok : forall S f args ret outs, computes S f args ret outs ->
  map (@length _) outs = map size (filter written args) ->
  forall m ps, layout m args ps ->
  exists m', call S f (actuals args ps) m = Ok (ret, m') /\
    Forall2 (holds m') (wptrs args ps) outs /\
    map (@length _) m' = map (@length _) m /\
    (forall b o, (forall i a p, nth_error args i = Some a -> nth_error ps i = Some p -> written a = true -> ~ inside p (size a) b o) ->
       mread m' b o = mread m b o).
Proof.
  intros S f args ret outs HC HL m ps HY. eexists. split; [apply HC; auto|].
  assert (Hlen : length args = length ps). { pose proof (lay_placed _ _ _ HY) as H. clear - H. induction H; simpl; auto. }
  rewrite (wat_sizes _ args ps 0 Hlen) in HL. rewrite (wat_ptrs _ args ps 0).
  assert (HI : forall k x, nth_error (wat 0 args ps) k = Some x ->
    nth_error args (fst x) = Some (fst (snd x)) /\ nth_error ps (fst x) = Some (snd (snd x)) /\ written (fst (snd x)) = true).
  { intros k (n & a & p) H. apply nth_error_In in H. apply wat_in in H. rewrite Nat.sub_0_r in H. simpl. tauto. }
  assert (HO : forall k x, nth_error (wat 0 args ps) k = Some x -> exists o, nth_error outs k = Some o /\ length o = size (fst (snd x))).
  { intros k x H. apply (f_equal (fun l => nth_error l k)) in HL. rewrite !nth_error_map', H in HL. simpl in HL.
    destruct (nth_error outs k); simpl in HL; inversion HL. eauto. }
  assert (HB : forall k pc, nth_error (combine (map (fun x => snd (snd x)) (wat 0 args ps)) outs) k = Some pc ->
     exists x, nth_error (wat 0 args ps) k = Some x /\ fst pc = snd (snd x) /\ nth_error outs k = Some (snd pc) /\ length (snd pc) = size (fst (snd x))).
  { intros k [p o] H. assert (E : forall A B (l : list A) (r : list B) k a b, nth_error (combine l r) k = Some (a, b) -> nth_error l k = Some a /\ nth_error r k = Some b).
    { clear. induction l; destruct r; destruct k; simpl; intros; try discriminate. inversion H; auto. auto. }
    apply E in H. destruct H as [H1 H2]. rewrite nth_error_map' in H1. destruct (nth_error (wat 0 args ps) k) as [x|] eqn:Ex; inversion H1; subst.
    exists x. simpl. destruct (HO _ _ Ex) as (o' & E1 & E2). rewrite E1 in H2. inversion H2; subst. auto. }
  destruct (upds_ok S (combine (map (fun x => snd (snd x)) (wat 0 args ps)) outs) m) as (U1 & U2 & U3).
  - intros pc Hin. apply In_nth_error in Hin. destruct Hin as [k Hk]. apply HB in Hk. destruct Hk as (x & E1 & -> & _ & ->).
    apply HI in E1. destruct E1 as (E1 & E2 & W). apply valid_readable.
    pose proof (lay_placed _ _ _ HY) as HF.
    assert (P : placed m (fst (snd x)) (snd (snd x))).
    { revert E1 E2. generalize (fst (snd x)) (snd (snd x)) (fst x). clear - HF. induction HF; intros b q n; destruct n; simpl; intros; try discriminate; eauto. congruence. }
    destruct (fst (snd x)); try discriminate W; simpl in *; auto. unfold valid. rewrite P. discriminate.
  - intros i j pc qd Hij Hi Hj. apply HB in Hi. apply HB in Hj. destruct Hi as (x & E1 & -> & _ & ->). destruct Hj as (y & E2 & -> & _ & ->).
    assert (Hne : fst x <> fst y) by (eapply wat_inc; eauto).
    apply HI in E1. apply HI in E2. destruct E1 as (A1 & P1 & W1). destruct E2 as (A2 & P2 & W2).
    destruct (lay_compat _ _ _ HY _ _ _ _ _ _ Hne A1 A2 P1 P2 W1) as [H|[H _]]; auto; destruct (fst (snd y)); try discriminate; auto.
  - split; [|split; [auto|]].
    + set (ws := wat 0 args ps) in *. set (m' := upds m _) in *.
      assert (G : forall k p o, nth_error (map (fun x => snd (snd x)) ws) k = Some p -> nth_error outs k = Some o -> holds m' p o).
      { intros k p o Hp Ho.
        assert (Hin : List.In (p, o) (combine (map (fun x => snd (snd x)) ws) outs)).
        { clear - Hp Ho. revert k outs Hp Ho. induction (map (fun x => snd (snd x)) ws); intros k outs; destruct k, outs; simpl; try discriminate; intros.
          inversion Hp; inversion Ho; auto. right; eauto. }
        unfold holds. specialize (fun b o' => U2 _ b o' Hin). simpl in U2. destruct p as [b o0]; simpl in *.
        assert (Q : forall cs k, (k + length cs = length o)%nat -> (forall i, nth_error cs i = nth_error o (k + i)) -> mreads m' b (o0 + Z.of_nat k) (length cs) = Some cs).
        { induction cs; intros k0 HL0 HN; auto. cbn [length mreads].
          rewrite U2 by (unfold inr; simpl in *; lia). replace (Z.to_nat (o0 + Z.of_nat k0 - o0)) with k0 by lia.
          rewrite <- (Nat.add_0_r k0) at 1. rewrite <- (HN O). simpl.
          replace (o0 + Z.of_nat k0 + 1) with (o0 + Z.of_nat (Datatypes.S k0)) by lia. rewrite IHcs; auto.
          simpl in HL0; lia. intros i. specialize (HN (Datatypes.S i)). simpl in HN. rewrite HN. f_equal. lia. }
        replace o0 with (o0 + Z.of_nat 0) by lia. apply Q; auto. }
      assert (L : length (map (fun x => snd (snd x)) ws) = length outs).
      { rewrite map_length. apply (f_equal (@length _)) in HL. rewrite !map_length in HL. auto. }
      clearbody m'. clear - G L. revert outs L G. induction (map (fun x => snd (snd x)) ws); intros outs L G; destruct outs; try discriminate; constructor.
      * apply (G O); auto.
      * apply IHl; auto. intros k p0 o. apply (G (Datatypes.S k)).
    + intros b o H. apply U3. intros pc Hin. apply In_nth_error in Hin. destruct Hin as [k Hk]. apply HB in Hk. destruct Hk as (x & E1 & -> & _ & ->).
      apply HI in E1. destruct E1 as (A1 & P1 & W1). unfold inr. exact (H _ _ _ A1 P1 W1).
Qed.

Lemma layout_in_place_ok : forall F (x y : list (cell F)), exists m ps,
  layout m [InA x; InA y; Out (length x)] ps /\ nth_error ps 0 = nth_error ps 2.
Proof.
  intros F x y. exists [x; y], [(0%nat, 0); (1%nat, 0); (0%nat, 0)]. split; auto.
  assert (HX : holds [x; y] (0%nat, 0) x).
  { unfold holds. cbn [fst snd]. change 0 with (Z.of_nat 0). rewrite (mreads_block _ _ 0%nat x 0%nat); auto. simpl. f_equal. apply firstn_all. }
  assert (HYy : holds [x; y] (1%nat, 0) y).
  { unfold holds. cbn [fst snd]. change 0 with (Z.of_nat 0). rewrite (mreads_block _ _ 1%nat y 0%nat); auto. simpl. f_equal. apply firstn_all. }
  split.
  - repeat constructor; simpl; auto. unfold valid. rewrite HX. discriminate.
  - intros i j a b p q Hij Ha Hb Hp Hq W P.
    destruct i as [|[|[|i]]]; simpl in Ha, Hp; try (destruct i; discriminate); inversion Ha; subst; try discriminate W.
    inversion Hp; subst.
    destruct j as [|[|[|j]]]; simpl in Hb, Hq; try (destruct j; discriminate); inversion Hb; inversion Hq; subst; try congruence.
    + right. auto.
    + left. left. simpl. discriminate.
Qed.

(** a call has one outcome *)
Lemma computes_unique : forall S f args r o r' o',
  computes S f args r o -> computes S f args r' o' ->
  map (@length _) o = map size (filter written args) ->
  map (@length _) o' = map size (filter written args) -> r = r' /\ o = o'.
Proof.
  intros S f args r o r' o' H H' L L'.
  destruct (layout_exists_ok args) as (m & ps & HY).
  destruct (computes_cells_ok _ _ _ _ _ H L m ps HY) as (m1 & E1 & F1 & _).
  destruct (computes_cells_ok _ _ _ _ _ H' L' m ps HY) as (m2 & E2 & F2 & _).
  rewrite E1 in E2. inversion E2; subst. split; auto.
  rewrite <- L' in L. clear - F1 F2 L. revert o' F2 L. induction F1; intros o' F2 L; inversion F2; subst; auto.
  simpl in L. inversion L. f_equal; auto. unfold holds in *. rewrite H1 in H. congruence.
Qed.
