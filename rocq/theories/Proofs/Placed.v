(** * Deciding independence of the placement by symbolic evaluation (proof tool) *)

From Coq Require Import String List ZArith Bool Lia.
From Verif Require Import MiniC Contract Sym SymSound SymCall SymTac.
From Verif.Spec Require Import Types Agree Placed.
From Verif.Proofs Require Import Safe Outcome SimdTac.
Import ListNotations.
Local Open Scope nat_scope.
Local Open Scope list_scope.

(** renaming of variables: floats by [p], integers by [q] *)
Definition look (l : list (nat * nat)) (n : nat) : nat :=
  match find (fun x => Nat.eqb (fst x) n) l with Some x => snd x | None => n end.
(** a choice between equal values is no choice *)
Definition site (c : bexp) (a b : sexp) : sexp := if sexp_eqb a b then a else SIte c a b.
Definition iite (c : bexp) (a b : iexp) : iexp := if iexp_eqb a b then a else IIte c a b.
Definition kite (c : bexp) (a b : scell) : scell := if scell_eqb a b then a else KIte c a b.
Section Ren.
Variables p q : list (nat * nat).
Fixpoint sren (s : sexp) : sexp :=
  match s with
  | SVar n => SVar (look p n)
  | SLit _ _ | SPi _ _ => s
  | SOp1 o a => SOp1 o (sren a)
  | SOp2 o a b => SOp2 o (sren a) (sren b)
  | SFma a b c => SFma (sren a) (sren b) (sren c)
  | SIte c a b => site (bren c) (sren a) (sren b)
  | SOfZ i => SOfZ (iren i)
  end
with bren (b : bexp) : bexp :=
  match b with
  | BLit _ | BVar _ => b
  | BCmpF c x y => BCmpF c (sren x) (sren y)
  | BTest t x => BTest t (sren x)
  | BCmpI c x y => BCmpI c (iren x) (iren y)
  | BNot x => BNot (bren x)
  | BIte c x y => BIte (bren c) (bren x) (bren y)
  | BOk1 o x => BOk1 o (sren x)
  | BOk2 o x y => BOk2 o (sren x) (sren y)
  | BIn i => BIn (iren i)
  end
with iren (i : iexp) : iexp :=
  match i with
  | ILit _ => i
  | IVar n => IVar (look q n)
  | IOp o x y => IOp o (iren x) (iren y)
  | INeg x => INeg (iren x)
  | IAbs x => IAbs (iren x)
  | IOfB b => IOfB (bren b)
  | IIte c x y => iite (bren c) (iren x) (iren y)
  end.
Fixpoint kren (c : scell) : scell :=
  match c with KF s => KF (sren s) | KI i => KI (iren i) | KIte c x y => kite (bren c) (kren x) (kren y) | _ => c end.
Fixpoint vren (v : sval) : sval :=
  match v with
  | XF s => XF (sren s) | XI i => XI (iren i) | XB b => XB (bren b) | XA l => XA (map kren l)
  | XIte c x y => XIte (bren c) (vren x) (vren y) | _ => v
  end.
Definition lren (x : leaf) : leaf := (vren (fst x), map (map kren) (snd x)).
Fixpoint tren (t : tree leaf) : tree leaf :=
  match t with TLeaf x => TLeaf (lren x) | TErr => TErr | TIf b t u => TIf (bren b) (tren t) (tren u) | TGuard e g t => TGuard e (bren g) (tren t) end.
Definition wren (w : binds) : binds := map (fun x => (fst x, sren (snd x))) w.
End Ren.

(** the renaming an alias pattern allows: the equations between objects at the same address *)
Fixpoint pairs (x y : list scell) (p q : list (nat * nat)) : list (nat * nat) * list (nat * nat) :=
  match x, y with
  | KF (SVar a) :: x', KF (SVar b) :: y' => pairs x' y' ((a, b) :: p) q
  | KI (IVar a) :: x', KI (IVar b) :: y' => pairs x' y' p ((a, b) :: q)
  | _ :: x', _ :: y' => pairs x' y' p q
  | _, _ => (p, q)
  end.
Fixpoint renaming (e : list (list scell * list scell)) : list (nat * nat) * list (nat * nat) :=
  match e with [] => ([], []) | (x, y) :: e' => let '(p, q) := renaming e' in pairs x y p q end.

Definition leaf_eqb (x y : leaf) : bool := sval_eqb (fst x) (fst y) && list_eqb (list_eqb scell_eqb) (snd x) (snd y).
Definition binds_eqb (x y : binds) : bool := list_eqb (fun a b => Nat.eqb (fst a) (fst b) && sexp_eqb (snd a) (snd b)) x y.
(** the run for one alias pattern, if it is safe and its results are closed *)
Definition run_at (K : nat) (f : fundef) (sargs : list sarg) (k : nat) (pat : list (option nat)) : option (binds * tree leaf) :=
  let '(t, n, w) := y_call K (sro sargs) f (sactuals sargs pat) (sregions sargs pat) k in
  let u := tmap (proj sargs) t in
  if scoped k w && safe_tree (map (@length _) (sregions sargs pat)) t && tall lclosed u then Some (w, u) else None.
Definition apart (sargs : list sarg) : list (option nat) := map (fun _ => None) sargs.
Definition is_apart (pat : list (option nat)) (sargs : list sarg) : bool :=
  list_eqb (fun a b => match a, b with None, None => true | _, _ => false end) pat (apart sargs).
Lemma is_apart_eq : forall pat sargs, is_apart pat sargs = true -> pat = apart sargs.
Proof. intros pat sargs. apply list_eqb_eq. intros [ ] [ ] H; try discriminate; reflexivity. Qed.
Definition det_args (K : nat) (f : fundef) (k : nat) (sargs : list sarg) : bool :=
  match run_at K f sargs k (apart sargs) with
  | None => false
  | Some (w0, t0) =>
    forallb (fun pat => if is_apart pat sargs then true else
      match run_at K f sargs k pat with
      | None => false
      | Some (w, t) => let '(p, q) := renaming (eqs sargs pat) in
        forallb (fun x => Nat.ltb (fst x) k && Nat.ltb (snd x) k) p && binds_eqb (wren p q w) (wren p q w0) && tree_eqb leaf_eqb (tren p q t) (tren p q t0)
      end) (patterns sargs)
  end.
Fixpoint kbelow (k : nat) (c : scell) : bool :=
  match c with KU => true | KF s => sbelow k s | KI i => ibelow k i | KIte b x y => bbelow k b && kbelow k x && kbelow k y | _ => false end.
Fixpoint vbelow (k : nat) (v : sval) : bool :=
  match v with
  | XVoid | XNull => true | XF s => sbelow k s | XI i => ibelow k i | XB b => bbelow k b | XA l => forallb (kbelow k) l
  | XIte b x y => bbelow k b && vbelow k x && vbelow k y | _ => false
  end.
Fixpoint tbelow (k : nat) (t : tree leaf) : bool :=
  match t with
  | TLeaf x => vbelow k (fst x) && forallb (forallb (kbelow k)) (snd x)
  | TErr => true
  | TIf b t u => bbelow k b && tbelow k t && tbelow k u
  | TGuard e g t => bbelow k g && tbelow k t
  end.
(** the same with the intermediate results put in *)
Definition det_args2 (K : nat) (f : fundef) (k : nat) (sargs : list sarg) : bool :=
  match run_at K f sargs k (apart sargs) with
  | None => false
  | Some (w0, t0) =>
    tbelow (k + length w0) t0 && forallb (fun pat => if is_apart pat sargs then true else
      match run_at K f sargs (k + length w0) pat with
      | None => false
      | Some (w, t) => let '(p, q) := renaming (eqs sargs pat) in
        forallb (fun x => Nat.ltb (fst x) k && Nat.ltb (snd x) k) p &&
        tree_eqb leaf_eqb (tren p q (tnorm (resolve w []) t)) (tren p q (tnorm (resolve w0 []) t0))
      end) (patterns sargs)
  end.
Definition detb (K : nat) (f : fundef) (ps : list param) : bool := forallb (fun sa => if det_args K f (nfloats ps) sa then true else det_args2 K f (nfloats ps) sa) (build ps 0 0 0).

Lemma leaf_eqb_eq : forall x y, leaf_eqb x y = true -> x = y.
Proof.
  intros [a b] [c d] H. unfold leaf_eqb in H. simpl in H. apply andb_prop in H. destruct H as [H1 H2]. f_equal.
  - apply sval_eqb_eq. auto.
  - revert H2. apply list_eqb_eq. apply list_eqb_eq. apply scell_eqb_eq.
Qed.
Lemma binds_eqb_eq : forall x y, binds_eqb x y = true -> x = y.
Proof. intros x y. apply list_eqb_eq. intros [a b] [c d] X. simpl in X. apply andb_prop in X. destruct X as [X1 X2]. apply Nat.eqb_eq in X1. apply sexp_eqb_eq in X2. congruence. Qed.

Section D.
Variable S : Scalar.
Notation F := (T S).
Variables (is : list Z) (bs : list bool) (fs : list F).
Notation mk := (mk S is bs).

Definition okf (l : list F) (p : list (nat * nat)) : Prop := Forall (fun x => nth (fst x) l (s_lit S 0 1) = nth (snd x) l (s_lit S 0 1)) p.
Definition oki (q : list (nat * nat)) : Prop := Forall (fun x => nth (fst x) is 0%Z = nth (snd x) is 0%Z) q.
Lemma look_ok : forall A (l : list A) d p, Forall (fun x => nth (fst x) l d = nth (snd x) l d) p -> forall n, nth (look p n) l d = nth n l d.
Proof.
  intros A l d p H n. unfold look. destruct (find _ p) as [[a b]|] eqn:E; auto.
  apply find_some in E. destruct E as [I E]. simpl in E. apply Nat.eqb_eq in E. subst. rewrite Forall_forall in H. symmetry. apply (H _ I).
Qed.
Lemma site_ok : forall a c x y, fden S a (site c x y) = if bden S a c then fden S a x else fden S a y.
Proof. intros. unfold site. destruct (sexp_eqb x y) eqn:E; [|reflexivity]. apply sexp_eqb_eq in E. subst. destruct (bden S a c); reflexivity. Qed.
Lemma iite_ok : forall a c x y, iden S a (iite c x y) = if bden S a c then iden S a x else iden S a y.
Proof. intros. unfold iite. destruct (iexp_eqb x y) eqn:E; [|reflexivity]. apply iexp_eqb_eq in E. subst. destruct (bden S a c); reflexivity. Qed.
Lemma kite_ok : forall a pi L c x y, cden S a pi L (kite c x y) = if bden S a c then cden S a pi L x else cden S a pi L y.
Proof. intros. unfold kite. destruct (scell_eqb x y) eqn:E; [|reflexivity]. apply scell_eqb_eq in E. subst. destruct (bden S a c); reflexivity. Qed.
Lemma ren_ok : forall ac l p q, okf l p -> oki q ->
  (forall s, fden S (mk ac l) (sren p q s) = fden S (mk ac l) s) /\ (forall b, bden S (mk ac l) (bren p q b) = bden S (mk ac l) b) /\ (forall i, iden S (mk ac l) (iren p q i) = iden S (mk ac l) i).
Proof.
  intros ac l p q Hp Hq. apply sbi_ind; cbn [sren bren iren]; fold (sren p q) (bren p q) (iren p q); cbn [fden bden iden]; fold (fden S (mk ac l)) (bden S (mk ac l)) (iden S (mk ac l)); intros; rewrite ?site_ok, ?iite_ok;
    repeat match goal with H : _ = _ |- _ => rewrite ?H; clear H end; try reflexivity.
  - apply look_ok. exact Hp.
  - apply look_ok. exact Hq.
Qed.
Lemma kren_ok : forall ac l p q, okf l p -> oki q -> forall pi L c, cden S (mk ac l) pi L (kren p q c) = cden S (mk ac l) pi L c.
Proof. intros ac l p q Hp Hq pi L. destruct (ren_ok ac l p q Hp Hq) as (A & B & C). induction c; cbn [kren cden]; rewrite ?kite_ok; rewrite ?A, ?B, ?C, ?IHc1, ?IHc2; reflexivity. Qed.
Lemma vren_ok : forall ac l p q, okf l p -> oki q -> forall pi L v, vden S (mk ac l) pi L (vren p q v) = vden S (mk ac l) pi L v.
Proof.
  intros ac l p q Hp Hq pi L. destruct (ren_ok ac l p q Hp Hq) as (A & B & C). induction v; cbn [vren vden]; rewrite ?A, ?B, ?C, ?IHv1, ?IHv2; try reflexivity.
  f_equal. rewrite map_map. apply map_ext. apply kren_ok; auto.
Qed.
Lemma tren_out : forall l p q, okf l p -> oki q -> forall t, tout S is bs l (tren p q t) = tout S is bs l t.
Proof.
  intros l p q Hp Hq t. unfold tout. destruct (ren_ok (nil_ac S) l p q Hp Hq) as (_ & B & _).
  assert (X : tbad S (mk (nil_ac S) l) (tren p q t) = tbad S (mk (nil_ac S) l) t).
  { induction t; simpl; auto; rewrite B; destruct (bden _ _ _); auto. }
  rewrite X. clear X.
  assert (X : option_map (lden_out S is bs l) (tden S (mk (nil_ac S) l) (tren p q t)) = option_map (lden_out S is bs l) (tden S (mk (nil_ac S) l) t)).
  { induction t; simpl; auto; try (rewrite B; destruct (bden _ _ _); auto).
    f_equal. unfold lden_out. simpl. f_equal.
    - apply vren_ok; auto.
    - rewrite map_map. apply map_ext. intros cs. rewrite map_map. apply map_ext. apply kren_ok; auto. }
  destruct (tden S (mk (nil_ac S) l) (tren p q t)), (tden S (mk (nil_ac S) l) t); cbn [option_map] in X; try discriminate; [exact X|reflexivity].
Qed.
Lemma wren_sat : forall ac l p q, okf l p -> oki q -> forall w, sat S (mk ac l) (wren p q w) <-> sat S (mk ac l) w.
Proof.
  intros ac l p q Hp Hq. destruct (ren_ok ac l p q Hp Hq) as (A & _). unfold sat, wren. induction w as [|[n s] w IH]; simpl; [split; auto|].
  split; intros H; inversion H; subst; simpl in *; constructor; try (apply IH; assumption); simpl; rewrite A in *; auto.
Qed.

Lemma pairs_ok : forall ac pi L x y p q, map (cden S (mk ac fs) pi L) x = map (cden S (mk ac fs) pi L) y ->
  okf fs p -> oki q -> okf fs (fst (pairs x y p q)) /\ oki (snd (pairs x y p q)).
Proof.
  intros ac pi L. induction x as [|c x IH]; intros y p q E Hp Hq; simpl; [auto|].
  destruct y as [|d y]; [destruct c as [| [ ]| [ ] | | |]; auto|]. simpl in E. injection E as E1 E2.
  destruct c as [|s|i| | |]; try (destruct d; apply IH; auto; fail).
  - destruct s; try (destruct d as [|[ ]| | | |]; apply IH; auto; fail).
    destruct d as [|[ ]| | | |]; try (apply IH; auto; fail). apply IH; auto. constructor; auto. simpl. simpl in E1. injection E1 as E1. exact E1.
  - destruct i; try (destruct d as [| |[ ]| | |]; apply IH; auto; fail).
    destruct d as [| |[ ]| | |]; try (apply IH; auto; fail). apply IH; auto. constructor; auto. simpl. simpl in E1. injection E1 as E1. exact E1.
Qed.
Lemma renaming_ok : forall ac pi L e, imps S is bs fs ac pi L e (okf fs (fst (renaming e)) /\ oki (snd (renaming e))).
Proof.
  intros ac pi L. assert (M : forall e (P Q : Prop), (P -> Q) -> imps S is bs fs ac pi L e P -> imps S is bs fs ac pi L e Q).
  { induction e as [|[x y] e IH]; simpl; auto. intros P Q H HI E. eapply IH; eauto. }
  induction e as [|[x y] e IH]; simpl; [split; constructor|].
  intros E. eapply M; [|exact IH]. destruct (renaming e) as [p q]. simpl. intros [Hp Hq]. eapply pairs_ok; eauto.
Qed.
Lemma okf_app : forall p ts, okf fs p -> forallb (fun x => Nat.ltb (fst x) (length fs) && Nat.ltb (snd x) (length fs)) p = true -> okf (fs ++ ts) p.
Proof.
  intros p ts H B. unfold okf in *. rewrite Forall_forall in *. rewrite forallb_forall in B. intros x I. specialize (B x I). apply andb_prop in B.
  destruct B as [B1 B2]. apply Nat.ltb_lt in B1. apply Nat.ltb_lt in B2. rewrite !app_nth1 by auto. auto.
Qed.

(** a run at the pattern of a placement gives the call its outcome *)
Definition does (f : fundef) (args : list (arg F)) (m : mem F) (ps : list ptr) (o : outcome F) : Prop :=
  match o with
  | Returns ret outs => call S f (actuals args ps) m = Ok (ret, upds m (combine (wptrs args ps) outs))
  | Fails x => call S f (actuals args ps) m = Err x
  end.
Lemma run_at_ok : forall K f sargs args,
  (forall ac pi L ts, map (aden S is bs fs ac pi L ts) sargs = args) ->
  forall m ps, layout m args ps -> forall w u, run_at K f sargs (length fs) (choose sargs ps) = Some (w, u) ->
  forall ts, sat S (mk (nil_ac S) (fs ++ ts)) w -> exists o, tout S is bs (fs ++ ts) u = Some o /\ does f args m ps o.
Proof.
  intros K f sargs args HA m ps Hl w u HR ts Hsat. unfold run_at in HR. set (pat := choose sargs ps) in *.
  destruct (y_call K (sro sargs) f (sactuals sargs pat) (sregions sargs pat) (length fs)) as [[t n] w0] eqn:EY.
  destruct (scoped (length fs) w0) eqn:HS; [|discriminate]. destruct (safe_tree (map (@length _) (sregions sargs pat)) t) eqn:HT; [|discriminate].
  destruct (tall lclosed (tmap (proj sargs) t)) eqn:HC; [|discriminate]. injection HR as -> <-.
  unfold tout. rewrite tmap_den, tmap_bad.
  destruct (safe_tree_den S _ (mk (nil_ac S) (fs ++ ts)) _ HT) as [(v & sm' & HD & HL) | (x & HX & HD)].
  - rewrite HD. simpl. eexists. split; [reflexivity|]. simpl.
    apply list_eqb_lens in HL.
    assert (Hlen : length sm' = length sargs).
    { apply (f_equal (@length _)) in HL. rewrite !map_length in HL. unfold sregions in HL. rewrite mapi_length in HL. auto. }
    assert (CL : lclosed (proj sargs (v, sm')) = true). { eapply tall_den; eauto. rewrite tmap_den, HD. reflexivity. }
    unfold lclosed in CL. apply andb_prop in CL. destruct CL as [C1 C2].
    erewrite (main_run S K f sargs args is bs fs HA m ps Hl ts t n w v sm' EY).
    2:{ eapply sat_ac; eauto. } 2:{ rewrite <- HD. apply tden_ac. } 2:{ auto. }
    f_equal. f_equal.
    + apply vden_closed. auto.
    + f_equal. f_equal. rewrite map_map. apply map_ext_in. intros i Hi. apply cdens_closed.
      simpl in C2. rewrite forallb_forall in C2. apply C2. apply in_map_iff. eauto.
  - rewrite HD. assert (HN : tden S (mk (nil_ac S) (fs ++ ts)) t = None).
    { clear -HD. induction t; simpl in *; try discriminate; auto; destruct (bden _ _ _); auto. }
    rewrite HN. simpl. eexists. split; [reflexivity|]. simpl.
    match type of (main_run S K f sargs args is bs fs HA m ps Hl) with forall ts t n w v sm', _ -> sat S (SymCall.mk S is bs ?ac _) w -> _ => set (ac0 := ac) in * end.
    assert (HF := proj2 (proj2 (proj2 (sound_err S (mk ac0 (fs ++ ts)) ps (length m) m eq_refl (sro sargs)
        (map (@length _) (sregions sargs (choose sargs ps)))
        (lens_length S sargs args is bs fs HA m ps Hl)
        (inreg_lt S K sargs args is bs fs HA m ps Hl)
        (reg_disj S sargs args is bs fs HA m ps Hl) K)))).
    rewrite <- (actuals_den S sargs args is bs fs HA m ps Hl ts).
    apply (HF f (sactuals sargs (choose sargs ps)) (sregions sargs (choose sargs ps)) (length fs) x m (rel_init S K sargs args is bs fs HA m ps Hl ts)).
    fold pat. split; rewrite EY; simpl.
    + eapply sat_ac; eauto.
    + rewrite <- HD. apply tbad_ac.
Qed.

Lemma det_args_ok : forall K f sargs args,
  (forall ac pi L ts, map (aden S is bs fs ac pi L ts) sargs = args) ->
  det_args K f (length fs) sargs = true -> exists o, has_outcome S f args o.
Proof.
  intros K f sargs args HA H. unfold det_args in H.
  destruct (run_at K f sargs (length fs) (apart sargs)) as [[w0 t0]|] eqn:R0; [|discriminate].
  assert (HS : scoped (length fs) w0 = true).
  { clear - R0. unfold run_at in R0. destruct (y_call _ _ _ _ _ _) as [[? ?] ?].
    destruct (scoped (length fs) b) eqn:E; [|discriminate]. simpl in R0. destruct (_ && _) in R0; [|discriminate]. congruence. }
  destruct (run_ts S is bs fs w0 _ HS eq_refl) as (ts & Hsat).
  assert (X : forall m ps, layout m args ps -> exists o, tout S is bs (fs ++ ts) t0 = Some o /\ does f args m ps o).
  { intros m ps Hl. rewrite forallb_forall in H. specialize (H _ (choose_in sargs ps)).
    destruct (is_apart (choose sargs ps) sargs) eqn:EA.
    { apply is_apart_eq in EA. rewrite <- EA in R0. exact (run_at_ok K f sargs args HA m ps Hl w0 t0 R0 ts Hsat). }
    destruct (run_at K f sargs (length fs) (choose sargs ps)) as [[w t]|] eqn:R; [|discriminate].
    assert (HE := eqs_hold S K sargs args is bs fs HA m ps Hl _ (renaming_ok _ _ _ (eqs sargs (choose sargs ps)))).
    destruct (renaming (eqs sargs (choose sargs ps))) as [p q]. simpl in HE. destruct HE as [Hp Hq].
    apply andb_prop in H. destruct H as [H H3]. apply andb_prop in H. destruct H as [H1 H2].
    apply binds_eqb_eq in H2. apply (tree_eqb_eq _ _ leaf_eqb_eq) in H3.
    pose proof (okf_app p ts Hp H1) as Hp'.
    destruct (run_at_ok K f sargs args HA m ps Hl w t R ts) as (o & To & Ho).
    { rewrite <- (wren_sat (nil_ac S) _ _ _ Hp' Hq) in Hsat |- *. rewrite H2. exact Hsat. }
    exists o. split; auto. rewrite <- To, <- (tren_out _ _ _ Hp' Hq t), <- (tren_out _ _ _ Hp' Hq t0), H3. reflexivity. }
  destruct (tout S is bs (fs ++ ts) t0) as [o|] eqn:Eo.
  - exists o. destruct o as [r o|x]; simpl; intros m ps Hl; destruct (X m ps Hl) as (o' & [= <-] & HO); exact HO.
  - exists (Fails XType). intros m ps Hl. destruct (X m ps Hl) as (o' & [=] & _).
Qed.
End D.

Section D2.
Variable S : Scalar.
Notation F := (T S).
Variables (is : list Z) (bs : list bool).
Lemma ts_len : forall w (fs : list F), scoped (length fs) w = true -> exists ts, length ts = length w /\ sat S (mk S is bs (nil_ac S) (fs ++ ts)) w.
Proof.
  intros w fs H. destruct (with_binds_run S is bs (nil_ac S) w fs (fun l => length l = length fs + length w) H) as (ts & Hs & Hl).
  - clear. revert fs. induction w as [|[n s] w IH]; simpl; intros fs; [lia|]. intros t _. specialize (IH (fs ++ [t])).
    replace (length fs + Datatypes.S (length w)) with (length (fs ++ [t]) + length w) by (rewrite app_length; simpl; lia). exact IH.
  - exists ts. split; auto. rewrite app_length in Hl. lia.
Qed.
Lemma sat_more : forall w (fs us : list F), scoped (length fs) w = true -> forall ts, length ts = length w ->
  sat S (mk S is bs (nil_ac S) (fs ++ ts)) w -> sat S (mk S is bs (nil_ac S) ((fs ++ ts) ++ us)) w.
Proof.
  intros w fs us HS ts Hl. revert fs us ts HS Hl. induction w as [|[n s] w IH]; intros fs us ts HS Hl H; [constructor|].
  simpl in HS. apply andb_prop in HS. destruct HS as [HS HS2]. apply andb_prop in HS. destruct HS as [HS1 HS]. apply Nat.eqb_eq in HS1. subst n.
  destruct ts as [|t ts]; [discriminate|]. inversion H; subst. constructor.
  - simpl in *. rewrite <- app_assoc. rewrite app_nth2 in * by lia. rewrite Nat.sub_diag in *. simpl in *. etransitivity; [exact H2|].
    apply (below_ext S (length fs)); auto. intros k Hk. simpl. rewrite !app_nth1 by auto. reflexivity.
  - specialize (IH (fs ++ [t]) us ts). rewrite app_length, Nat.add_1_r in IH. rewrite <- !app_assoc in *. simpl in *. apply IH; auto.
Qed.
Lemma tout_more : forall (l us : list F) t, tbelow (length l) t = true -> tout S is bs (l ++ us) t = tout S is bs l t.
Proof.
  intros l us t H.
  assert (BX : forall n, n < length l -> a_f (mk S is bs (nil_ac S) (l ++ us)) n = a_f (mk S is bs (nil_ac S) l) n).
  { intros n Hn. simpl. apply app_nth1. auto. }
  destruct (below_ext S (length l) _ _ BX eq_refl eq_refl) as (A & B & C).
  assert (KX : forall c, kbelow (length l) c = true -> cden S (mk S is bs (nil_ac S) (l ++ us)) [] 0 c = cden S (mk S is bs (nil_ac S) l) [] 0 c).
  { induction c; simpl; intros E; try discriminate; auto.
    - rewrite A; auto.
    - rewrite C; auto.
    - apply andb_prop in E. destruct E as [E E2]. apply andb_prop in E. destruct E. rewrite B, IHc1, IHc2; auto. }
  assert (KL : forall cs, forallb (kbelow (length l)) cs = true -> map (cden S (mk S is bs (nil_ac S) (l ++ us)) [] 0) cs = map (cden S (mk S is bs (nil_ac S) l) [] 0) cs).
  { intros cs E. rewrite forallb_forall in E. apply map_ext_in. intros c Hc. apply KX. auto. }
  assert (VX : forall v, vbelow (length l) v = true -> vden S (mk S is bs (nil_ac S) (l ++ us)) [] 0 v = vden S (mk S is bs (nil_ac S) l) [] 0 v).
  { induction v; simpl; intros E; try discriminate; auto.
    - rewrite A; auto.
    - rewrite C; auto.
    - rewrite B; auto.
    - f_equal. auto.
    - apply andb_prop in E. destruct E as [E E2]. apply andb_prop in E. destruct E. rewrite B, IHv1, IHv2; auto. }
  unfold tout. assert (X : tbad S (mk S is bs (nil_ac S) (l ++ us)) t = tbad S (mk S is bs (nil_ac S) l) t /\
    option_map (lden_out S is bs (l ++ us)) (tden S (mk S is bs (nil_ac S) (l ++ us)) t) = option_map (lden_out S is bs l) (tden S (mk S is bs (nil_ac S) l) t)).
  { induction t as [x| |b t IHt u IHu|e g t IHt]; simpl in *; auto.
    - apply andb_prop in H. destruct H as [H1 H2]. split; auto. f_equal. unfold lden_out. f_equal; auto.
      rewrite forallb_forall in H2. apply map_ext_in. intros cs Hc. apply KL. auto.
    - apply andb_prop in H. destruct H as [H H2]. apply andb_prop in H. destruct H as [H0 H1]. rewrite B by auto. destruct (bden _ _ _); auto.
    - apply andb_prop in H. destruct H as [H0 H1]. rewrite B by auto. destruct (bden _ _ _); auto. }
  destruct X as [X1 X2]. rewrite X1.
  destruct (tden S (mk S is bs (nil_ac S) (l ++ us)) t), (tden S (mk S is bs (nil_ac S) l) t); cbn [option_map] in X2; try discriminate; [exact X2|reflexivity].
Qed.
Lemma det_args2_ok : forall K f sargs args (fs : list F),
  (forall ac pi L ts, map (aden S is bs fs ac pi L ts) sargs = args) ->
  det_args2 K f (length fs) sargs = true -> exists o, has_outcome S f args o.
Proof.
  intros K f sargs args fs HA H. unfold det_args2 in H.
  destruct (run_at K f sargs (length fs) (apart sargs)) as [[w0 t0]|] eqn:R0; [|discriminate].
  assert (HS : forall k p w t, run_at K f sargs k p = Some (w, t) -> scoped k w = true).
  { clear. intros k p w t R. unfold run_at in R. destruct (y_call _ _ _ _ _ _) as [[? ?] ?].
    destruct (scoped k b) eqn:E; [|discriminate]. simpl in R. destruct (_ && _) in R; [|discriminate]. congruence. }
  destruct (ts_len w0 fs (HS _ _ _ _ R0)) as (ts0 & L0 & Hsat0).
  assert (HA' : forall ac pi L ts, map (aden S is bs (fs ++ ts0) ac pi L ts) sargs = args).
  { intros. rewrite <- (HA ac pi L (ts0 ++ ts)). apply map_ext. intros a. unfold aden. rewrite app_assoc. reflexivity. }
  apply andb_prop in H. destruct H as [HB H]. replace (length fs + length w0) with (length (fs ++ ts0)) in HB, H by (rewrite app_length; lia).
  assert (X : forall m ps, layout m args ps -> exists o, tout S is bs (fs ++ ts0) t0 = Some o /\ does S f args m ps o).
  { intros m ps Hl. rewrite forallb_forall in H. specialize (H _ (choose_in sargs ps)).
    destruct (is_apart (choose sargs ps) sargs) eqn:EA.
    { apply is_apart_eq in EA. rewrite <- EA in R0. exact (run_at_ok S is bs fs K f sargs args HA m ps Hl w0 t0 R0 ts0 Hsat0). }
    destruct (run_at K f sargs (length (fs ++ ts0)) (choose sargs ps)) as [[w t]|] eqn:R; [|discriminate].
    assert (HE := eqs_hold S K sargs args is bs fs HA m ps Hl _ (renaming_ok S is bs fs _ _ _ (eqs sargs (choose sargs ps)))).
    destruct (renaming (eqs sargs (choose sargs ps))) as [p q]. simpl in HE. destruct HE as [Hp Hq].
    apply andb_prop in H. destruct H as [H1 H3]. apply (tree_eqb_eq _ _ leaf_eqb_eq) in H3.
    destruct (ts_len w (fs ++ ts0) (HS _ _ _ _ R)) as (ts & Lw & Hsat).
    destruct (run_at_ok S is bs (fs ++ ts0) K f sargs args HA' m ps Hl w t R ts Hsat) as (o & To & Ho).
    exists o. split; auto. rewrite <- To, <- (tout_more _ ts t0 HB).
    pose proof (okf_app S fs p (ts0 ++ ts) Hp H1) as Hp'. rewrite app_assoc in Hp'.
    rewrite <- (tnorm_out S is bs (resolve w []) _ t) by (apply resolve_ok; [constructor|exact Hsat]).
    rewrite <- (tren_out S is bs _ _ _ Hp' Hq (tnorm (resolve w []) t)), H3, (tren_out S is bs _ _ _ Hp' Hq).
    symmetry. apply tnorm_out. apply resolve_ok; [constructor|]. apply sat_more; eauto. }
  destruct (tout S is bs (fs ++ ts0) t0) as [o|] eqn:Eo.
  - exists o. destruct o as [r o|x]; simpl; intros m ps Hl; destruct (X m ps Hl) as (o' & [= <-] & HO); exact HO.
  - exists (Fails XType). intros m ps Hl. destruct (X m ps Hl) as (o' & [=] & _).
Qed.
End D2.

Theorem detb_ok : forall K f ps, detb K f ps = true -> determined f ps.
Proof.
  intros K f ps H S args HF. destruct (build_ok S ps args HF [] [] []) as (is & bs & fs & sa & I & Lf & E). simpl in E.
  unfold detb in H. rewrite forallb_forall in H. specialize (H _ I). rewrite <- Lf in H.
  destruct (det_args K f (length fs) sa) eqn:D; [exact (det_args_ok S is bs fs K f sa args E D)|exact (det_args2_ok S is bs K f sa args fs E H)].
Qed.
