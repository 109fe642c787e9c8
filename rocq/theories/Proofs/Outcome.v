(** * Equal outcomes of two functions by symbolic evaluation (proof tool) *)

From Coq Require Import String List ZArith Bool Lia.
From Verif Require Import MiniC Sym SymSound Contract SymCall SymTac.
From Verif.Spec Require Import Agree.
Import ListNotations.

Fixpoint kclosed (c : scell) : bool :=
  match c with KU | KF _ | KI _ => true | KIte _ a b => kclosed a && kclosed b | _ => false end.
Fixpoint vclosed (v : sval) : bool :=
  match v with XVoid | XF _ | XI _ | XB _ | XNull => true | XA l => forallb kclosed l | XIte _ a b => vclosed a && vclosed b | _ => false end.
Definition nopat (pat : list (option nat)) : bool := forallb (fun o => match o with None => true | _ => false end) pat.

Fixpoint tmap {A B} (h : A -> B) (t : tree A) : tree B :=
  match t with TLeaf x => TLeaf (h x) | TErr => TErr | TIf b t u => TIf b (tmap h t) (tmap h u) | TGuard e g t => TGuard e g (tmap h t) end.
Fixpoint tall {A} (h : A -> bool) (t : tree A) : bool :=
  match t with TLeaf x => h x | TErr => true | TIf b t u => tall h t && tall h u | TGuard e g t => tall h t end.

Definition leaf := (sval * list (list scell))%type.
Definition proj (sargs : list sarg) (x : sval * smem) : leaf := (fst x, map (fun i => nth i (snd x) []) (widx sargs)).
Definition lclosed (x : leaf) : bool := vclosed (fst x) && forallb (forallb kclosed) (snd x).
(** the run of [f]: binds and tree of leaves, if the run is safe and its results are closed *)
Definition run (K : nat) (f : fundef) (sargs : list sarg) (k : nat) : option (binds * tree leaf) :=
  match patterns sargs with
  | [pat] =>
    let '(t, n, w) := y_call K (sro sargs) f (sactuals sargs pat) (sregions sargs pat) k in
    let u := tmap (proj sargs) t in
    if scoped k w && safe_tree (map (@length _) (sregions sargs pat)) t && tall lclosed u then Some (w, u) else None
  | _ => None
  end.

(** replace variables by the expressions bound to them *)
Fixpoint sinl (e : binds) (s : sexp) : sexp :=
  match s with
  | SVar n => (fix find (e : binds) := match e with [] => SVar n | (k, u) :: e' => if Nat.eqb k n then u else find e' end) e
  | SLit _ _ | SPi _ _ => s
  | SOp1 o a => SOp1 o (sinl e a)
  | SOp2 o a b => SOp2 o (sinl e a) (sinl e b)
  | SFma a b c => SFma (sinl e a) (sinl e b) (sinl e c)
  | SIte c a b => SIte (binl e c) (sinl e a) (sinl e b)
  | SOfZ i => SOfZ (iinl e i)
  end
with binl (e : binds) (b : bexp) : bexp :=
  match b with
  | BLit _ | BVar _ => b
  | BCmpF c x y => BCmpF c (sinl e x) (sinl e y)
  | BTest t x => BTest t (sinl e x)
  | BCmpI c x y => BCmpI c (iinl e x) (iinl e y)
  | BNot x => BNot (binl e x)
  | BIte c x y => BIte (binl e c) (binl e x) (binl e y)
  | BOk1 o x => BOk1 o (sinl e x)
  | BOk2 o x y => BOk2 o (sinl e x) (sinl e y)
  | BIn i => BIn (iinl e i)
  end
with iinl (e : binds) (i : iexp) : iexp :=
  match i with
  | ILit _ | IVar _ => i
  | IOp o x y => IOp o (iinl e x) (iinl e y)
  | INeg x => INeg (iinl e x)
  | IAbs x => IAbs (iinl e x)
  | IOfB b => IOfB (binl e b)
  | IIte c x y => IIte (binl e c) (iinl e x) (iinl e y)
  end.
Fixpoint resolve (w e : binds) : binds :=
  match w with [] => e | (n, s) :: w' => resolve w' ((n, sinl e s) :: e) end.
Fixpoint kn (e : binds) (c : scell) : scell :=
  match c with
  | KF s => KF (sinl e s)
  | KI i => KI (iinl e i)
  | KIte c x y => match kn e x, kn e y with KF a, KF b => KF (SIte (binl e c) a b) | a, b => KIte (binl e c) a b end
  | _ => c
  end.
Fixpoint vn (e : binds) (v : sval) : sval :=
  match v with
  | XF s => XF (sinl e s)
  | XI i => XI (iinl e i)
  | XB b => XB (binl e b)
  | XA l => XA (map (kn e) l)
  | XIte c x y => XIte (binl e c) (vn e x) (vn e y)
  | _ => v
  end.
Fixpoint tnorm (e : binds) (t : tree leaf) : tree leaf :=
  match t with
  | TLeaf x => TLeaf (vn e (fst x), map (map (kn e)) (snd x))
  | TErr => TErr
  | TIf b t u => TIf (binl e b) (tnorm e t) (tnorm e u)
  | TGuard x g t => TGuard x (binl e g) (tnorm e t)
  end.

Section O.
Variable S : Scalar.
Notation F := (T S).
Variables (is : list Z) (bs : list bool) (fs : list F).
Notation mk := (mk S is bs).

Lemma den_ac : forall ac ac' l,
  (forall s, fden S (mk ac l) s = fden S (mk ac' l) s) /\ (forall b, bden S (mk ac l) b = bden S (mk ac' l) b) /\ (forall i, iden S (mk ac l) i = iden S (mk ac' l) i).
Proof.
  intros ac ac' l. apply sbi_ind; cbn [fden bden iden]; intros;
    repeat match goal with H : _ = _ |- _ => rewrite ?H; clear H end; reflexivity.
Qed.
Lemma cden_closed : forall ac ac' pi pi' L L' l c, kclosed c = true -> cden S (mk ac l) pi L c = cden S (mk ac' l) pi' L' c.
Proof.
  intros ac ac' pi pi' L L' l. destruct (den_ac ac ac' l) as (A & B & C).
  induction c; simpl; intros H; try discriminate; rewrite ?A, ?C; try reflexivity.
  - apply andb_prop in H. destruct H. rewrite B, IHc1, IHc2; auto.
Qed.
Lemma cdens_closed : forall ac ac' pi pi' L L' l cs, forallb kclosed cs = true -> map (cden S (mk ac l) pi L) cs = map (cden S (mk ac' l) pi' L') cs.
Proof. induction cs; simpl; intros H; auto. apply andb_prop in H. destruct H. f_equal; auto. apply cden_closed; auto. Qed.
Lemma vden_closed : forall ac ac' pi pi' L L' l v, vclosed v = true -> vden S (mk ac l) pi L v = vden S (mk ac' l) pi' L' v.
Proof.
  intros ac ac' pi pi' L L' l. destruct (den_ac ac ac' l) as (A & B & C).
  induction v; simpl; intros H; try discriminate; rewrite ?A, ?C, ?B; try reflexivity.
  - f_equal. apply cdens_closed; auto.
  - apply andb_prop in H. destruct H. rewrite IHv1, IHv2; auto.
Qed.
Lemma tden_ac : forall A ac ac' l (t : tree A), tden S (mk ac l) t = tden S (mk ac' l) t.
Proof. intros A ac ac' l t. destruct (den_ac ac ac' l) as (_ & B & _). induction t; simpl; auto; rewrite B; destruct (bden _ _ _); auto. Qed.
Lemma tbad_ac : forall A ac ac' l (t : tree A), tbad S (mk ac l) t = tbad S (mk ac' l) t.
Proof. intros A ac ac' l t. destruct (den_ac ac ac' l) as (_ & B & _). induction t; simpl; auto; rewrite B; destruct (bden _ _ _); auto. Qed.
Lemma sat_ac : forall ac ac' l w, sat S (mk ac l) w -> sat S (mk ac' l) w.
Proof. intros ac ac' l w. destruct (den_ac ac ac' l) as (A & _). unfold sat. intros H. eapply Forall_impl; [|exact H]. simpl. intros [n s] E. simpl in *. rewrite E. apply A. Qed.
Lemma tmap_den : forall A B (h : A -> B) a t, tden S a (tmap h t) = option_map h (tden S a t).
Proof. induction t; simpl; auto; destruct (bden _ _ _); auto. Qed.
Lemma tmap_bad : forall A B (h : A -> B) a t, tbad S a (tmap h t) = tbad S a t.
Proof. induction t; simpl; auto; destruct (bden _ _ _); auto. Qed.
Lemma tall_den : forall A (h : A -> bool) a t x, tall h t = true -> tden S a t = Some x -> h x = true.
Proof.
  induction t; simpl; intros x H E; try discriminate.
  - congruence.
  - apply andb_prop in H. destruct H. destruct (bden _ _ _); auto.
  - destruct (bden _ _ _); try discriminate; auto.
Qed.

Definition nil_ac : nat -> cell F := fun _ => CU.
Definition lden_out (l : list F) (x : leaf) : outcome F :=
  Returns (vden S (mk nil_ac l) [] 0 (fst x)) (map (map (cden S (mk nil_ac l) [] 0)) (snd x)).
(** the outcome read off the tree *)
Definition tout (l : list F) (t : tree leaf) : option (outcome F) :=
  match tden S (mk nil_ac l) t with
  | Some x => Some (lden_out l x)
  | None => match tbad S (mk nil_ac l) t with Some x => Some (Fails x) | None => None end
  end.

Lemma run_ts : forall w k, scoped (length fs) w = true -> k = length fs -> exists ts, sat S (mk nil_ac (fs ++ ts)) w.
Proof.
  intros w k HS _. destruct (with_binds_run S is bs nil_ac w fs (fun _ => True) HS) as (ts & Hsat & _).
  { clear. revert fs. induction w as [|[n s] w]; simpl; auto. }
  eauto.
Qed.
Theorem run_ok : forall K f sargs args w u,
  (forall ac pi L ts, map (aden S is bs fs ac pi L ts) sargs = args) ->
  run K f sargs (length fs) = Some (w, u) ->
  forall ts, sat S (mk nil_ac (fs ++ ts)) w -> exists o, tout (fs ++ ts) u = Some o /\ has_outcome S f args o.
Proof.
  intros K f sargs args w u HA HR ts Hsat. unfold run in HR.
  destruct (patterns sargs) as [|pat [|? ?]] eqn:HP; try discriminate.
  destruct (y_call K (sro sargs) f (sactuals sargs pat) (sregions sargs pat) (length fs)) as [[t n] w0] eqn:EY.
  destruct (scoped (length fs) w0) eqn:HS; [|discriminate]. destruct (safe_tree (map (@length _) (sregions sargs pat)) t) eqn:HT; [|discriminate].
  destruct (tall lclosed (tmap (proj sargs) t)) eqn:HC; [|discriminate]. injection HR as -> <-.
  assert (Hch : forall ps, choose sargs ps = pat). { intros ps. pose proof (choose_in sargs ps) as I. rewrite HP in I. destruct I as [I|[]]; auto. }
  unfold tout. rewrite tmap_den, tmap_bad.
  destruct (safe_tree_den S _ (mk nil_ac (fs ++ ts)) _ HT) as [(v & sm' & HD & HL) | (x & HX & HD)].
  - rewrite HD. simpl. eexists. split; [reflexivity|]. intros m ps Hl.
    apply list_eqb_lens in HL.
    assert (Hlen : length sm' = length sargs).
    { apply (f_equal (@length _)) in HL. rewrite !map_length in HL. unfold sregions in HL. rewrite mapi_length in HL. auto. }
    assert (EY2 := EY). rewrite <- (Hch ps) in EY2.
    assert (CL : lclosed (proj sargs (v, sm')) = true). { eapply tall_den; eauto. rewrite tmap_den, HD. reflexivity. }
    unfold lclosed in CL. apply andb_prop in CL. destruct CL as [C1 C2].
    erewrite (main_run S K f sargs args is bs fs HA m ps Hl ts t n w v sm' EY2).
    2:{ eapply sat_ac; eauto. } 2:{ rewrite <- HD. apply tden_ac. } 2:{ auto. }
    f_equal. f_equal.
    + apply vden_closed. auto.
    + f_equal. f_equal. simpl. rewrite map_map. apply map_ext_in. intros i Hi. apply cdens_closed.
      simpl in C2. rewrite forallb_forall in C2. apply C2. apply in_map_iff. eauto.
  - rewrite HD. assert (HN : tden S (mk nil_ac (fs ++ ts)) t = None).
    { clear -HD. induction t; simpl in *; try discriminate; auto; destruct (bden _ _ _); auto. }
    rewrite HN. simpl. eexists. split; [reflexivity|]. intros m ps Hl.
    match type of (main_run S K f sargs args is bs fs HA m ps Hl) with forall ts t n w v sm', _ -> sat S (SymCall.mk S is bs ?ac _) w -> _ => set (ac0 := ac) in * end.
    assert (HF := proj2 (proj2 (proj2 (sound_err S (mk ac0 (fs ++ ts)) ps (length m) m eq_refl (sro sargs)
        (map (@length _) (sregions sargs (choose sargs ps)))
        (lens_length S sargs args is bs fs HA m ps Hl)
        (inreg_lt S K sargs args is bs fs HA m ps Hl)
        (reg_disj S sargs args is bs fs HA m ps Hl) K)))).
    rewrite <- (actuals_den S sargs args is bs fs HA m ps Hl ts).
    apply (HF f (sactuals sargs (choose sargs ps)) (sregions sargs (choose sargs ps)) (length fs) x m (rel_init S K sargs args is bs fs HA m ps Hl ts)).
    rewrite (Hch ps). split; rewrite EY; simpl.
    + eapply sat_ac; eauto.
    + rewrite <- HD. apply tbad_ac.
Qed.

(** the same outcome *)
Definition lval (x : leaf) : leaf := (XA (last (snd x) []), removelast (snd x)).
(** the second run may bind more intermediate results than the first *)
Fixpoint rest (w1 w2 : binds) : option binds :=
  match w1, w2 with
  | [], _ => Some w2
  | (n, s) :: w1', (k, u) :: w2' => if Nat.eqb n k && sexp_eqb s u then rest w1' w2' else None
  | _, _ => None
  end.
Definition runs_as (w1 : option (binds * tree leaf)) (h : leaf -> leaf) (w2 : option (binds * tree leaf)) : Prop :=
  match w1, w2 with
  | Some (b1, t1), Some (b2, t2) =>
    match rest b1 b2 with Some w => tnorm [] (tmap h t1) = tnorm (resolve w []) t2 | None => False end
  | _, _ => False
  end.
Lemma rest_ok : forall w1 w2 w, rest w1 w2 = Some w -> w2 = w1 ++ w.
Proof.
  induction w1 as [|[n s] w1 IH]; intros w2 w E; simpl in E; [injection E as ->; reflexivity|]. destruct w2 as [|[k u] w2]; [discriminate|].
  destruct (Nat.eqb_spec n k); [|discriminate]. destruct (sexp_eqb s u) eqn:Es; [|discriminate]. simpl in E.
  apply sexp_eqb_eq in Es. subst. simpl. f_equal. auto.
Qed.
Lemma inl_ok : forall a e, sat S a e ->
  (forall s, fden S a (sinl e s) = fden S a s) /\ (forall b, bden S a (binl e b) = bden S a b) /\ (forall i, iden S a (iinl e i) = iden S a i).
Proof.
  intros a e He. apply sbi_ind; cbn [sinl binl iinl]; fold (sinl e) (binl e) (iinl e); cbn [fden bden iden]; fold (fden S a) (bden S a) (iden S a); intros;
    repeat match goal with H : _ = _ |- _ => rewrite ?H; clear H end; try reflexivity.
  induction He as [|[k u] e E He IH]; simpl; auto. simpl in E. destruct (Nat.eqb_spec k n); [subst; auto|auto].
Qed.
Lemma resolve_ok : forall a w e, sat S a e -> sat S a w -> sat S a (resolve w e).
Proof.
  induction w as [|[n s] w IH]; intros e He Hw; simpl; auto. inversion Hw; subst. apply IH; auto. constructor; auto. simpl in *.
  rewrite (proj1 (inl_ok a e He)). auto.
Qed.
Lemma kn_ok : forall a pi L e, sat S a e -> forall c, cden S a pi L (kn e c) = cden S a pi L c.
Proof.
  intros a pi L e He. destruct (inl_ok a e He) as (A & B & C). induction c; cbn [kn cden]; rewrite ?A, ?C; try reflexivity.
  rewrite <- IHc1, <- IHc2. destruct (kn e c2), (kn e c3); cbn [cden fden]; rewrite ?B; try reflexivity; destruct (bden S a c1); reflexivity.
Qed.
Lemma vn_ok : forall a pi L e, sat S a e -> forall v, vden S a pi L (vn e v) = vden S a pi L v.
Proof.
  intros a pi L e He. destruct (inl_ok a e He) as (A & B & C). induction v; cbn [vn vden]; rewrite ?A, ?B, ?C; try reflexivity.
  - f_equal. rewrite map_map. apply map_ext. apply kn_ok; auto.
  - rewrite IHv1, IHv2. reflexivity.
Qed.
Lemma tnorm_out : forall e l t, sat S (mk nil_ac l) e -> tout l (tnorm e t) = tout l t.
Proof.
  intros e l t He. unfold tout. destruct (inl_ok _ e He) as (_ & B & _).
  assert (X : tbad S (mk nil_ac l) (tnorm e t) = tbad S (mk nil_ac l) t).
  { induction t; simpl; auto; rewrite B; destruct (bden _ _ _); auto. }
  rewrite X. clear X.
  assert (X : option_map (lden_out l) (tden S (mk nil_ac l) (tnorm e t)) = option_map (lden_out l) (tden S (mk nil_ac l) t)).
  { induction t; simpl; auto; try (rewrite B; destruct (bden _ _ _); auto).
    f_equal. unfold lden_out. simpl. f_equal.
    - apply vn_ok; auto.
    - rewrite map_map. apply map_ext. intros cs. rewrite map_map. apply map_ext. apply kn_ok; auto. }
  destruct (tden S (mk nil_ac l) (tnorm e t)), (tden S (mk nil_ac l) t); cbn [option_map] in X; try discriminate; [exact X|reflexivity].
Qed.

Theorem outcome_intro : forall K f g sf sg af ag h hd,
  (forall ac pi L ts, map (aden S is bs fs ac pi L ts) sf = af) ->
  (forall ac pi L ts, map (aden S is bs fs ac pi L ts) sg = ag) ->
  (forall l x, lden_out l (h x) = hd (lden_out l x)) -> (forall x, hd (Fails x) = Fails x) ->
  runs_as (run K g sg (length fs)) h (run K f sf (length fs)) ->
  exists o, has_outcome S g ag o /\ has_outcome S f af (hd o).
Proof.
  intros K f g sf sg af ag h hd Hf Hg Hh He R. unfold runs_as in R.
  destruct (run K g sg (length fs)) as [[w t]|] eqn:Rg; [|contradiction]. destruct (run K f sf (length fs)) as [[w2 t2]|] eqn:Rf; [|contradiction].
  destruct (rest w w2) as [u|] eqn:Er; [|contradiction]. apply rest_ok in Er.
  assert (HS : scoped (length fs) w2 = true).
  { clear - Rf. unfold run in Rf. destruct (patterns sf) as [|pat [|? ?]]; try discriminate. destruct (y_call _ _ _ _ _ _) as [[? ?] ?].
    destruct (scoped (length fs) b) eqn:E; [|discriminate]. simpl in Rf. destruct (_ && _) in Rf; [|discriminate]. congruence. }
  destruct (run_ts w2 _ HS eq_refl) as (ts & Hsat).
  assert (Hs := Hsat). rewrite Er in Hs. apply Forall_app in Hs. destruct Hs as [Hw Hu].
  destruct (run_ok _ _ _ _ _ _ Hg Rg ts Hw) as (o & To & Ho). destruct (run_ok _ _ _ _ _ _ Hf Rf ts Hsat) as (o2 & To2 & Ho2).
  exists o. split; auto. replace (hd o) with o2; auto.
  rewrite <- (tnorm_out (resolve u [])) in To2 by (apply resolve_ok; [constructor|exact Hu]).
  rewrite <- R, tnorm_out in To2 by constructor. clear - To To2 Hh He.
  unfold tout in *. rewrite tmap_den, tmap_bad in To2. destruct (tden S (mk nil_ac (fs ++ ts)) t); simpl in *.
  - injection To as <-. injection To2 as <-. auto.
  - destruct (tbad S (mk nil_ac (fs ++ ts)) t); [|discriminate]. injection To as <-. injection To2 as <-. auto.
Qed.
Lemma lval_ok : forall l x, lden_out l (lval x) = as_value (lden_out l x).
Proof.
  intros l [v o]. unfold lden_out, lval, as_value. simpl. f_equal.
  - f_equal. induction o as [|a [|b o] IH]; auto.
  - induction o as [|a [|b o] IH]; auto. change (removelast (a :: b :: o)) with (a :: removelast (b :: o)). simpl in *. f_equal. auto.
Qed.
End O.

(** reify against the variables of the other call *)
Ltac at_in x l :=
  lazymatch l with
  | cons x _ => constr:(0%nat)
  | cons _ ?r => let k := at_in x r in constr:(Datatypes.S k)
  end.
Ltac rl_cells cs fs is :=
  lazymatch cs with
  | nil => constr:(@nil scell)
  | cons (CF ?t) ?r => let k := at_in t fs in let r' := rl_cells r fs is in constr:(cons (KF (SVar k)) r')
  | cons (CI ?z) ?r => let k := at_in z is in let r' := rl_cells r fs is in constr:(cons (KI (IVar k)) r')
  end.
Ltac rl_arg a fs is bs :=
  lazymatch a with
  | In ?cs => let c := rl_cells cs fs is in constr:(SIn c)
  | InOut ?cs => let c := rl_cells cs fs is in constr:(SInOut c)
  | Out ?n => constr:(SOut n)
  | Val (VA ?cs) => let c := rl_cells cs fs is in constr:(SVal (XA c))
  | Val (VF ?t) => let k := at_in t fs in constr:(SVal (XF (SVar k)))
  | Val (VI ?z) => let k := at_in z is in constr:(SVal (XI (IVar k)))
  | Val (VB ?z) => let k := at_in z bs in constr:(SVal (XB (BVar k)))
  end.
Ltac rl_args l fs is bs :=
  lazymatch l with
  | nil => constr:(@nil sarg)
  | cons ?a ?r => let x := rl_arg a fs is bs in let r' := rl_args r fs is bs in constr:(cons x r')
  end.

(** [outcome_with K]: prove [exists o, has_outcome S g ag o /\ has_outcome S f af o'] with [o' = o] or [o' = as_value o] *)
Ltac outcome_with K :=
  lazymatch goal with
  | |- exists o, has_outcome ?S ?g ?ag0 o /\ has_outcome ?S ?f ?af0 (@?hd o) =>
    let ag := eval cbv [fl il map app] in ag0 in
    let af := eval cbv [fl il map app] in af0 in
    let Fl := constr:(@nil (T S)) in
    rf_args ag Fl (@nil Z) (@nil bool) ltac:(fun sg fs is bs =>
      let sf := rl_args af fs is bs in
      lazymatch hd with
      | (fun o => as_value o) =>
        apply (outcome_intro S is bs fs K f g sf sg af0 ag0 lval as_value); [intros; reflexivity|intros; reflexivity|apply lval_ok|reflexivity|vm_compute; reflexivity]
      | _ =>
        apply (outcome_intro S is bs fs K f g sf sg af0 ag0 (fun x => x) (fun o => o)); [intros; reflexivity|intros; reflexivity|reflexivity|reflexivity|vm_compute; reflexivity]
      end)
  end.
