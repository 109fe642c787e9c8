(** * The normal forms of [RNorm] are right (proof tool) *)

From Coq Require Import List ZArith QArith Qreals Reals Bool Lra Lia.
From Verif Require Import MiniC RScalar Contract Sym SymSound SymCall.
From Verif.Spec Require Import Agree.
From Verif.Proofs Require Import RNorm.
Import ListNotations.
Local Open Scope list_scope.
Local Open Scope R_scope.

Definition chi (b : bool) : R := if b then 1 else 0.
Lemma chi_inj : forall a b, chi a = chi b -> a = b.
Proof. unfold chi. intros [] []; auto; intros; lra. Qed.

(** ** Rational coefficients *)

Lemma q0_ok : forall c, q0 c = true -> Q2R c = 0.
Proof. intros [n d]. unfold q0, Q2R. simpl. destruct n; try discriminate. intros. simpl. lra. Qed.
Lemma q0_no : forall c, q0 c = false -> Q2R c <> 0.
Proof.
  intros [n d] H. unfold q0, Q2R in *. simpl in *. intros E.
  apply Rmult_integral in E. destruct E as [E|E].
  - apply eq_IZR in E. subst. discriminate.
  - revert E. apply Rinv_neq_0_compat. apply not_0_IZR. discriminate.
Qed.
Lemma qeqb_ok : forall a b, qeqb a b = true -> a = b.
Proof. intros [n d] [m e]. unfold qeqb. simpl. intros H. apply andb_prop in H. destruct H as [H1 H2]. apply Z.eqb_eq in H1. apply Pos.eqb_eq in H2. subst. auto. Qed.
Lemma qadd_ok : forall a b, Q2R (qadd a b) = Q2R a + Q2R b.
Proof. intros. unfold qadd. rewrite (Qeq_eqR _ _ (Qred_correct _)). apply Q2R_plus. Qed.
Lemma qmul_ok : forall a b, Q2R (qmul a b) = Q2R a * Q2R b.
Proof. intros. unfold qmul. rewrite (Qeq_eqR _ _ (Qred_correct _)). apply Q2R_mult. Qed.
Lemma Q2R_zero : Q2R 0 = 0.
Proof. unfold Q2R. simpl. lra. Qed.
Lemma Q2R_one : Q2R 1 = 1.
Proof. unfold Q2R. simpl. lra. Qed.
Lemma qinv_ok : forall a, q0 a = false -> Q2R (qinv a) = / Q2R a.
Proof.
  intros. unfold qinv. rewrite (Qeq_eqR _ _ (Qred_correct _)). apply Q2R_inv.
  intros E. apply (q0_no _ H). rewrite (Qeq_eqR _ _ E). apply Q2R_zero.
Qed.
Lemma qneg_ok : forall c, qneg c = true -> Q2R c < 0.
Proof.
  intros [n d]. unfold qneg, Q2R. simpl. destruct n; try discriminate. intros _.
  assert (IZR (Z.neg p) < 0) by (apply (IZR_lt _ 0); lia).
  assert (0 < / IZR (Z.pos d)) by (apply Rinv_0_lt_compat; apply (IZR_lt 0); lia). nra.
Qed.
Lemma qneg_no : forall c, qneg c = false -> 0 <= Q2R c.
Proof.
  intros [n d]. unfold qneg, Q2R. simpl. intros H.
  assert (0 <= IZR n) by (apply (IZR_le 0); destruct n; try discriminate; lia).
  assert (0 < / IZR (Z.pos d)) by (apply Rinv_0_lt_compat; apply (IZR_lt 0); lia). nra.
Qed.
Lemma qlit_ok : forall n d, Q2R (Qred (n # d)) = R_lit n d.
Proof.
  intros. rewrite (Qeq_eqR _ _ (Qred_correct _)). unfold Q2R, R_lit. simpl. destruct d; auto. unfold Rdiv. rewrite Rinv_1. lra.
Qed.

(** ** Values of polynomials *)

Section Val.
Variable rho : positive -> R.
Definition good : Prop := forall n, rho (xO n) = 0 \/ rho (xO n) = 1.
Hypothesis G : good.

Fixpoint mv (m : mono) : R := match m with [] => 1 | x :: m' => rho x * mv m' end.
Fixpoint pv (p : poly) : R := match p with [] => 0 | (m, c) :: p' => Q2R c * mv m + pv p' end.

Lemma mcmp_eq : forall a b, mcmp a b = Eq -> a = b.
Proof.
  induction a as [|x a IH]; intros [|y b]; simpl; try discriminate; auto.
  destruct (Pos.compare x y) eqn:E; try discriminate. intros. apply Pos.compare_eq in E. subst. f_equal. auto.
Qed.
Lemma term_ok : forall m c p, pv (term m c p) = Q2R c * mv m + pv p.
Proof. intros. unfold term. destruct (q0 c) eqn:E; simpl; auto. rewrite (q0_ok _ E). lra. Qed.
Lemma padd_ok : forall p q, pv (padd p q) = pv p + pv q.
Proof.
  induction p as [|[m c] p IH].
  - intros. simpl. lra.
  - induction q as [|[n d] q IHq].
    + simpl. lra.
    + cbn [padd]. destruct (mcmp m n) eqn:E.
      * apply mcmp_eq in E. subst n. rewrite term_ok, qadd_ok, IH. simpl. lra.
      * cbn [pv]. rewrite IH. simpl. lra.
      * cbn [pv]. cbn [padd] in IHq. rewrite IHq. simpl. lra.
Qed.
Lemma pscale_ok : forall k p, pv (pscale k p) = Q2R k * pv p.
Proof.
  intros. unfold pscale. destruct (q0 k) eqn:E.
  - rewrite (q0_ok _ E). simpl. lra.
  - induction p as [|[m c] p IH]; simpl; [lra|]. rewrite IH, qmul_ok. lra.
Qed.
Lemma popp_ok : forall p, pv (popp p) = - pv p.
Proof. intros. unfold popp. rewrite pscale_ok. unfold Q2R. simpl. lra. Qed.
Lemma psub_ok : forall p q, pv (psub p q) = pv p - pv q.
Proof. intros. unfold psub. rewrite padd_ok, popp_ok. lra. Qed.
Lemma idem_ok : forall x, idem x = true -> rho x * rho x = rho x.
Proof. intros [n|n|]; try discriminate. intros _. destruct (G n) as [-> | ->]; lra. Qed.
Lemma mmul_ok : forall a b, mv (mmul a b) = mv a * mv b.
Proof.
  induction a as [|x a IH].
  - intros. simpl. lra.
  - induction b as [|y b IHb].
    + simpl. lra.
    + cbn [mmul]. destruct (Pos.compare x y) eqn:E.
      * apply Pos.compare_eq in E. subst y. destruct (idem x) eqn:I.
        -- cbn [mv]. rewrite IH. apply idem_ok in I. replace (rho x * mv a * (rho x * mv b)) with (rho x * rho x * (mv a * mv b)) by ring. rewrite I. ring.
        -- cbn [mv]. rewrite IH. ring.
      * cbn [mv]. rewrite IH. simpl. ring.
      * cbn [mv]. cbn [mmul] in IHb. rewrite IHb. simpl. ring.
Qed.
Lemma ptimes_ok : forall m c q, pv (ptimes m c q) = Q2R c * mv m * pv q.
Proof.
  induction q as [|[n d] q IH]; [simpl; lra|]. cbn [ptimes]. rewrite padd_ok, IH. cbn [pv]. rewrite mmul_ok, qmul_ok. ring.
Qed.
Lemma pmul_ok : forall p q, pv (pmul p q) = pv p * pv q.
Proof.
  induction p as [|[m c] p IH]; intros; [simpl; lra|]. cbn [pmul]. rewrite padd_ok, ptimes_ok, IH. simpl. ring.
Qed.
Lemma pconst_ok : forall c, pv (pconst c) = Q2R c.
Proof. intros. unfold pconst. rewrite term_ok. simpl. lra. Qed.
Lemma patom_ok : forall x, pv (patom x) = rho x.
Proof. intros. simpl. rewrite Q2R_one. lra. Qed.
Lemma one_ok : pv one = 1.
Proof. simpl. rewrite Q2R_one. lra. Qed.
Lemma isconst_ok : forall p c, isconst p = Some c -> pv p = Q2R c.
Proof.
  intros p c H. unfold isconst in H. destruct p as [|[[|x m] d] [|]]; inversion H; subst; simpl.
  - unfold Q2R. simpl. lra.
  - lra.
Qed.
Lemma monob_ok : forall a b, monob a b = true -> a = b.
Proof.
  induction a as [|x a IH]; intros [|y b]; simpl; try discriminate; auto. intros H. apply andb_prop in H. destruct H as [H1 H2].
  apply Pos.eqb_eq in H1. f_equal; auto.
Qed.
Lemma peqb_ok : forall p q, peqb p q = true -> p = q.
Proof.
  induction p as [|[m c] p IH]; intros [|[n d] q]; simpl; try discriminate; auto.
  intros H. apply andb_prop in H. destruct H as [H H3]. apply andb_prop in H. destruct H as [H1 H2].
  apply monob_ok in H1. apply qeqb_ok in H2. apply IH in H3. subst. auto.
Qed.

Lemma square_ok : forall n m, (length m <= n)%nat -> square m = true -> 0 <= mv m.
Proof.
  induction n; intros m L H.
  - destruct m; [|simpl in L; lia]. simpl. lra.
  - destruct m as [|x m]; [simpl; lra|]. cbn [square] in H. destruct (idem x) eqn:I.
    + cbn [mv]. assert (0 <= mv m) by (apply IHn; auto; simpl in L; lia). apply idem_ok in I.
      assert (0 <= rho x) by nra. apply Rmult_le_pos; auto.
    + destruct m as [|y m]; try discriminate. apply andb_prop in H. destruct H as [H1 H2]. apply Pos.eqb_eq in H1. subst y.
      cbn [mv]. assert (0 <= mv m) by (apply IHn; auto; simpl in L; lia).
      replace (rho x * (rho x * mv m)) with (rho x * rho x * mv m) by ring. apply Rmult_le_pos; auto. apply Rle_0_sqr.
Qed.
Lemma squares_ok : forall p, squares p = true -> 0 <= pv p.
Proof.
  induction p as [|[m c] p IH]; simpl; intros H; [lra|]. apply andb_prop in H. destruct H as [H H2].
  apply andb_prop in H. destruct H as [H H1]. apply negb_true_iff in H. apply qneg_no in H. apply (square_ok _ _ (le_n _)) in H1. apply IH in H2.
  assert (0 <= Q2R c * mv m) by (apply Rmult_le_pos; auto). lra.
Qed.
Lemma pick_ok : forall p x c, pick p = Some (x, c) -> 0 <= Q2R c.
Proof.
  induction p as [|[m d] p IH]; [discriminate|]. intros x c H. cbn [pick] in H.
  destruct m as [|a [|b [|e m]]]; eauto. destruct (Pos.eqb a b && negb (idem a) && negb (qneg d)) eqn:E; eauto.
  inversion H; subst. apply andb_prop in E. destruct E as [_ E]. apply negb_true_iff in E. apply qneg_no. auto.
Qed.
Lemma nonneg_n_ok : forall n p, nonneg_n n p = true -> 0 <= pv p.
Proof.
  induction n; intros p H; cbn [nonneg_n] in H; apply orb_prop in H; destruct H as [H|H]; try (apply squares_ok; auto; fail); try discriminate.
  destruct (pick p) as [[x c]|] eqn:E; try discriminate. apply pick_ok in E. apply IHn in H.
  rewrite psub_ok, pscale_ok, pmul_ok in H.
  set (q := pv (padd (patom x) (pscale (qmul (1 # 2) (qinv c)) (linear x p)))) in *.
  assert (0 <= Q2R c * (q * q)) by (apply Rmult_le_pos; auto; apply Rle_0_sqr). lra.
Qed.
Lemma ltconst_ok : forall p b, ltconst p = Some b -> Rltb (pv p) 0 = b.
Proof.
  intros p b H. unfold ltconst in H. destruct (isconst p) as [c|] eqn:E.
  - inversion H; subst. apply isconst_ok in E. rewrite E. destruct (qneg c) eqn:N.
    + apply Rltb_true. apply qneg_ok. auto.
    + apply Rltb_false. apply qneg_no. auto.
  - destruct (nonneg p) eqn:N; inversion H; subst. apply Rltb_false. apply (nonneg_n_ok _ _ N).
Qed.

Lemma lead_nz : forall p, q0 (lead p) = false.
Proof. intros [|[m c] p]; simpl; auto. destruct (q0 c) eqn:E; auto. Qed.
Lemma monic_ok : forall p, pv (monic p) = pv p / Q2R (lead p).
Proof. intros. unfold monic. rewrite pscale_ok, qinv_ok by apply lead_nz. unfold Rdiv. ring. Qed.
Lemma monic_back : forall p, pv p = Q2R (lead p) * pv (monic p).
Proof. intros. rewrite monic_ok. field. apply q0_no. apply lead_nz. Qed.
Lemma monic_eq0 : forall p, Reqb (pv (monic p)) 0 = Reqb (pv p) 0.
Proof.
  intros. pose proof (monic_back p) as B. pose proof (q0_no _ (lead_nz p)) as N.
  destruct (Reqb (pv p) 0) eqn:E.
  - apply Reqb_true in E. apply Reqb_true. rewrite E in B. symmetry in B. apply Rmult_integral in B. destruct B; [contradiction|auto].
  - apply Reqb_false in E. apply Reqb_false. intros F. apply E. rewrite B, F. lra.
Qed.
Lemma monic_lt0 : forall p, qneg (lead p) = false -> Rltb (pv (monic p)) 0 = Rltb (pv p) 0.
Proof.
  intros. pose proof (monic_back p) as B. pose proof (q0_no _ (lead_nz p)) as N. apply qneg_no in H.
  assert (0 < Q2R (lead p)) by lra.
  destruct (Rltb (pv p) 0) eqn:E.
  - apply Rltb_true in E. apply Rltb_true. rewrite B in E. nra.
  - apply Rltb_false in E. apply Rltb_false. rewrite B in E. nra.
Qed.
Lemma monic_gt0 : forall p, qneg (lead p) = true ->
  chi (Rltb (pv p) 0) = 1 - chi (Rltb (pv (monic p)) 0) - chi (Reqb (pv (monic p)) 0).
Proof.
  intros. pose proof (monic_back p) as B. apply qneg_ok in H. set (x := pv (monic p)) in *. set (l := Q2R (lead p)) in *.
  rewrite B. destruct (Rtotal_order x 0) as [X|[X|X]].
  - rewrite (proj2 (Rltb_true x 0) X), (proj2 (Reqb_false x 0)), (proj2 (Rltb_false (l * x) 0)); simpl; nra.
  - rewrite X, Rmult_0_r, (proj2 (Reqb_true 0 0)), (proj2 (Rltb_false 0 0)); simpl; lra.
  - rewrite (proj2 (Rltb_false x 0)), (proj2 (Reqb_false x 0)), (proj2 (Rltb_true (l * x) 0)); simpl; nra.
Qed.
End Val.

(** ** Tables *)

Section Tab.
Variables (af : nat -> R) (ai : nat -> Z) (ab : nat -> bool).

Definition kv (rho : positive -> R) (a : key) : R :=
  match a with
  | KVar n => af n
  | KIVar n => IZR (ai n)
  | KBVar n => chi (ab n)
  | KPi => PI
  | KCoarse => 0
  | KOp1 o p => R_op1 o (pv rho p)
  | KOp2 o p q => R_op2 o (pv rho p) (pv rho q)
  | KLt p => chi (Rltb (pv rho p) 0)
  | KEq p => chi (Reqb (pv rho p) 0)
  end.
Fixpoint agrees (rho : positive -> R) (t : table) : Prop :=
  match t with [] => True | a :: t' => rho (number a t') = kv rho a /\ agrees rho t' end.
Definition fair (rho : positive -> R) (t : table) : Prop := good rho /\ agrees rho t.

Lemma op1_eqb_ok : forall a b, op1_eqb a b = true -> a = b.
Proof. exact op1_eqb_eq. Qed.
Lemma keqb_ok : forall a b, keqb a b = true -> a = b.
Proof.
  intros [] []; simpl; try discriminate; auto; intros H;
    repeat match goal with J : _ && _ = true |- _ => apply andb_prop in J; destruct J end;
    repeat match goal with
           | J : Nat.eqb _ _ = true |- _ => apply Nat.eqb_eq in J
           | J : peqb _ _ = true |- _ => apply peqb_ok in J
           | J : op1_eqb _ _ = true |- _ => apply op1_eqb_eq in J
           | J : op2_eqb _ _ = true |- _ => apply op2_eqb_eq in J
           end; subst; auto.
Qed.
Lemma find_ok : forall a t x rho, find a t = Some x -> agrees rho t -> rho x = kv rho a.
Proof.
  induction t as [|b t IH]; simpl; intros x rho H A; try discriminate. destruct A as [A1 A2].
  destruct (keqb a b) eqn:E; auto. apply keqb_ok in E. subst b. inversion H; subst. auto.
Qed.

(** what a table operation guarantees: the new table extends the old one, and [Q] *)
Definition gives {X} (r : X * table) (t : table) (Q : (positive -> R) -> X -> Prop) : Prop :=
  forall rho, fair rho (snd r) -> fair rho t /\ Q rho (fst r).

Lemma gives_ret : forall X (x : X) t (Q : _ -> _ -> Prop), (forall rho, fair rho t -> Q rho x) -> gives (x, t) t Q.
Proof. intros X x t Q H rho F. split; auto. Qed.
Lemma gives_let : forall X Y (r : X * table) t (f : X -> table -> Y * table) (P : _ -> X -> Prop) (Q : _ -> Y -> Prop),
  gives r t P -> (forall x t', (forall rho, fair rho t' -> fair rho t /\ P rho x) -> gives (f x t') t' Q) ->
  gives (let (x, t') := r in f x t') t Q.
Proof.
  intros X Y [x t'] t f P Q H1 H2 rho F. simpl in *. destruct (H2 x t' H1 rho F) as [F' HQ].
  destruct (H1 rho F') as [F'' _]. auto.
Qed.
Lemma gives_weak : forall X (r : X * table) t (P Q : _ -> X -> Prop), gives r t P ->
  (forall rho x, fair rho t -> P rho x -> Q rho x) -> gives r t Q.
Proof. intros X r t P Q H1 H2 rho F. destruct (H1 rho F). auto. Qed.

Lemma atom_ok : forall a t, gives (atom a t) t (fun rho p => pv rho p = kv rho a).
Proof.
  intros a t rho. unfold atom. destruct (find a t) as [x|] eqn:E; simpl fst; simpl snd.
  - intros F. split; auto. rewrite patom_ok. destruct F. eapply find_ok; eauto.
  - intros [F1 [F2 F3]]. split; [split; auto|]. rewrite patom_ok. auto.
Qed.

(** ** Conditions *)

Definition fok (rho : positive -> R) (f : cform) (b : bool) : Prop :=
  match f with
  | FLt p => Rltb (pv rho p) 0 = b
  | FGe p => Rltb (pv rho p) 0 = negb b
  | FP q => pv rho q = chi b
  end.
Lemma lt0_ok : forall p t, gives (lt0 p t) t (fun rho q => pv rho q = chi (Rltb (pv rho p) 0)).
Proof.
  intros p t. unfold lt0. destruct (ltconst p) as [b|] eqn:E.
  - apply gives_ret. intros rho [F _]. rewrite (ltconst_ok rho F _ _ E). destruct b; [apply one_ok|reflexivity].
  - destruct (qneg (lead p)) eqn:N.
    + eapply gives_let; [apply atom_ok|]. intros a t1 H1. eapply gives_let; [apply atom_ok|]. intros b t2 H2. apply gives_ret.
      intros rho F. destruct (H2 rho F) as [F1 E2]. destruct (H1 rho F1) as [_ E1]. simpl in E1, E2.
      rewrite !psub_ok, one_ok, E1, E2. symmetry. apply monic_gt0. auto.
    + eapply gives_weak; [apply atom_ok|]. simpl. intros rho x _ ->. rewrite monic_lt0; auto.
Qed.
Lemma eq0_ok : forall p t, gives (eq0 p t) t (fun rho q => pv rho q = chi (Reqb (pv rho p) 0)).
Proof.
  intros p t. unfold eq0. destruct (isconst p) as [c|] eqn:E.
  - apply gives_ret. intros rho F. rewrite (isconst_ok rho _ _ E). destruct (q0 c) eqn:Z.
    + rewrite one_ok, (q0_ok _ Z). rewrite (proj2 (Reqb_true 0 0) eq_refl). auto.
    + rewrite (proj2 (Reqb_false (Q2R c) 0) (q0_no _ Z)). auto.
  - eapply gives_weak; [apply atom_ok|]. simpl. intros rho x _ ->. rewrite monic_eq0; auto.
Qed.
Lemma fpoly_ok : forall f t, gives (fpoly f t) t (fun rho q => forall b, fok rho f b -> pv rho q = chi b).
Proof.
  intros [p|p|q] t; simpl.
  - eapply gives_weak; [apply lt0_ok|]. simpl. intros rho x _ -> b <-. auto.
  - eapply gives_let; [apply lt0_ok|]. intros q t1 H. apply gives_ret. intros rho F b E.
    rewrite psub_ok, one_ok. destruct (H rho F) as [_ ->]. rewrite E. destruct b; simpl; lra.
  - apply gives_ret. auto.
Qed.
Lemma fnot_ok : forall rho f b, fok rho f b -> fok rho (fnot f) (negb b).
Proof.
  intros rho [p|p|q] b; simpl; intros H.
  - rewrite negb_involutive. auto.
  - auto.
  - rewrite psub_ok, one_ok, H. destruct b; simpl; lra.
Qed.
Definition ite (b : bool) (x y : R) : R := if b then x else y.
Lemma ite_chi : forall b x y, ite b x y = y + chi b * (x - y).
Proof. intros [] x y; simpl; lra. Qed.
Lemma itelt_ok : forall p x y t, gives (itelt p x y t) t (fun rho q => pv rho q = ite (Rltb (pv rho p) 0) (pv rho x) (pv rho y)).
Proof.
  intros p x y t. unfold itelt. destruct (ltconst p) as [b|] eqn:E.
  - apply gives_ret. intros rho [F _]. rewrite (ltconst_ok rho F _ _ E). destruct b; auto.
  - destruct (qneg (lead p) && match psub x y with [] => true | _ => peqb (monic (psub x y)) (monic p) end) eqn:C.
    + apply andb_prop in C. destruct C as [N C].
      eapply gives_let; [apply atom_ok|]. intros a t1 H1. apply gives_ret. intros rho F. destruct (H1 rho F) as [_ E1]. simpl in E1.
      rewrite padd_ok, (pmul_ok rho (proj1 F)), !psub_ok, one_ok, E1, ite_chi, (monic_gt0 rho p N).
      assert (D : pv rho (monic p) = 0 -> pv rho x - pv rho y = 0).
      { intros Z. rewrite <- psub_ok. destruct (psub x y) as [|u d]; [reflexivity|]. apply peqb_ok in C.
        rewrite (monic_back rho (u :: d)), C, Z. lra. }
      destruct (Reqb (pv rho (monic p)) 0) eqn:Q.
      * apply Reqb_true in Q. rewrite (D Q). lra.
      * simpl. lra.
    + eapply gives_let; [apply lt0_ok|]. intros a t1 H1. apply gives_ret. intros rho F. destruct (H1 rho F) as [_ E1].
      rewrite padd_ok, (pmul_ok rho (proj1 F)), psub_ok, E1, ite_chi. auto.
Qed.
Lemma fite_ok : forall f x y t, gives (fite f x y t) t (fun rho q => forall b, fok rho f b -> pv rho q = ite b (pv rho x) (pv rho y)).
Proof.
  intros [p|p|q] x y t; simpl.
  - eapply gives_weak; [apply itelt_ok|]. simpl. intros rho r _ -> b <-. auto.
  - eapply gives_weak; [apply itelt_ok|]. simpl. intros rho r _ -> b ->. destruct b; auto.
  - apply gives_ret. intros rho F b E. rewrite padd_ok, (pmul_ok rho (proj1 F)), psub_ok, E, ite_chi. auto.
Qed.
Lemma Rltb_sub : forall x y, Rltb (x - y) 0 = Rltb x y.
Proof. intros. destruct (Rltb x y) eqn:E; [apply Rltb_true in E; apply Rltb_true | apply Rltb_false in E; apply Rltb_false]; lra. Qed.
Lemma Rleb_neg : forall x y, negb (Rleb x y) = Rltb y x.
Proof. intros. destruct (Rleb x y) eqn:E; simpl; symmetry; [apply Rleb_true in E; apply Rltb_false | apply Rleb_false in E; apply Rltb_true]; lra. Qed.
Lemma Reqb_sub : forall x y, Reqb (x - y) 0 = Reqb x y.
Proof. intros. destruct (Reqb x y) eqn:E; [apply Reqb_true in E; apply Reqb_true | apply Reqb_false in E; apply Reqb_false]; lra. Qed.
Lemma fcmp_ok : forall c p q t, gives (fcmp c p q t) t (fun rho f => fok rho f (R_cmp c (pv rho p) (pv rho q))).
Proof.
  intros c p q t. destruct c; simpl.
  1-4: apply gives_ret; intros rho F; simpl; rewrite ?Rleb_neg, psub_ok, Rltb_sub; auto.
  - eapply gives_let; [apply eq0_ok|]. intros a t1 H. apply gives_ret. intros rho F. simpl. rewrite (proj2 (H rho F)), psub_ok, Reqb_sub. auto.
  - eapply gives_let; [apply eq0_ok|]. intros a t1 H. apply gives_ret. intros rho F. simpl.
    rewrite psub_ok, one_ok, (proj2 (H rho F)), psub_ok, Reqb_sub. destruct (Reqb (pv rho p) (pv rho q)); simpl; lra.
Qed.

(** ** Operations *)

Lemma inv_ok : forall p t, gives (inv p t) t (fun rho q => pv rho q = / pv rho p).
Proof.
  intros p t. unfold inv. destruct (isconst p) as [c|] eqn:E.
  - destruct (q0 c) eqn:Z.
    + eapply gives_weak; [apply atom_ok|]. simpl. auto.
    + apply gives_ret. intros rho F. rewrite pconst_ok, qinv_ok, (isconst_ok rho _ _ E); auto.
  - eapply gives_let; [apply atom_ok|]. intros a t1 H. apply gives_ret. intros rho F.
    rewrite pscale_ok, (proj2 (H rho F)). simpl. rewrite qinv_ok by apply lead_nz.
    rewrite (monic_back rho p), Rinv_mult. auto.
Qed.
Lemma nthkey_ok : forall x t a rho, nthkey x t = Some a -> agrees rho t -> rho x = kv rho a.
Proof.
  induction t as [|b t IH]; simpl; intros a rho H A; try discriminate. destruct A as [A1 A2].
  destruct (Pos.eqb x (number b t)) eqn:E; auto. apply Pos.eqb_eq in E. inversion H; subst. auto.
Qed.
Lemma newton_ok : forall p q t rho, newton p q t = true -> fair rho t -> pv rho p * pv rho q = pv rho p.
Proof.
  intros p q t rho H [G F]. unfold newton in H. destruct p as [|[[|x [|]] c] [|]]; try discriminate.
  destruct q as [|[[|] d] q']; try discriminate. destruct (qeqb d 2); try discriminate. remember (([], d) :: q') as q eqn:Eq. clear Eq.
  destruct (nthkey x t) as [a|] eqn:E; try discriminate. apply (nthkey_ok _ _ _ rho) in E; auto.
  destruct a; try discriminate. destruct o; try discriminate. apply peqb_ok in H. rewrite H. simpl in E.
  rewrite psub_ok, (pmul_ok rho G), pconst_ok, patom_ok. simpl. rewrite E. unfold Q2R. simpl.
  destruct (Req_dec (pv rho p) 0) as [Z|Z].
  - rewrite Z, Rinv_0. lra.
  - field. auto.
Qed.
Lemma nmul_ok : forall p q t, gives (nmul p q t) t (fun rho r => pv rho r = pv rho p * pv rho q).
Proof.
  intros p q t. unfold nmul. destruct (newton p q t) eqn:E1; [apply gives_ret; intros; symmetry; eapply newton_ok; eauto|].
  destruct (newton q p t) eqn:E2; [apply gives_ret; intros; rewrite Rmult_comm; symmetry; eapply newton_ok; eauto|].
  destruct (negb (small p q) && coarse t).
  - destruct (pleb p q); (eapply gives_weak; [apply atom_ok|]); simpl; auto. intros rho r _ ->. apply Rmult_comm.
  - apply gives_ret. intros rho F. apply pmul_ok. apply F.
Qed.
Lemma nop1_ok : forall o p t, gives (nop1 o p t) t (fun rho q => pv rho q = R_op1 o (pv rho p)).
Proof.
  intros o p t. destruct o; simpl; try (eapply gives_weak; [apply atom_ok|]; simpl; auto; fail).
  - apply gives_ret. intros. apply popp_ok.
  - eapply gives_weak; [apply itelt_ok|]. simpl. intros rho q _ ->. rewrite popp_ok. unfold Rabs, Rltb.
    destruct (Rlt_dec (pv rho p) 0), (Rcase_abs (pv rho p)); simpl; lra.
  - apply inv_ok.
Qed.
Lemma nop2_ok : forall o p q t, gives (nop2 o p q t) t (fun rho r => pv rho r = R_op2 o (pv rho p) (pv rho q)).
Proof.
  assert (MIN : forall p q t, gives (itelt (psub p q) p q t) t (fun rho r => pv rho r = Rmin (pv rho p) (pv rho q))).
  { intros. eapply gives_weak; [apply itelt_ok|]. simpl. intros rho r _ ->. rewrite psub_ok, Rltb_sub. unfold Rmin, Rltb.
    destruct (Rlt_dec (pv rho p) (pv rho q)), (Rle_dec (pv rho p) (pv rho q)); simpl; lra. }
  intros o p q t. destruct o; simpl; try (eapply gives_weak; [apply atom_ok|]; simpl; auto; fail); auto.
  - apply gives_ret. intros. apply padd_ok.
  - apply gives_ret. intros. apply psub_ok.
  - apply nmul_ok.
  - eapply gives_let; [apply inv_ok|]. intros i t1 H. apply gives_ret. intros rho F. rewrite (pmul_ok rho (proj1 F)), (proj2 (H rho F)). auto.
  - eapply gives_weak; [apply itelt_ok|]. simpl. intros rho r _ ->. rewrite psub_ok, Rltb_sub. unfold Rmax, Rltb.
    destruct (Rlt_dec (pv rho q) (pv rho p)), (Rle_dec (pv rho p) (pv rho q)); simpl; lra.
Qed.
Lemma neg_eq0 : forall rho q e, pv rho e = chi (Reqb (pv rho q) 0) -> fok rho (FP (psub one e)) (negb (Reqb (pv rho q) 0)).
Proof. intros rho q e H. simpl. rewrite psub_ok, one_ok, H. destruct (Reqb (pv rho q) 0); simpl; lra. Qed.
Lemma nok1_ok : forall o p t, gives (nok1 o p t) t (fun rho f => fok rho f (R_ok1 o (pv rho p))).
Proof.
  assert (T1 : forall t, gives (FP one, t) t (fun rho f => fok rho f true)).
  { intros. apply gives_ret. intros. apply one_ok. }
  assert (AS : forall p t, gives (let (a, t1) := lt0 (padd p one) t in let (b, t2) := lt0 (psub one p) t1 in
    (FP (pmul (psub one a) (psub one b)), t2)) t (fun rho f => fok rho f (Rleb (-1) (pv rho p) && Rleb (pv rho p) 1))).
  { intros. eapply gives_let; [apply lt0_ok|]. intros a t1 H1. eapply gives_let; [apply lt0_ok|]. intros b t2 H2. apply gives_ret.
    intros rho F. destruct (H2 rho F) as [F1 E2]. destruct (H1 rho F1) as [_ E1]. rewrite padd_ok, one_ok in E1. rewrite psub_ok, one_ok in E2.
    simpl. rewrite (pmul_ok rho (proj1 F)), !psub_ok, one_ok, E1, E2, Rltb_sub.
    replace (pv rho p + 1) with (pv rho p - -1) by ring. rewrite Rltb_sub, <- !Rleb_neg.
    destruct (Rleb (-1) (pv rho p)), (Rleb (pv rho p) 1); simpl; lra. }
  intros o p t. destruct o; simpl; auto.
  - apply gives_ret. intros rho F. simpl. rewrite Rleb_neg. auto.
  - eapply gives_let; [apply atom_ok|]. intros a t1 H1. eapply gives_let; [apply eq0_ok|]. intros b t2 H2. apply gives_ret.
    intros rho F. destruct (H2 rho F) as [F1 E2]. destruct (H1 rho F1) as [_ E1]. simpl in E1. rewrite <- E1. apply neg_eq0. auto.
  - eapply gives_let; [apply eq0_ok|]. intros b t2 H2. apply gives_ret. intros rho F. destruct (H2 rho F) as [F1 E2]. apply neg_eq0. auto.
Qed.
Lemma nok2_ok : forall o p q t, gives (nok2 o p q t) t (fun rho f => fok rho f (R_ok2 o (pv rho p) (pv rho q))).
Proof.
  assert (T1 : forall t, gives (FP one, t) t (fun rho f => fok rho f true)).
  { intros. apply gives_ret. intros. apply one_ok. }
  assert (NZ : forall q t, gives (let (e, t1) := eq0 q t in (FP (psub one e), t1)) t (fun rho f => fok rho f (negb (Reqb (pv rho q) 0)))).
  { intros. eapply gives_let; [apply eq0_ok|]. intros b t2 H2. apply gives_ret. intros rho F. destruct (H2 rho F) as [F1 E2]. apply neg_eq0. auto. }
  intros o p q t. destruct o; simpl; auto.
  apply gives_ret. intros rho F. simpl. rewrite popp_ok.
  destruct (Rltb 0 (pv rho p)) eqn:E; [apply Rltb_true in E; apply Rltb_true | apply Rltb_false in E; apply Rltb_false]; lra.
Qed.
End Tab.

(** ** Expressions *)

Section Side.
Variable A : asg R.
Variables (af : nat -> R) (k : nat).
Hypothesis Haf : forall n, (n < k)%nat -> a_f A n = af n.
Notation fair := (fair af (a_i A) (a_b A)).
Notation fd := (fden RS A).
Notation bd := (bden RS A).
Notation zd := (iden RS A).

(** the normal forms of the let-bound variables *)
Definition wok (w : list poly) (rho : positive -> R) : Prop :=
  forall i p, nth_error w i = Some p -> pv rho p = a_f A (k + i).

Section W.
Variable W : (positive -> R) -> Prop.
Definition okN {X} (m : N X) (Q : (positive -> R) -> X -> Prop) : Prop :=
  forall t x t', m t = Some (x, t') -> forall rho, fair rho t' -> fair rho t /\ (W rho -> Q rho x).

Lemma okN_ret : forall X (x : X) (Q : _ -> _ -> Prop), (forall rho, good rho -> W rho -> Q rho x) -> okN (nret x) Q.
Proof. intros X x Q H t y t' E rho F. inversion E; subst. split; auto. intros. apply H; auto. apply F. Qed.
Lemma okN_fail : forall X (Q : _ -> X -> Prop), okN nfail Q.
Proof. intros X Q t x t' E. discriminate. Qed.
Lemma okN_lift : forall X (f : table -> X * table) (Q : _ -> _ -> Prop),
  (forall t, gives af (a_i A) (a_b A) (f t) t Q) -> okN (nlift f) Q.
Proof. intros X f Q H t x t' E rho F. inversion E as [E1]. specialize (H t rho). rewrite E1 in H. destruct (H F). auto. Qed.
Lemma okN_bind : forall X Y (m : N X) (f : X -> N Y) (P : _ -> X -> Prop) (Q : _ -> Y -> Prop),
  okN m P -> (forall x, okN (f x) (fun rho y => P rho x -> Q rho y)) -> okN (nbind m f) Q.
Proof.
  intros X Y m f P Q H1 H2 t y t' E rho F. unfold nbind in E. destruct (m t) as [[x t1]|] eqn:E1; try discriminate.
  destruct (H2 x t1 y t' E rho F) as [F1 HQ]. destruct (H1 t x t1 E1 rho F1) as [F2 HP]. split; auto.
Qed.
Lemma okN_weak : forall X (m : N X) (P Q : _ -> X -> Prop), okN m P -> (forall rho x, good rho -> W rho -> P rho x -> Q rho x) -> okN m Q.
Proof. intros X m P Q H1 H2 t x t' E rho F. destruct (H1 t x t' E rho F). split; auto. intros. apply H2; auto. apply F. Qed.
End W.

Ltac step H := eapply okN_bind; [apply H|]; intros ? .
Ltac lft H := apply okN_lift; intros ?; eapply gives_weak; [apply H|]; cbv beta; cbn [kv]; intros.
Ltac fin := repeat match goal with H : pv _ ?x = _ |- context[pv _ ?x] => rewrite H; clear H end; auto.
Ltac use := match goal with H : forall b, fok _ ?f b -> _, F : fok _ ?f _ |- _ => rewrite (H _ F); clear H end.

Lemma norm_ok : forall w,
  (forall e, okN (wok w) (nS k w e) (fun rho p => pv rho p = fd e)) /\
  (forall e, okN (wok w) (nB k w e) (fun rho f => fok rho f (bd e))) /\
  (forall e, okN (wok w) (nI k w e) (fun rho p => pv rho p = IZR (zd e))).
Proof.
  intros w. apply sbi_ind; cbn [nS nB nI fden bden iden].
  - (* SVar *) intros n. destruct (Nat.ltb n k) eqn:E.
    + apply Nat.ltb_lt in E. lft atom_ok. rewrite Haf; auto.
    + apply Nat.ltb_ge in E. destruct (nth_error w (n - k)) as [p|] eqn:Ew; [|apply okN_fail].
      apply okN_ret. intros rho _ HW. rewrite (HW _ _ Ew). replace (k + (n - k))%nat with n by lia. reflexivity.
  - (* SLit *) intros n d. apply okN_ret. intros. rewrite pconst_ok. apply qlit_ok.
  - (* SPi *) intros n d. eapply okN_bind; [apply okN_lift; intros; apply atom_ok|]. intros a. apply okN_ret.
    intros rho _ _ E. rewrite pscale_ok, E, (Qeq_eqR _ _ (Qred_correct _)). unfold Q2R. simpl. unfold Rdiv. ring.
  - (* SOp1 *) intros o a IH. step IH. lft nop1_ok. fin.
  - (* SOp2 *) intros o a IHa b IHb. step IHa. step IHb. lft nop2_ok. fin.
  - (* SFma *) intros a IHa b IHb c IHc. step IHa. step IHb. step IHc. eapply okN_bind; [apply okN_lift; intros; apply nmul_ok|].
    intros s. apply okN_ret. intros rho G _ E1 E2 E3 E4. rewrite padd_ok. fin.
  - (* SIte *) intros c IHc a IHa b IHb. step IHc. step IHa. step IHb. lft fite_ok. use. fin; destruct (bd c); auto.
  - (* SOfZ *) intros i IH. apply IH.
  - (* BLit *) intros b. apply okN_ret. intros. simpl. destruct b; [apply one_ok|reflexivity].
  - (* BVar *) intros n. eapply okN_bind; [apply okN_lift; intros; apply atom_ok|]. intros a. apply okN_ret. simpl. auto.
  - (* BCmpF *) intros c a IHa b IHb. step IHa. step IHb. lft fcmp_ok. match goal with H : fok _ _ _ |- _ => revert H end. fin.
  - (* BTest *) intros t a IH. apply okN_ret. intros. reflexivity.
  - (* BCmpI *) intros c a IHa b IHb. step IHa. step IHb. lft fcmp_ok. match goal with H : fok _ _ _ |- _ => revert H end. fin. intros H0.
    assert (E : R_cmp c (IZR (zd a)) (IZR (zd b)) = icmp c (zd a) (zd b)).
    { clear. assert (L : forall x y, Rltb (IZR x) (IZR y) = Z.ltb x y).
      { intros. destruct (Z.ltb x y) eqn:E; [apply Z.ltb_lt in E; apply Rltb_true; apply IZR_lt; auto | apply Z.ltb_ge in E; apply Rltb_false; apply IZR_le; auto]. }
      assert (LE : forall x y, Rleb (IZR x) (IZR y) = Z.leb x y).
      { intros. destruct (Z.leb x y) eqn:E; [apply Z.leb_le in E; apply Rleb_true; apply IZR_le; auto | apply Z.leb_gt in E; apply Rleb_false; apply IZR_lt; auto]. }
      assert (Q : forall x y, Reqb (IZR x) (IZR y) = Z.eqb x y).
      { intros. destruct (Z.eqb x y) eqn:E; [apply Z.eqb_eq in E; apply Reqb_true; congruence | apply Z.eqb_neq in E; apply Reqb_false; intros F; apply E; apply eq_IZR; auto]. }
      destruct c; simpl; rewrite ?L, ?LE, ?Q; auto. }
    match goal with |- fok ?r ?f _ => change (fok r f (icmp c (zd a) (zd b))) end. rewrite <- E. exact H0.
  - (* BNot *) intros a IH. step IH. apply okN_ret. intros. apply fnot_ok. auto.
  - (* BIte *) intros c IHc a IHa b IHb. step IHc. step IHa. eapply okN_bind; [apply okN_lift; intros; apply fpoly_ok|]. intros p.
    step IHb. eapply okN_bind; [apply okN_lift; intros; apply fpoly_ok|]. intros q.
    eapply okN_bind; [apply okN_lift; intros; apply fite_ok|]. intros r. apply okN_ret. simpl. intros.
    use. repeat use. destruct (bd c); auto.
  - (* BOk1 *) intros o a IH. step IH. lft nok1_ok. match goal with H : fok _ _ _ |- _ => revert H end. fin.
  - (* BOk2 *) intros o a IHa b IHb. step IHa. step IHb. lft nok2_ok. match goal with H : fok _ _ _ |- _ => revert H end. fin.
  - (* BIn *) intros i IH. apply okN_fail.
  - (* ILit *) intros z. apply okN_ret. intros. rewrite pconst_ok. unfold Q2R. simpl. rewrite Rinv_1. lra.
  - (* IVar *) intros n. lft atom_ok. auto.
  - (* IOp *) intros o a IHa b IHb. destruct o; try apply okN_fail; step IHa; step IHb; apply okN_ret; intros rho G _ E1 E2; simpl.
    + rewrite padd_ok, plus_IZR. fin.
    + rewrite psub_ok, minus_IZR. fin.
    + rewrite (pmul_ok rho G), mult_IZR. fin.
  - (* INeg *) intros a IH. step IH. apply okN_ret. intros rho _ _ E. rewrite popp_ok, opp_IZR. fin.
  - (* IAbs *) intros a IH. step IH. lft (nop1_ok af (a_i A) (a_b A) OAbs). rewrite abs_IZR. fin.
  - (* IOfB *) intros b IH. step IH. lft fpoly_ok. use. match goal with |- ?l = _ => change (l = IZR (b2z (bd b))) end. destruct (bd b); reflexivity.
  - (* IIte *) intros c IHc a IHa b IHb. step IHc. step IHa. step IHb. lft fite_ok. use. fin.
    match goal with |- ?l = _ => change (l = IZR (if bd c then zd a else zd b)) end. destruct (bd c); auto.
Qed.
End Side.

(** ** Outcomes *)

Section Out.
Variable A : asg R.
Variables (af : nat -> R) (k : nat).
Hypothesis Haf : forall n, (n < k)%nat -> a_f A n = af n.
Variables (pi : list (nat * Z)) (L : nat).
Notation okN := (okN A af).
Notation wok := (wok A k).
Notation cd := (cden RS A pi L).

Lemma okN_pre : forall X (W W2 : (positive -> R) -> Prop) (m : N X) (P : _ -> Prop) (Q : _ -> _ -> Prop),
  okN W2 m Q -> (forall rho, W rho -> P rho -> W2 rho) -> okN W m (fun rho y => P rho -> Q rho y).
Proof. intros X W W2 m P Q H1 H2 t x t' E rho F. destruct (H1 t x t' E rho F). split; auto. Qed.

Lemma nbinds_ok : forall l w, scoped (k + length w) l = true ->
  okN (fun rho => wok w rho /\ sat RS A l) (nbinds k w l) (fun rho w' => wok w' rho).
Proof.
  induction l as [|[n s] l IH]; intros w HS.
  - simpl. apply okN_ret. tauto.
  - simpl in HS. apply andb_prop in HS. destruct HS as [HS HS2]. apply andb_prop in HS. destruct HS as [HS1 HS].
    apply Nat.eqb_eq in HS1. subst n. cbn [nbinds].
    eapply okN_bind.
    + intros t x t' E rho F. destruct (proj1 (norm_ok A af k Haf w) s t x t' E rho F) as [F' HQ]. split; auto.
      intros [HW _]. exact (HQ HW).
    + intros p. cbv beta. eapply okN_pre; [apply IH|].
      * rewrite app_length. simpl. replace (k + (length w + 1))%nat with (Datatypes.S (k + length w)) by lia. auto.
      * intros rho [HW HS'] HP. inversion HS' as [|? ? E1 E2]; subst. simpl in E1. split; auto.
        intros i q Hq. destruct (Nat.lt_ge_cases i (length w)) as [Hl|Hl].
        -- rewrite nth_error_app1 in Hq by auto. apply HW. auto.
        -- rewrite nth_error_app2 in Hq by auto. destruct (i - length w)%nat as [|j] eqn:Ej; simpl in Hq.
           ++ inversion Hq; subst. rewrite HP. replace (k + i)%nat with (k + length w)%nat by lia. auto.
           ++ destruct j; discriminate.
Qed.

Fixpoint pcok (rho : positive -> R) (p : pcell) (c : cell R) : Prop :=
  match p with
  | PKU => c = CU
  | PKF p => c = CF (pv rho p)
  | PKI p => exists z, c = CI z /\ IZR z = pv rho p
  | PKP b o => c = CP (fst (SymSound.pden pi L b)) (snd (SymSound.pden pi L b) + o)
  | PKOpq n => c = a_c A n
  | PKIte q x y => exists b, pv rho q = chi b /\ pcok rho (if b then x else y) c
  end.
Definition pvok (rho : positive -> R) (p : pval) (v : value R) : Prop :=
  match p with
  | QVoid => v = VVoid
  | QF p => v = VF (pv rho p)
  | QI p => exists z, v = VI z /\ IZR z = pv rho p
  | QB q => exists b, v = VB b /\ chi b = pv rho q
  | QA l => exists cs, v = VA cs /\ Forall2 (pcok rho) l cs
  end.
Fixpoint tok (rho : positive -> R) (p : ptree) (t : tree (sval * smem)) : Prop :=
  match p, t with
  | PLeaf v l, TLeaf (v', m) => pvok rho v (vden RS A pi L v') /\ Forall2 (Forall2 (pcok rho)) l (map (map cd) m)
  | PIf q x y, TIf b t u => pv rho q = chi (bden RS A b) /\ tok rho x t /\ tok rho y u
  | PGuard e q x, TGuard e' b t => e = e' /\ pv rho q = chi (bden RS A b) /\ tok rho x t
  | _, _ => False
  end.

Variable w : list poly.
Notation W := (wok w).
Lemma ncond_ok : forall b, okN W (ncond k w b) (fun rho q => pv rho q = chi (bden RS A b)).
Proof.
  intros b. unfold ncond. eapply okN_bind; [apply (proj1 (proj2 (norm_ok A af k Haf w)))|]. intros f.
  apply okN_lift. intros t. eapply gives_weak; [apply fpoly_ok|]. cbv beta. intros rho x _ H1 H2. auto.
Qed.
Lemma ncell_ok : forall c, okN W (ncell k w c) (fun rho p => pcok rho p (cd c)).
Proof.
  induction c as [|s|i|b o|n|g c1 IHc1 c2 IHc2]; cbn [ncell].
  - apply okN_ret. reflexivity.
  - eapply okN_bind; [apply (proj1 (norm_ok A af k Haf w))|]. intros p. apply okN_ret. cbv beta. intros rho _ _ E. cbn [pcok cden]. rewrite E. reflexivity.
  - eapply okN_bind; [apply (proj2 (proj2 (norm_ok A af k Haf w)))|]. intros p. apply okN_ret. cbv beta. intros rho _ _ E. cbn [pcok cden]. eexists. split; [reflexivity|]. auto.
  - apply okN_ret. reflexivity.
  - apply okN_ret. reflexivity.
  - eapply okN_bind; [apply ncond_ok|]. intros q. eapply okN_bind; [apply IHc1|]. intros x. eapply okN_bind; [apply IHc2|]. intros y.
    apply okN_ret. cbv beta. intros rho _ _ H2 H1 H0. cbn [pcok]. exists (bden RS A g). split; auto.
    cbn [cden]. destruct (bden RS A g); auto.
Qed.
Lemma nmap_ok : forall X Y Z (f : X -> N Y) (g : X -> Z) (R : (positive -> R) -> Y -> Z -> Prop),
  (forall x, okN W (f x) (fun rho y => R rho y (g x))) -> forall l, okN W (nmap f l) (fun rho m => Forall2 (R rho) m (map g l)).
Proof.
  intros X Y Z f g R H. induction l; cbn [nmap map].
  - apply okN_ret. constructor.
  - eapply okN_bind; [apply H|]. intros b. eapply okN_bind; [apply IHl|]. intros bs. apply okN_ret. cbv beta. intros. constructor; auto.
Qed.
Lemma nval_ok : forall v, okN W (nval k w v) (fun rho p => pvok rho p (vden RS A pi L v)).
Proof.
  destruct v; cbn [nval]; try apply okN_fail.
  - apply okN_ret. reflexivity.
  - eapply okN_bind; [apply (proj1 (norm_ok A af k Haf w))|]. intros p. apply okN_ret. cbv beta. intros rho _ _ E. cbn [pvok vden]. rewrite E. reflexivity.
  - eapply okN_bind; [apply (proj2 (proj2 (norm_ok A af k Haf w)))|]. intros p. apply okN_ret. cbv beta. intros rho _ _ E. cbn [pvok vden]. eexists. split; [reflexivity|]. auto.
  - eapply okN_bind; [apply ncond_ok|]. intros p. apply okN_ret. cbv beta. intros rho _ _ E. cbn [pvok vden]. eexists. split; [reflexivity|]. auto.
  - eapply okN_bind; [apply (nmap_ok _ _ _ _ cd pcok ncell_ok)|]. intros p. apply okN_ret. cbv beta. intros rho _ _ E. cbn [pvok vden]. eexists. split; [reflexivity|]. auto.
Qed.
Lemma ntree_ok : forall t, okN W (ntree k w t) (fun rho p => tok rho p t).
Proof.
  induction t as [[v m]| |b t IHt u IHu|e b t IHt]; cbn [ntree].
  - eapply okN_bind; [apply nval_ok|]. intros p.
    eapply okN_bind; [apply (nmap_ok _ _ _ _ (map cd) (fun rho => Forall2 (pcok rho)))|].
    { intros. apply (nmap_ok _ _ _ _ cd pcok ncell_ok). }
    intros l. apply okN_ret. cbv beta. intros. cbn [tok]. auto.
  - apply okN_fail.
  - eapply okN_bind; [apply ncond_ok|]. intros q. eapply okN_bind; [apply IHt|]. intros x. eapply okN_bind; [apply IHu|]. intros y.
    apply okN_ret. cbv beta. intros. cbn [tok]. auto.
  - eapply okN_bind; [apply ncond_ok|]. intros q. eapply okN_bind; [apply IHt|]. intros x.
    apply okN_ret. cbv beta. intros. cbn [tok]. auto.
Qed.
End Out.

(** ** Comparison *)

Section Cmp.
Variable rho : positive -> R.
Hypothesis G : good rho.
Definition holds (e : path) : Prop := forall x b, List.In (x, b) e -> rho x = chi b.
Lemma decided_ok : forall e x b, holds e -> decided x e = Some b -> rho x = chi b.
Proof.
  induction e as [|[y c] e IH]; simpl; intros x b H E; try discriminate. destruct (Pos.eqb x y) eqn:Exy.
  - apply Pos.eqb_eq in Exy. inversion E; subst. apply H. left. auto.
  - apply IH; auto. intros z d I. apply H. right. auto.
Qed.
Lemma msubst_ok : forall e m, holds e -> match msubst e m with Some n => mv rho m = mv rho n | None => mv rho m = 0 end.
Proof.
  intros e m H. induction m as [|x m IH]; simpl; auto. destruct (msubst e m) as [n|].
  - destruct (decided x e) as [[]|] eqn:D; simpl.
    + rewrite (decided_ok _ _ _ H D), IH. simpl. lra.
    + rewrite (decided_ok _ _ _ H D). simpl. lra.
    + rewrite IH. auto.
  - rewrite IH. lra.
Qed.
Lemma psubst_ok : forall e p, holds e -> pv rho (psubst e p) = pv rho p.
Proof.
  intros e p H. induction p as [|[m c] p IH]; [reflexivity|]. cbn [psubst]. pose proof (msubst_ok e m H) as M. destruct (msubst e m) as [n|].
  - rewrite padd_ok, IH. simpl. rewrite M. lra.
  - rewrite IH. simpl. rewrite M. lra.
Qed.
Lemma mopen_ok : forall m x, mopen m = Some x -> idem x = true.
Proof. induction m as [|y m IH]; simpl; intros x H; try discriminate. destruct (idem y) eqn:E; auto. inversion H; subst; auto. Qed.
Lemma popen_ok : forall p x, popen p = Some x -> idem x = true.
Proof.
  induction p as [|[m c] p IH]; simpl; intros x H; try discriminate. destruct (mopen m) eqn:E; auto. inversion H; subst. eapply mopen_ok; eauto.
Qed.
Lemma judge_ok : forall e q b, holds e -> pv rho q = chi b ->
  match judge e q with VTrue => b = true | VFalse => b = false | VSplit x => idem x = true | VStuck => True end.
Proof.
  intros e q b H E. rewrite <- (psubst_ok e q H) in E. unfold judge. destruct (psubst e q) as [|[[|x m] c] p]; simpl in E.
  - destruct b; auto. simpl in E. lra.
  - destruct p as [|tm p].
    + destruct (qeqb c 1) eqn:Q; auto. apply qeqb_ok in Q. subst c. simpl in E. rewrite Q2R_one in E. destruct b; auto. simpl in E. lra.
    + match goal with |- context[popen ?z] => destruct (popen z) eqn:P end; auto. eapply popen_ok; eauto.
  - destruct p as [|tm p]; match goal with |- context[popen ?z] => destruct (popen z) eqn:P end; auto; eapply popen_ok; eauto.
Qed.
Lemma peq_ok : forall e p q, holds e -> peq e p q = true -> pv rho p = pv rho q.
Proof.
  intros e p q H E. unfold peq in E. apply orb_prop in E. destruct E as [E|E].
  - apply peqb_ok in E. subst. auto.
  - pose proof (psubst_ok e (psub p q) H) as S. destruct (psubst e (psub p q)); try discriminate. rewrite psub_ok in S. simpl in S. lra.
Qed.

Variables (A B : asg R) (pi : list (nat * Z)) (L : nat).
Hypothesis Hc : a_c A = a_c B.
Lemma pceq_ok : forall e p q a b, holds e -> pceq e p q = true -> pcok A pi L rho p a -> pcok B pi L rho q b -> a = b.
Proof.
  intros e p. induction p; intros q' a b' H E; destruct q'; try discriminate; cbn [pceq pcok] in *; intros PA PB.
  - congruence.
  - apply (peq_ok _ _ _ H) in E. congruence.
  - apply (peq_ok _ _ _ H) in E. destruct PA as (z & -> & Z1). destruct PB as (z' & -> & Z2). f_equal. apply eq_IZR. congruence.
  - apply andb_prop in E. destruct E as [E1 E2]. apply Nat.eqb_eq in E1. apply Z.eqb_eq in E2. subst. congruence.
  - apply Nat.eqb_eq in E. rewrite PA, PB, Hc, E. reflexivity.
  - apply andb_prop in E. destruct E as [E E3]. apply andb_prop in E. destruct E as [E1 E2]. apply (peq_ok _ _ _ H) in E1.
    destruct PA as (x & X1 & X2). destruct PB as (y & Y1 & Y2). rewrite E1, Y1 in X1. apply chi_inj in X1. subst. destruct x; eauto.
Qed.
Lemma cells_ok : forall e l m a b, holds e -> list_eqb (pceq e) l m = true -> Forall2 (pcok A pi L rho) l a -> Forall2 (pcok B pi L rho) m b -> a = b.
Proof.
  intros e l. induction l as [|x l IH]; intros [|y m] a b H E FA FB; try discriminate; inversion FA; inversion FB; subst; auto.
  simpl in E. apply andb_prop in E. destruct E as [E1 E2]. f_equal; [eapply pceq_ok; eauto|eapply IH; eauto].
Qed.
Lemma mems_ok : forall e l m a b, holds e -> list_eqb (list_eqb (pceq e)) l m = true ->
  Forall2 (Forall2 (pcok A pi L rho)) l a -> Forall2 (Forall2 (pcok B pi L rho)) m b -> a = b.
Proof.
  intros e l. induction l as [|x l IH]; intros [|y m] a b H E FA FB; try discriminate; inversion FA; inversion FB; subst; auto.
  simpl in E. apply andb_prop in E. destruct E as [E1 E2]. f_equal; [eapply cells_ok; eauto|eapply IH; eauto].
Qed.
Lemma pveq_ok : forall e p q a b, holds e -> pveq e p q = true -> pvok A pi L rho p a -> pvok B pi L rho q b -> a = b.
Proof.
  intros e p q a b H E PA PB. destruct p, q; try discriminate; cbn [pveq pvok] in *.
  - congruence.
  - apply (peq_ok _ _ _ H) in E. congruence.
  - apply (peq_ok _ _ _ H) in E. destruct PA as (z & -> & Z1). destruct PB as (z' & -> & Z2). f_equal. apply eq_IZR. congruence.
  - apply (peq_ok _ _ _ H) in E. destruct PA as (z & -> & Z1). destruct PB as (z' & -> & Z2). f_equal. apply chi_inj. congruence.
  - destruct PA as (z & -> & Z1). destruct PB as (z' & -> & Z2). f_equal. eapply cells_ok; eauto.
Qed.

Variable ex : list (positive * positive).
Hypothesis Hex : forall x y, List.In (x, y) ex -> rho x = 1 -> rho y = 0.
Lemma assume_ok : forall x b e, holds e -> rho x = chi b -> holds (assume ex x b e).
Proof.
  intros x b e H E y c I. unfold assume in I. simpl in I. destruct I as [I|I]; [inversion I; subst; auto|].
  apply in_app_or in I. destruct I as [I|I]; [|apply H; auto]. destruct b; [|destruct I].
  apply in_map_iff in I. destruct I as ([u v] & I1 & I2). apply filter_In in I2. destruct I2 as [I2 I3]. simpl in *. apply Pos.eqb_eq in I3. subst u.
  inversion I1; subst. simpl. eapply Hex; eauto.
Qed.
Lemma split_ok : forall x e (P : Prop), idem x = true -> holds e -> (forall b, holds (assume ex x b e) -> P) -> P.
Proof.
  intros x e P I H K. destruct x as [n|n|]; try discriminate. destruct (G n) as [E|E].
  - apply (K false). apply assume_ok; auto.
  - apply (K true). apply assume_ok; auto.
Qed.

Definition same_end (t u : tree (sval * smem)) : Prop :=
  (exists v m v' m', tden RS A t = Some (v, m) /\ tden RS B u = Some (v', m') /\ vden RS A pi L v = vden RS B pi L v' /\
    map (map (cden RS A pi L)) m = map (map (cden RS B pi L)) m') \/
  (exists x, tbad RS A t = Some x /\ tbad RS B u = Some x).

Lemma fails_ok : forall n e x q u, holds e -> fails ex n e x q = true -> tok B pi L rho q u -> tbad RS B u = Some x.
Proof.
  induction n; intros e x q u H E K; cbn [fails] in E; try discriminate.
  destruct q as [v l|q q1 q2|y q q1]; try discriminate; destruct u; cbn [tok] in K; try contradiction.
  - destruct K as (K1 & K2 & K3). pose proof (judge_ok e q _ H K1) as J. cbn [tbad]. destruct (judge e q).
    + rewrite J. eauto.
    + rewrite J. eauto.
    + apply andb_prop in E. destruct E as [E1 E2]. eapply (split_ok x0 e); eauto. intros [] HH.
      * pose proof (IHn _ _ _ (TIf b u1 u2) HH E1) as R. cbn [tok tbad] in R. apply R. auto.
      * pose proof (IHn _ _ _ (TIf b u1 u2) HH E2) as R. cbn [tok tbad] in R. apply R. auto.
    + discriminate.
  - destruct K as (-> & K1 & K2). pose proof (judge_ok e q _ H K1) as J. cbn [tbad]. destruct (judge e q).
    + rewrite J. eauto.
    + rewrite J. destruct x; try discriminate. destruct e0; try discriminate. auto.
    + apply andb_prop in E. destruct E as [E1 E2]. eapply (split_ok x0 e); eauto. intros [] HH.
      * pose proof (IHn _ _ _ (TGuard e0 g u) HH E1) as R. cbn [tok tbad] in R. apply R. auto.
      * pose proof (IHn _ _ _ (TGuard e0 g u) HH E2) as R. cbn [tok tbad] in R. apply R. auto.
    + discriminate.
Qed.

Lemma eqv_ok : forall n e p q t u, holds e -> eqv ex n e p q = true -> tok A pi L rho p t -> tok B pi L rho q u -> same_end t u.
Proof.
  induction n; intros e p q t u H E KA KB; cbn [eqv] in E; try discriminate.
  assert (SP : forall x, idem x = true -> eqv ex n (assume ex x true e) p q && eqv ex n (assume ex x false e) p q = true -> same_end t u).
  { intros x I C. apply andb_prop in C. destruct C as [C1 C2]. eapply (split_ok x e); eauto. intros [] HH; eapply IHn; eauto. }
  destruct p as [v l|c p1 p2|y c p1].
  - destruct q as [v' l'|c q1 q2|y c q1].
    + apply andb_prop in E. destruct E as [E1 E2]. destruct t as [[tv tm]| | |]; cbn [tok] in KA; try contradiction.
      destruct u as [[uv um]| | |]; cbn [tok] in KB; try contradiction. destruct KA as [A1 A2]. destruct KB as [B1 B2].
      left. exists tv, tm, uv, um. cbn [tden]. repeat split; auto.
      * eapply pveq_ok; eauto.
      * eapply mems_ok; eauto.
    + destruct u as [| |b u1 u2|]; cbn [tok] in KB; try contradiction. destruct KB as (B1 & B2 & B3).
      pose proof (judge_ok e c _ H B1) as J. destruct (judge e c); try discriminate.
      * specialize (IHn _ _ _ _ _ H E KA B2). unfold same_end in *. cbn [tden tbad]. rewrite J. auto.
      * specialize (IHn _ _ _ _ _ H E KA B3). unfold same_end in *. cbn [tden tbad]. rewrite J. auto.
      * eauto.
    + destruct u as [| | |e' b u1]; cbn [tok] in KB; try contradiction. destruct KB as (-> & B1 & B2).
      pose proof (judge_ok e c _ H B1) as J. destruct (judge e c); try discriminate.
      * specialize (IHn _ _ _ _ _ H E KA B2). unfold same_end in *. cbn [tden tbad]. rewrite J. auto.
      * eauto.
  - destruct t as [| |b t1 t2|]; cbn [tok] in KA; try contradiction. destruct KA as (B1 & B2 & B3).
    pose proof (judge_ok e c _ H B1) as J. destruct (judge e c); try discriminate.
    + specialize (IHn _ _ _ _ _ H E B2 KB). unfold same_end in *. cbn [tden tbad]. rewrite J. auto.
    + specialize (IHn _ _ _ _ _ H E B3 KB). unfold same_end in *. cbn [tden tbad]. rewrite J. auto.
    + eauto.
  - destruct t as [| | |e' b t1]; cbn [tok] in KA; try contradiction. destruct KA as (-> & B1 & B2).
    pose proof (judge_ok e c _ H B1) as J. destruct (judge e c); try discriminate.
    + specialize (IHn _ _ _ _ _ H E B2 KB). unfold same_end in *. cbn [tden tbad]. rewrite J. auto.
    + right. exists e'. cbn [tbad]. rewrite J. split; auto. eapply fails_ok; eauto.
    + eauto.
Qed.
End Cmp.

(** ** A table of atoms has values *)

Section Exist.
Variables (af : nat -> R) (ai : nat -> Z) (ab : nat -> bool).
Notation kv := (kv af ai ab).
Notation agrees := (agrees af ai ab).
Notation fair := (fair af ai ab).
Fixpoint values (t : table) : positive -> R :=
  match t with
  | [] => fun _ => 0
  | a :: t' => fun x => if Pos.eqb x (number a t') then kv (values t') a else values t' x
  end.
Definition upto (n : positive) (r s : positive -> R) : Prop := forall x, x <> xH -> (pnum x < n)%positive -> r x = s x.
Lemma pv_upto : forall n r s p, upto n r s -> pbelow n p = true -> pv r p = pv s p.
Proof.
  intros n r s p U. induction p as [|[m c] p IH]; intros H; [reflexivity|]. cbn [pbelow forallb fst] in H. apply andb_prop in H. destruct H as [H1 H2].
  simpl. rewrite (IH H2). f_equal. f_equal. clear -U H1. induction m as [|x m IH]; [reflexivity|].
  cbn [forallb] in H1. apply andb_prop in H1. destruct H1 as [H H1]. simpl. rewrite (IH H1). f_equal.
  apply U; destruct x; try discriminate; simpl; apply Pos.ltb_lt; auto.
Qed.
Lemma kv_upto : forall n r s a, upto n r s -> kbelow n a = true -> kv r a = kv s a.
Proof.
  intros n r s a U H. destruct a; cbn [kbelow RNormSound.kv] in *; auto;
    try (apply andb_prop in H; destruct H as [H1 H2]; rewrite (pv_upto n r s p U H1), (pv_upto n r s q U H2); auto);
    rewrite (pv_upto n r s p U H); auto.
Qed.
Lemma pnum_number : forall a t, pnum (number a t) = Pos.of_succ_nat (length t) /\ number a t <> xH.
Proof. intros. unfold number. destruct (isbool a); simpl; split; auto; discriminate. Qed.
Lemma agrees_upto : forall t r s, wf t = true -> upto (Pos.of_succ_nat (length t)) r s -> agrees r t -> agrees s t.
Proof.
  induction t as [|a t IH]; intros r s W U H; [exact I|]. cbn [wf] in W. apply andb_prop in W. destruct W as [W1 W2].
  destruct H as [H1 H2]. destruct (pnum_number a t) as [E1 E2].
  assert (U' : upto (Pos.of_succ_nat (length t)) r s).
  { intros x X1 X2. apply U; auto. simpl. lia. }
  split.
  - rewrite <- (kv_upto _ _ _ _ U' W1), <- H1. symmetry. apply U; auto. rewrite E1. simpl. lia.
  - eapply IH; eauto.
Qed.
Lemma kv_bool : forall r a, isbool a = true -> kv r a = 0 \/ kv r a = 1.
Proof. intros r a H. destruct a; try discriminate; cbn [RNormSound.kv]; match goal with |- chi ?b = _ \/ _ => destruct b end; simpl; auto. Qed.
Lemma values_ok : forall t, wf t = true -> fair (values t) t.
Proof.
  induction t as [|a t IH]; intros W.
  - split; [|exact I]. intros x. simpl. auto.
  - cbn [wf] in W. apply andb_prop in W. destruct W as [W1 W2]. destruct (IH W2) as [G H].
    destruct (pnum_number a t) as [E1 E2].
    assert (U : upto (Pos.of_succ_nat (length t)) (values t) (values (a :: t))).
    { intros x X1 X2. cbn [values]. destruct (Pos.eqb x (number a t)) eqn:E; auto. apply Pos.eqb_eq in E. subst. rewrite E1 in X2. lia. }
    split; [|split].
    + intros n. cbn [values]. destruct (Pos.eqb (xO n) (number a t)) eqn:E; auto. apply Pos.eqb_eq in E.
      apply kv_bool. unfold number in E. destruct (isbool a); auto; discriminate.
    + cbn [values]. rewrite Pos.eqb_refl. apply (kv_upto _ _ _ _ U W1).
    + eapply agrees_upto; eauto.
Qed.

Lemma excl_ok : forall rho full, fair rho full -> forall t, agrees rho t ->
  forall x y, List.In (x, y) (excl t full) -> rho x = 1 -> rho y = 0.
Proof.
  intros rho full F. induction t as [|a t IH]; intros H x y I E; [destruct I|]. destruct H as [H1 H2]. cbn [excl] in I.
  apply in_app_or in I. destruct I as [I|I]; [|eapply IH; eauto]. destruct a; try destruct I.
  destruct (find (KEq p) full) as [z|] eqn:Z; [|destruct I]. pose proof (find_ok af ai ab _ _ _ _ Z (proj2 F)) as HZ. cbn [RNormSound.kv] in *.
  assert (X : Rltb (pv rho p) 0 = true -> Reqb (pv rho p) 0 = true -> False).
  { intros A1 A2. apply Rltb_true in A1. apply Reqb_true in A2. lra. }
  destruct I as [I|[I|[]]]; inversion I; subst.
  - rewrite HZ. rewrite H1 in E. destruct (Rltb (pv rho p) 0); simpl in E; [|lra]. destruct (Reqb (pv rho p) 0); simpl; auto. exfalso; auto.
  - rewrite H1. rewrite HZ in E. destruct (Reqb (pv rho p) 0); simpl in E; [|lra]. destruct (Rltb (pv rho p) 0); simpl; auto. exfalso; auto.
Qed.
End Exist.

(** ** Agreement *)

Lemma shaped_den : forall lens A t v m, shaped lens t = true -> tden RS A t = Some (v, m) -> map (@length _) m = lens.
Proof.
  intros lens A t v m. induction t as [[v' m']| |b t IHt u IHu|e b t IHt]; cbn [shaped tden]; intros H E; try discriminate.
  - inversion E; subst. apply list_eqb_lens. auto.
  - apply andb_prop in H. destruct H. destruct (bden RS A b); auto.
  - destruct (bden RS A b); auto. discriminate.
Qed.

Lemma sat_run : forall is bs ac w fs, scoped (length fs) w = true -> exists ts, sat RS (mk RS is bs ac (fs ++ ts)) w.
Proof.
  intros is bs ac w fs H. destruct (with_binds_run RS is bs ac w fs (fun _ => True) H) as (ts & S & _); [|eauto].
  clear. revert fs. induction w as [|[n s] w]; simpl; auto.
Qed.

Theorem ragree_intro : forall t0 K f g sargs args is bs fs,
  (forall ac pi L ts, map (aden RS is bs fs ac pi L ts) sargs = args) ->
  forallb (ragree_at t0 K f g sargs (length fs)) (patterns sargs) = true ->
  agree RS f g args.
Proof.
  intros t0 K f g sargs args is bs fs HA HB m ps Hl.
  pose proof (proj1 (forallb_forall _ _) HB _ (choose_in sargs ps)) as HO. clear HB. unfold ragree_at in HO.
  apply andb_prop in HO. destruct HO as [HO HQ]. apply andb_prop in HO. destruct HO as [HF HG].
  unfold safe_at in HF. unfold shaped_at in HG. unfold pair_trees in HQ.
  destruct (y_call K (sro sargs) f (sactuals sargs (choose sargs ps)) (sregions sargs (choose sargs ps)) (length fs)) as [[t n] w] eqn:EF.
  destruct (y_call K (sro sargs) g (sactuals sargs (choose sargs ps)) (sregions sargs (choose sargs ps)) (length fs)) as [[u n'] w'] eqn:EG.
  apply andb_prop in HF. destruct HF as [SF TF]. apply andb_prop in HG. destruct HG as [SG TG].
  destruct (nbinds (length fs) [] w t0) as [[pw t1]|] eqn:N1; try discriminate.
  destruct (nbinds (length fs) [] w' t1) as [[pv' t2]|] eqn:N2; try discriminate.
  destruct (ntree (length fs) pw t t2) as [[x t3]|] eqn:N3; try discriminate.
  destruct (ntree (length fs) pv' u t3) as [[y t4]|] eqn:N4; try discriminate.
  apply andb_prop in HQ. destruct HQ as [HW HE].
  pose proof (fun ac => sat_run is bs ac w fs SF) as B1.
  pose proof (fun ac => sat_run is bs ac w' fs SG) as B2.
  match type of (main_run RS K f sargs args is bs fs HA m ps Hl) with forall ts t n w v sm', _ -> sat RS (mk RS is bs ?ac _) w -> _ => specialize (B1 ac); specialize (B2 ac); set (ac0 := ac) in * end.
  destruct B1 as (ts & S1). destruct B2 as (ts' & S2).
  set (A := mk RS is bs ac0 (fs ++ ts)) in *. set (B := mk RS is bs ac0 (fs ++ ts')) in *.
  set (af := fun n => nth n fs (s_lit RS 0 1)).
  assert (HAf : forall n, (n < length fs)%nat -> a_f A n = af n). { intros. simpl. rewrite app_nth1; auto. }
  assert (HBf : forall n, (n < length fs)%nat -> a_f B n = af n). { intros. simpl. rewrite app_nth1; auto. }
  pose proof (values_ok af (a_i A) (a_b A) t4 HW) as F4. set (rho := values af (a_i A) (a_b A) t4) in *.
  destruct (ntree_ok B af (length fs) HBf ps (length m) pv' u _ _ _ N4 rho F4) as [F3 Q4].
  destruct (ntree_ok A af (length fs) HAf ps (length m) pw t _ _ _ N3 rho F3) as [F2 Q3].
  destruct (nbinds_ok B af (length fs) HBf w' [] ltac:(rewrite Nat.add_0_r; auto) _ _ _ N2 rho F2) as [F1 Q2].
  destruct (nbinds_ok A af (length fs) HAf w [] ltac:(rewrite Nat.add_0_r; auto) _ _ _ N1 rho F1) as [_ Q1].
  assert (E0 : forall Z, wok Z (length fs) [] rho). { intros Z i q Hq. destruct i; discriminate. }
  specialize (Q1 (conj (E0 A) S1)). specialize (Q2 (conj (E0 B) S2)). specialize (Q3 Q1). specialize (Q4 Q2). cbv beta in *.
  assert (HX := excl_ok af (a_i A) (a_b A) rho t4 F4 t4 (proj2 F4)).
  destruct (eqv_ok rho (proj1 F4) A B ps (length m) eq_refl _ HX _ _ _ _ _ _ (fun a b (i : List.In _ []) => match i with end) HE Q3 Q4)
    as [(v & sm & v' & sm' & D1 & D2 & EV & EM)|(e & D1 & D2)].
  - assert (L1 : map (@length _) sm = map (@length _) (sregions sargs (choose sargs ps))).
    { destruct (safe_tree_den RS _ A _ TF) as [(v0 & sm0 & HD & HL) | (x0 & HX0 & HD)].
      - rewrite D1 in HD. inversion HD; subst. apply list_eqb_lens. auto.
      - exfalso. clear -D1 HD. induction t as [[]| |b t IHt u' IHu|e' b t IHt]; cbn [tden tbad] in *; try discriminate; destruct (bden RS A b); auto; discriminate. }
    assert (L2 := shaped_den _ B u v' sm' TG D2).
    assert (X : forall z, map (@length scell) z = map (@length _) (sregions sargs (choose sargs ps)) -> length z = length sargs).
    { intros z HL. apply (f_equal (@length _)) in HL. rewrite !map_length in HL. unfold sregions in HL. rewrite mapi_length in HL. auto. }
    rewrite (main_run RS K f sargs args is bs fs HA m ps Hl ts t n w v sm EF S1 D1 (X _ L1)).
    rewrite (main_run RS K g sargs args is bs fs HA m ps Hl ts' u n' w' v' sm' EG S2 D2 (X _ L2)).
    fold ac0. fold A. fold B. rewrite EV. do 4 f_equal. apply map_ext. intros i.
    rewrite <- (map_nth (map (cden RS A ps (length m))) sm [] i), <- (map_nth (map (cden RS B ps (length m))) sm' [] i), EM. reflexivity.
  - assert (X : forall h z zn zw tz, y_call K (sro sargs) h (sactuals sargs (choose sargs ps)) (sregions sargs (choose sargs ps)) (length fs) = (z, zn, zw) ->
      sat RS (mk RS is bs ac0 (fs ++ tz)) zw -> tbad RS (mk RS is bs ac0 (fs ++ tz)) z = Some e -> call RS h (actuals args ps) m = Err e).
    { intros h z zn zw tz EH SH DH.
      assert (HF := proj2 (proj2 (proj2 (sound_err RS (mk RS is bs ac0 (fs ++ tz)) ps (length m) m eq_refl (sro sargs)
        (map (@length _) (sregions sargs (choose sargs ps)))
        (lens_length RS sargs args is bs fs HA m ps Hl)
        (inreg_lt RS K sargs args is bs fs HA m ps Hl)
        (reg_disj RS sargs args is bs fs HA m ps Hl) K)))).
      unfold ac0 in *. rewrite <- (actuals_den RS sargs args is bs fs HA m ps Hl tz).
      apply (HF h (sactuals sargs (choose sargs ps)) (sregions sargs (choose sargs ps)) (length fs) e m (rel_init RS K sargs args is bs fs HA m ps Hl tz)).
      split; rewrite EH; auto. }
    rewrite (X f t n w ts EF S1 D1), (X g u n' w' ts' EG S2 D2). reflexivity.
Qed.
