(** * The product of an array of matrices (C10) *)

From Coq Require Import String List ZArith Bool Reals Lia Lra.
From Verif Require Import MiniC Contract SymCall SymTac Tac RScalar Cglm.
From Verif.Gen Require Import struct_mat4.
From Verif.Spec Require Import Linear Arrays.
From Verif.Proofs Require Import RTac Loop Shape Struct Region Arrays Matrix.
(* props: From Verif.Gen Require Import struct_mat4. *)
Import ListNotations.
Local Open Scope string_scope.
Local Open Scope Z_scope.
Local Open Scope list_scope.

Lemma call3 : forall S g cs ds n es (m : mem (T S)) p p' q, computes S g [InA cs; InA ds; Out n] VVoid [es] -> holds m p cs -> holds m p' ds -> readable S m q n ->
  apart q n p (length cs) \/ (p = q /\ n = length cs) -> apart q n p' (length ds) \/ (p' = q /\ n = length ds) ->
  call S g [VP (fst p) (snd p); VP (fst p') (snd p'); VP (fst q) (snd q)] m = Ok (VVoid, upd m q es).
Proof.
  intros S g cs ds n es m p p' q C H H' V A A'. apply (C m [p; p'; q]). split.
  - repeat constructor; simpl; auto. apply readable_valid; auto.
  - intros i j a b x y Nij Ha Hb Hx Hy W P.
    destruct i as [|[|[|[|i]]]], j as [|[|[|[|j]]]]; simpl in *; try congruence; try discriminate;
      injection Ha as <-; injection Hb as <-; injection Hx as <-; injection Hy as <-; simpl in *; try discriminate.
    + destruct A as [A|[-> ->]]; auto.
    + destruct A' as [A'|[-> ->]]; auto.
Qed.

Section C.
Variable S : Scalar.
Notation F := (T S).

Lemma fmul4_ok : forall A B, length A = 16%nat -> length B = 16%nat ->
  computes S glm_mat4_mul [InA (fl A); InA (fl B); Out 16] VVoid [fl (fmul4 S A B)].
Proof. intros. unlists. sym_with 100%nat; useeqs; gsplit; reflexivity. Qed.
Lemma fmul4_len : forall A B, length (fmul4 S A B) = 16%nat.
Proof. reflexivity. Qed.
Lemma fl_len : forall F (x : list F), length (fl x) = length x.
Proof. intros. apply map_length. Qed.
Lemma fold_len : forall Ms A, length A = 16%nat -> length (fold_left (fmul4 S) Ms A) = 16%nat.
Proof. induction Ms; simpl; auto. Qed.

Lemma load_ptr : forall (m : mem F) pa ps i p z, holds m pa (pointers ps) -> nth_error ps i = Some p -> z = snd pa + Z.of_nat i ->
  load S m (VP (fst pa) z) = Ok (VP (fst p) (snd p)).
Proof.
  intros m pa ps i p z H E ->. idtac.
  assert (K : (i < length (@pointers F ps))%nat) by (unfold pointers; rewrite map_length; apply nth_error_Some; congruence). pose proof (proj1 (@holds_nth S m pa (pointers ps)) H i K) as H2. clear H. rename H2 into H.
  unfold load. cbn [to_ptr rbind]. rewrite H. unfold pointers. rewrite (map_nth_error _ _ _ E). reflexivity.
Qed.

Lemma matrices_at : forall (m : mem F) ps Ms i p M, matrices m ps Ms -> nth_error ps i = Some p -> nth_error Ms i = Some M -> length M = 16%nat /\ holds m p (fl M).
Proof. intros m ps Ms i p M H. revert i. induction H; intros [|i] E1 E2; try discriminate; simpl in *. injection E1 as ->. injection E2 as ->. auto. eauto. Qed.

Lemma mulN_gen : forall (m : mem F) pa ps M0 Ms dest, (2 <= length ps)%nat -> holds m pa (pointers ps) -> matrices m ps (M0 :: Ms) -> valid m dest 16 ->
  apart dest 16 pa (length ps) -> (forall i p, nth_error ps i = Some p -> apart dest 16 p 16 \/ (i < 2)%nat /\ p = dest) ->
  call S glm_mat4_mulN [VP (fst pa) (snd pa); VI (Z.of_nat (length ps)); VP (fst dest) (snd dest)] m = Ok (VVoid, upd m dest (fl (fold_left (fmul4 S) Ms M0))).
Proof.
  intros m pa ps M0 Ms dest L Hp HM Vd Apa Ap.
  assert (Rd : readable S m dest 16) by (apply valid_readable; exact Vd).
  assert (LM : length (M0 :: Ms) = length ps) by (symmetry; apply (Forall2_len _ _ _ _ _ HM)).
  destruct ps as [|p0 [|p1 ps]]; try (simpl in L; lia). destruct Ms as [|M1 Ms]; try discriminate LM.
  destruct (matrices_at _ _ _ 0%nat _ _ HM eq_refl eq_refl) as [L0 H0]. destruct (matrices_at _ _ _ 1%nat _ _ HM eq_refl eq_refl) as [L1 H1].
  set (n := length (p0 :: p1 :: ps)) in *.
  unfold glm_mat4_mulN. rewrite call_fun. cbn [bind_params rbind bind_locals app].
  match goal with |- context [exec S _ ?r _] => set (env := r) end.
  rewrite exec_seq. 
  assert (EA : exec S (SAssert (EBin (BCmp CGt) (EV "len") (EI 1))) env m = Ok (FNext, env, m)).
  { change (exec S (SAssert (EBin (BCmp CGt) (EV "len") (EI 1))) env m) with
      (if Z.ltb 1 (Z.of_nat n) then @Ok (flow F * MiniC.env F * mem F) (FNext, env, m) else Err XAssert).
    destruct (Z.ltb_spec 1 (Z.of_nat n)); [reflexivity|lia]. }
  rewrite EA. cbn [rbind]. rewrite exec_seq, exec_exp.
  rewrite (eval_call S glm_mat4_mul _ env [VP (fst p0) (snd p0); VP (fst p1) (snd p1); VP (fst dest) (snd dest)] m).
  2:{ cbn [evals eval]. change (var S env "matrices") with (@Ok (value F) (VP (fst pa) (snd pa))). change (var S env "dest") with (@Ok (value F) (VP (fst dest) (snd dest))).
      cbn [rbind to_ptr]. rewrite (load_ptr m pa _ 0%nat p0 _ Hp eq_refl) by lia. cbn [rbind]. rewrite (load_ptr m pa _ 1%nat p1 _ Hp eq_refl) by lia. reflexivity. }
  rewrite (call3 S glm_mat4_mul (fl M0) (fl M1) 16 _ m p0 p1 dest (fmul4_ok M0 M1 L0 L1)); auto.
  2,3: rewrite fl_len, ?L0, ?L1. 2: destruct (Ap 0%nat p0 eq_refl) as [A|[_ ->]]; auto. 2: destruct (Ap 1%nat p1 eq_refl) as [A|[_ ->]]; auto.
  cbn [rbind]. rewrite exec_for. change (eval S (EI 2) ?r ?mm) with (@Ok (value F * mem F) (VI 2, mm)). cbn [rbind].
  change (eval S (EV "len") env ?mm) with (@Ok (value F * mem F) (VI (Z.of_nat n), mm)). cbn [rbind].
  replace (Z.to_nat (Z.of_nat n - 2)) with (length ps) by (unfold n; cbn [length]; lia).
  assert (X : forall j Ns A i x, length A = 16%nat -> (i + j = n)%nat -> (2 <= i)%nat -> Ns = skipn i (M0 :: M1 :: Ms) ->
    exists r, forloop S "i" (SExp (ECall glm_mat4_mul (Econs (EV "dest") (Econs (ELd (EIx (EV "matrices") 1 (EV "i"))) (Econs (EV "dest") Enil)))))
      j (Z.of_nat i) (assign "i" x env) (upd m dest (fl A)) = Ok (FNext, r, upd m dest (fl (fold_left (fmul4 S) Ns A)))).
  { induction j; intros Ns A i x LA Hij Hi ->.
    - rewrite skipn_all2 by (rewrite LM; unfold n in Hij; lia). eexists. reflexivity.
    - destruct (nth_error (p0 :: p1 :: ps) i) as [p|] eqn:Ep. 2:{ apply nth_error_None in Ep. unfold n in Hij. lia. }
      destruct (nth_error (M0 :: M1 :: Ms) i) as [M|] eqn:EM. 2:{ apply nth_error_None in EM. unfold n in Hij. lia. }
      destruct (matrices_at _ _ _ i _ _ HM Ep EM) as [Lm Hm].
      assert (Apm : apart dest 16 p 16) by (destruct (Ap i p Ep) as [?|[? _]]; [auto|lia]).
      assert (RA : readable S m dest (length (fl A))) by (rewrite fl_len, LA; exact Rd).
      rewrite forloop_S, exec_exp. cbn [assign env String.eqb Ascii.eqb Bool.eqb].
      rewrite (eval_call S glm_mat4_mul _ _ [VP (fst dest) (snd dest); VP (fst p) (snd p); VP (fst dest) (snd dest)]).
      2:{ cbn [evals eval]. change (var S _ "matrices") with (@Ok (value F) (VP (fst pa) (snd pa))). change (var S _ "dest") with (@Ok (value F) (VP (fst dest) (snd dest))).
          change (var S _ "i") with (@Ok (value F) (VI (Z.of_nat i))). cbn [rbind to_ptr].
          rewrite (load_ptr _ pa (p0 :: p1 :: ps) i p); auto; [|lia].
          apply (@holds_upd_apart S); auto. unfold pointers. rewrite map_length, fl_len, LA. exact Apa. }
      rewrite (call3 S glm_mat4_mul (fl A) (fl M) 16 _ _ dest p dest (fmul4_ok A M LA Lm)).
      + cbn [rbind]. rewrite (@upd_same S) by (rewrite ?fl_len, ?LA; auto).
        replace (skipn i (M0 :: M1 :: Ms)) with (M :: skipn (Datatypes.S i) (M0 :: M1 :: Ms)).
        2:{ clear - EM. revert EM. generalize (M0 :: M1 :: Ms). induction i; intros [|a l] E; try discriminate; simpl in *. injection E as ->. auto. apply IHi; auto. }
        cbn [fold_left]. replace (Z.of_nat i + 1) with (Z.of_nat (Datatypes.S i)) by lia.
        apply (IHj _ (fmul4 S A M) (Datatypes.S i) (VI (Z.of_nat i))); auto; lia.
      + apply (@holds_upd_same S); auto.
      + apply (@holds_upd_apart S); auto. rewrite !fl_len, LA, Lm. auto.
      + apply (@readable_upd S); auto.
      + right. rewrite fl_len, LA. auto.
      + left. rewrite fl_len, Lm. auto. }
  destruct (X (length ps) Ms (fmul4 S M0 M1) 2%nat VU eq_refl) as [r E]; auto.
  change (assign "i" VU env) with env in E. match type of E with ?L = _ => match goal with |- context [forloop ?a ?b ?c ?d ?e ?f ?g] => change (forloop a b c d e f g) with L end end. rewrite E. cbn [rbind]. rewrite <- (upd_len m dest (fl (fold_left (fmul4 S) (M1 :: Ms) M0))) at 1. rewrite firstn_all. reflexivity.
Qed.

Lemma struct_mul : forall A B, length A = 16%nat -> length B = 16%nat ->
  computes S glms_mat4_mul [Val (VA (fl A)); Val (VA (fl B))] (VA (fl (fmul4 S A B))) [].
Proof. intros. unlists. sym_with 100%nat. gsplit; reflexivity. Qed.
Lemma write_block : forall (m : mem F) cs ds, length cs = 16%nat -> length ds = 16%nat -> mwrites (m ++ [cs]) (length m) 0 ds = Some (m ++ [ds]).
Proof. intros m cs ds L L'. replace (length m) with (length m + 0)%nat by lia. rewrite mwrites_r. unlists. reflexivity. Qed.
Lemma call_struct_mul : forall A B (m : mem F), length A = 16%nat -> length B = 16%nat ->
  call S glms_mat4_mul [VA (fl A); VA (fl B)] m = Ok (VA (fl (fmul4 S A B)), m).
Proof.
  intros A B m LA LB. apply (struct_mul A B LA LB m [(0%nat, 0); (0%nat, 0)]). split.
  - repeat constructor.
  - intros i j a b x y Nij Ha Hb Hx Hy W P. destruct i as [|[|[|i]]]; simpl in *; try discriminate; injection Ha as <-; discriminate.
Qed.
Lemma struct_mulN_gen : forall (m : mem F) pa ps Ms, holds m pa (pointers ps) -> matrices m ps Ms ->
  call S glms_mat4_mulN [VP (fst pa) (snd pa); VI (Z.of_nat (length ps))] m = Ok (VA (fl (fold_left (fmul4 S) Ms (unit_matrix S 4))), m).
Proof.
  intros m pa ps Ms Hp HM.
  assert (LM : length Ms = length ps) by (symmetry; apply (Forall2_len _ _ _ _ _ HM)).
  unfold glms_mat4_mulN. rewrite call_fun. cbn [bind_params rbind bind_locals app].
  match goal with |- context [exec S _ ?r _] => set (env := r) end.
  repeat (erewrite (init_step S); [| subst env; reflexivity | split; vm_compute; congruence ]).
  match goal with |- context [m ++ [?b]] => change b with (@fl F (unit_matrix S 4)) end.
  rewrite exec_seq, exec_for. change (eval S (EI 0) ?r ?mm) with (@Ok (value F * mem F) (VI 0, mm)). cbn [rbind].
  change (eval S (EV "len") env ?mm) with (@Ok (value F * mem F) (VI (Z.of_nat (length ps)), mm)). cbn [rbind].
  rewrite Z.sub_0_r, Nat2Z.id.
  set (body := SStA 16 _ _).
  assert (X : forall j Ns A i x, length A = 16%nat -> (i + j = length ps)%nat -> Ns = skipn i Ms ->
    exists x', forloop S "i" body j (Z.of_nat i) (assign "i" x env) (m ++ [fl A]) = Ok (FNext, assign "i" x' env, m ++ [fl (fold_left (fmul4 S) Ns A)])).
  { induction j; intros Ns A i x LA Hij ->.
    - rewrite skipn_all2 by lia. eexists. reflexivity.
    - destruct (nth_error ps i) as [p|] eqn:Ep. 2:{ apply nth_error_None in Ep. lia. }
      destruct (nth_error Ms i) as [M|] eqn:EM. 2:{ apply nth_error_None in EM. lia. }
      destruct (matrices_at _ _ _ i _ _ HM Ep EM) as [Lm Hm].
      assert (Bp : (fst p < length m)%nat).
      { apply (valid_ranged m (In (fl M)) p); simpl; auto. rewrite fl_len, Lm. discriminate. }
      assert (Bpa : (fst pa < length m)%nat).
      { apply (valid_ranged m (In (pointers ps)) pa); simpl; auto. unfold pointers. rewrite map_length. destruct ps; [destruct i; discriminate|discriminate]. }
      rewrite forloop_S. cbn [assign env String.eqb Ascii.eqb Bool.eqb].
      match goal with |- context [exec S body ?r ?mm] => assert (EX : exec S body r mm = Ok (FNext, r, m ++ [fl (fmul4 S A M)])) end.
      { unfold body. match goal with |- exec S (SStA ?n ?e1 ?e2) ?r ?mm = _ => change (exec S (SStA n e1 e2) r mm) with
          (do (vp, m1) <- eval S e1 r mm; do (v, m2) <- eval S e2 r m1; do m3 <- storeA S m2 n vp v; @Ok (flow F * MiniC.env F * mem F) (FNext, r, m3)) end.
        change (eval S (EV "r") _ ?mm) with (@Ok (value F * mem F) (VP (length m) 0, mm)). cbn [rbind].
        rewrite (eval_call S glms_mat4_mul _ _ [VA (fl A); VA (fl M)]).
        2:{ cbn [evals eval]. change (var S _ "matrices") with (@Ok (value F) (VP (fst pa) (snd pa))). change (var S _ "r") with (@Ok (value F) (VP (length m) 0)).
            change (var S _ "i") with (@Ok (value F) (VI (Z.of_nat i))). cbn [rbind to_ptr].
            pose proof (holds_block m [] (fl A)) as HB. unfold holds in HB. rewrite fl_len, LA in HB. cbn [fst snd] in HB.
            pose proof (placed_l m [fl A] (In (fl M)) p (fun _ => Bp) Hm) as HC. simpl in HC. unfold holds in HC. rewrite fl_len, Lm in HC.
            unfold loadA. cbn [to_ptr rbind]. rewrite HB. cbn [of_opt rbind].
            rewrite (load_ptr _ pa ps i p); auto; [|apply (placed_l m _ (In (pointers ps)) pa); simpl; auto|lia].
            cbn [rbind to_ptr]. rewrite HC. reflexivity. }
        rewrite call_struct_mul by auto. cbn [rbind]. unfold storeA. cbn [to_ptr rbind].
        rewrite fl_len, fmul4_len. cbn [Nat.eqb]. rewrite write_block; [reflexivity| |]; rewrite fl_len; auto. }
      rewrite EX. cbn [rbind].
      replace (skipn i Ms) with (M :: skipn (Datatypes.S i) Ms).
      2:{ clear - EM. revert EM. generalize Ms. induction i; intros [|a l] E; try discriminate; simpl in *. injection E as ->. auto. apply IHi; auto. }
      cbn [fold_left]. replace (Z.of_nat i + 1) with (Z.of_nat (Datatypes.S i)) by lia.
      apply (IHj _ (fmul4 S A M) (Datatypes.S i) (VI (Z.of_nat i))); auto; lia. }
  destruct (X (length ps) Ms (unit_matrix S 4) 0%nat VU eq_refl eq_refl eq_refl) as [x' E].
  match type of E with ?L = _ => match goal with |- context [forloop ?a ?b ?c ?d ?e ?f ?g] => change (forloop a b c d e f g) with L end end. rewrite E.
  cbn [rbind]. rewrite exec_ret.
  set (P := fold_left (fmul4 S) Ms (unit_matrix S 4)).
  assert (LC : length P = 16%nat) by (apply fold_len; reflexivity).
  rewrite (eval_lda S 16 "r" _ _ (length m) 0 (fl P)).
  - cbn [rbind]. rewrite firstn_app, Nat.sub_diag, firstn_all, app_nil_r. reflexivity.
  - reflexivity.
  - pose proof (holds_block m [] (fl P)) as HB. unfold holds in HB. rewrite fl_len, LC in HB. exact HB.
Qed.
End C.

Lemma fmul4_real : forall A B, fmul4 RS A B = mmul 4 A B.
Proof. intros. cbv [fmul4 mmul mulg build flat_map seq map app Rsum total fold_left ent Nat.mul Nat.add]. reflexivity. Qed.
Lemma mmul_mid4 : forall A, length A = 16%nat -> mmul 4 (mid 4) A = A.
Proof. intros A L. unlists. cbv [mmul mulg mid build flat_map seq map app ent nth Nat.mul Nat.add Nat.eqb Rsum total fold_left]. repeat (f_equal; try ring). Qed.
Lemma fold_real : forall Ms A, fold_left (fmul4 RS) Ms A = fold_left (mmul 4) Ms A.
Proof. induction Ms; [reflexivity|]. intros A. cbn [fold_left]. rewrite IHMs, fmul4_real. reflexivity. Qed.

(** For every number of matrices from two on, glm_mat4_mulN writes their left-to-right
    product into [dest], which must be apart from the array of pointers and from the third
    and later matrices; it may be one of the first two. *)
Lemma C10_mulN_ok : forall (m : mem R) pa ps Ms dest, (2 <= length ps)%nat -> holds m pa (pointers ps) -> matrices m ps Ms -> valid m dest 16 ->
  apart dest 16 pa (length ps) -> (forall i p, nth_error ps i = Some p -> apart dest 16 p 16 \/ (i < 2)%nat /\ p = dest) ->
  call RS glm_mat4_mulN [VP (fst pa) (snd pa); VI (Z.of_nat (length ps)); VP (fst dest) (snd dest)] m = Ok (VVoid, upd m dest (fl (chain Ms))).
Proof.
  intros m pa ps [|M0 Ms] dest L Hp HM Vd A1 A2. 
  - inversion HM. subst. simpl in L. lia.
  - rewrite (mulN_gen RS m pa ps M0 Ms dest L Hp HM Vd A1 A2). rewrite fold_real. reflexivity.
Qed.
(** With fewer than two matrices the assertion fails. *)
Lemma C10_mulN_short_ok : forall S len m pa dest, (0 <= len < 2) ->
  call S glm_mat4_mulN [VP (fst pa) (snd pa); VI len; VP (fst dest) (snd dest)] m = Err XAssert.
Proof. intros S len m pa dest H. assert (len = 0 \/ len = 1) as [->| ->] by lia; reflexivity. Qed.


(** glms_mat4_mulN returns the left-to-right product for every number of matrices: the
    matrix itself for one, the identity for none; it writes nothing. *)
Lemma C10_struct_mulN_ok : forall (m : mem R) pa ps Ms, holds m pa (pointers ps) -> matrices m ps Ms ->
  call RS glms_mat4_mulN [VP (fst pa) (snd pa); VI (Z.of_nat (length ps))] m = Ok (VA (fl (chain Ms)), m).
Proof.
  intros m pa ps Ms Hp HM. pose proof (struct_mulN_gen RS m pa ps Ms Hp HM) as E. change (T RS) with R in *. rewrite E.
  refine (f_equal (fun x : list R => @Ok (value R * mem R) (VA (fl x), m)) (_ : fold_left (fmul4 RS) Ms (unit_matrix RS 4) = chain Ms)). rewrite fold_real.
  replace (unit_matrix RS 4) with (mid 4) by (cbv -[IZR Rdiv]; repeat f_equal; lra).
  destruct Ms as [|M Ms']; [reflexivity|]. cbn [fold_left chain]. rewrite mmul_mid4; [reflexivity|]. inversion HM as [|? ? ? ? [L _]]. exact L.
Qed.

(** In every arithmetic both functions multiply from the left, glm_mat4_mulN starting from the
    first matrix and glms_mat4_mulN from the unit matrix. *)
Lemma C56_mulN_ok : forall (S : Scalar) (m : mem (T S)) pa ps M0 Ms dest, (2 <= length ps)%nat -> holds m pa (pointers ps) -> matrices m ps (M0 :: Ms) -> valid m dest 16 ->
  apart dest 16 pa (length ps) -> (forall i p, nth_error ps i = Some p -> apart dest 16 p 16 \/ (i < 2)%nat /\ p = dest) ->
  call S glm_mat4_mulN [VP (fst pa) (snd pa); VI (Z.of_nat (length ps)); VP (fst dest) (snd dest)] m
    = Ok (VVoid, upd m dest (fl (fold_left (fmul4 S) Ms M0))) /\
  call S glms_mat4_mulN [VP (fst pa) (snd pa); VI (Z.of_nat (length ps))] m
    = Ok (VA (fl (fold_left (fmul4 S) (M0 :: Ms) (unit_matrix S 4))), m).
Proof. intros S m pa ps M0 Ms dest L Hp HM Vd A1 A2. split; [apply mulN_gen; auto|apply (struct_mulN_gen S m pa ps (M0 :: Ms)); auto]. Qed.

(** three matrices; the destination may be the first *)
Definition ex_ps : list ptr := [(1%nat, 0); (2%nat, 0); (3%nat, 0)].
Definition ex_Ms : list (list R) := [mscale (mid 4) 2; mscale (mid 4) 2; mscale (mid 4) 3].
Definition ex_mem : mem R := pointers ex_ps :: map fl ex_Ms.
Lemma ex_holds : holds ex_mem (0%nat, 0) (pointers ex_ps) /\ matrices ex_mem ex_ps ex_Ms.
Proof. split; [reflexivity|]. repeat constructor. Qed.
Lemma C10_mulN_ex : exists (m : mem R) pa ps Ms dest, (2 <= length ps)%nat /\ holds m pa (pointers ps) /\ matrices m ps Ms /\ valid m dest 16 /\
  apart dest 16 pa (length ps) /\ (forall i p, nth_error ps i = Some p -> apart dest 16 p 16 \/ (i < 2)%nat /\ p = dest) /\
  nth_error ps 0 = Some dest /\ length Ms = 3%nat /\ hd 0%R (chain Ms) = 12%R.
Proof.
  exists ex_mem, (0%nat, 0), ex_ps, ex_Ms, (1%nat, 0). destruct ex_holds as [H M]. repeat split; auto.
  - simpl; lia.
  - discriminate.
  - left. discriminate.
  - intros [|[|[|[|i]]]] p E; try discriminate E; injection E as <-; unfold apart; simpl; auto; try (left; left; lia).
  - cbv [chain ex_Ms fold_left hd mmul mulg mscale mid build flat_map seq map app ent nth Nat.mul Nat.add Nat.eqb Rsum total]. lra.
Qed.
(** when the destination is the third matrix the product is wrong *)
Lemma C10_mulN_third_refuted_ok : exists (m : mem R) pa ps Ms dest, (2 <= length ps)%nat /\ holds m pa (pointers ps) /\ matrices m ps Ms /\ valid m dest 16 /\
  apart dest 16 pa (length ps) /\ (forall i p, nth_error ps i = Some p -> apart dest 16 p 16 \/ i = 2%nat /\ p = dest) /\
  call RS glm_mat4_mulN [VP (fst pa) (snd pa); VI (Z.of_nat (length ps)); VP (fst dest) (snd dest)] m <> Ok (VVoid, upd m dest (fl (chain Ms))).
Proof.
  exists ex_mem, (0%nat, 0), ex_ps, ex_Ms, (3%nat, 0). destruct ex_holds as [H M]. repeat split; auto.
  - simpl; lia.
  - discriminate.
  - left. discriminate.
  - intros [|[|[|[|i]]]] p E; try discriminate E; injection E as <-; unfold apart; simpl; auto; try (left; left; lia).
  - assert (X : exists mm c r, call RS glm_mat4_mulN [VP 0 0; VI 3; VP 3 0] ex_mem = Ok (VVoid, mm) /\ nth_error mm 3 = Some (CF c :: r) /\ c = 16%R).
    { eexists. eexists. eexists. split.
      - lazy -[Rplus Rmult Rminus Ropp IZR Rdiv Rinv Rlt_dec Rle_dec Req_EM_T]. reflexivity.
      - split; [lazy -[Rplus Rmult Rminus Ropp IZR Rdiv Rinv]; reflexivity|]. lra. }
    destruct X as (mm & c & r & E & N & V). simpl length. change (Z.of_nat 3) with 3. cbn [fst snd]. rewrite E. intros Q. injection Q as ->.
    revert N. lazy -[Rplus Rmult Rminus Ropp IZR Rdiv Rinv]. intros N. injection N as N _. lra.
Qed.
