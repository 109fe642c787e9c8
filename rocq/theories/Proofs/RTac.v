(** * Tactics for the real instance and the linear-algebra specifications (proof tool) *)

From Coq Require Import String List ZArith Bool Reals Lra.
From Verif Require Export MiniC Sym SymSound Contract SymCall RScalar SymTac Tac.
From Verif.Spec Require Import Linear Geometry.
Import ListNotations.
Local Open Scope R_scope.

Ltac lcbv := cbv [mmul mulg mvec vmat transp mid mscale build Rsum ent at_ det minor flat_map map seq nth app fold_right fold_left total
  Nat.mul Nat.add Nat.sub Nat.ltb Nat.leb Nat.eqb Init.Nat.mul Init.Nat.add Init.Nat.sub fl combine fst snd vadd vsub vscale rdot norm2 norm vcross mirror tangential refr_k refracted rotated rotmat cmul pow entry transpose exch swap_cols swap_rows firstn skipn repeat].
(** bring a symbolic-execution goal to equations between real expressions *)
Ltac rprep := useeqs; rcbv; lcbv; gsplit; try reflexivity.
Ltac rring := rprep; cells ltac:(try ring).
Ltac symr := sym_with 20%nat.
Ltac go := intros; unlists; symr; rring.

(** case analysis on comparisons of reals, innermost first *)
Ltac no_test t :=
  lazymatch t with
  | context [Rltb _ _] => fail | context [Rleb _ _] => fail | context [Reqb _ _] => fail
  | context [Rlt_dec _ _] => fail | context [Rle_dec _ _] => fail | context [Req_EM_T _ _] => fail
  | _ => idtac
  end.
Ltac rif1 :=
  match goal with
  | |- context [Rltb ?x ?y] => no_test x; no_test y; let E := fresh "E" in destruct (Rltb x y) eqn:E; [apply Rltb_true in E | apply Rltb_false in E]
  | |- context [Rleb ?x ?y] => no_test x; no_test y; let E := fresh "E" in destruct (Rleb x y) eqn:E; [apply Rleb_true in E | apply Rleb_false in E]
  | |- context [Reqb ?x ?y] => no_test x; no_test y; let E := fresh "E" in destruct (Reqb x y) eqn:E; [apply Reqb_true in E | apply Reqb_false in E]
  | |- context [Rlt_dec ?x ?y] => no_test x; no_test y; destruct (Rlt_dec x y)
  | |- context [Rle_dec ?x ?y] => no_test x; no_test y; destruct (Rle_dec x y)
  | |- context [Req_EM_T ?x ?y] => no_test x; no_test y; destruct (Req_EM_T x y)
  end; cbv beta iota delta [negb andb orb].
Ltac rifs := repeat rif1.

Lemma eps_pos : 0 < eps.
Proof. unfold eps. lra. Qed.
Lemma total_sq_nonneg : forall l, (forall x, List.In x l -> 0 <= x) -> 0 <= total l.
Proof.
  intros l H. destruct l as [|a l]; simpl; [lra|].
  assert (forall l a, 0 <= a -> (forall x, List.In x l -> 0 <= x) -> 0 <= fold_left Rplus l a).
  { clear. induction l; simpl; intros; auto. apply IHl; auto. specialize (H0 a (or_introl eq_refl)). lra. }
  apply H0; simpl in *; auto.
Qed.
Lemma norm2_nonneg : forall x, 0 <= norm2 x.
Proof.
  intros x. apply total_sq_nonneg. intros y H. apply in_map_iff in H. destruct H as ([a b] & <- & H). simpl.
  assert (a = b). { revert H. clear. induction x; simpl; [tauto|]. intros [H|H]; auto. inversion H; auto. }
  subst. apply Rle_0_sqr.
Qed.
Lemma norm_nonneg : forall x, 0 <= norm x.
Proof. intros. apply sqrt_pos. Qed.
Lemma norm_sq : forall x, norm x * norm x = norm2 x.
Proof. intros. apply sqrt_def, norm2_nonneg. Qed.

(** nonnegative sums of squares *)
Ltac sq0 := repeat (apply Rplus_le_le_0_compat); apply Rle_0_sqr.
(** discharge a domain condition produced by symbolic execution *)
Ltac domain :=
  first [ solve [reqs; sq0]
        | solve [unfold eps in *; rifs; simpl; try reflexivity; try discriminate; exfalso; first [lra | nra]] ].
(** identify square roots of equal arguments *)
Ltac sqrts := repeat match goal with
  | |- context [sqrt ?x] => match goal with
    | |- context [sqrt ?y] => assert_fails (constr_eq x y); replace (sqrt y) with (sqrt x) by (f_equal; ring)
    end end.
Ltac fieldl := first [reflexivity | ring | lra | solve [field; try lra] | solve [sqrts; first [ring | field; try lra]] | idtac].
(** symbolic execution, domain conditions, then equality of results by cases *)
Ltac rexec := intros; unlists; symr; rprep; try domain.
Ltac rcells := unfold eps in *; lcbv; rifs; try (exfalso; lra); lcbv; cells fieldl; try reflexivity.

(** calls that end in an error *)
Ltac rabort := intros; unlists; symx_with 20%nat; useeqs; rcbv; lcbv; rifs; simpl; try reflexivity; try (exfalso; lra).
