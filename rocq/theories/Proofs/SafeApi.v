(** * Memory safety of the array and struct functions (C58) *)

From Coq Require Import String List ZArith Bool Lia.
From Verif Require Import MiniC Contract Sym SymSound SymCall Tac Cglm.
From Verif.Gen Require Import struct_frustum.
From Verif.Spec Require Import Signatures.
From Verif.Proofs Require Import Safe Loop Struct.
(* props: From Verif.Gen Require Import struct_frustum. *)
Import ListNotations.
Local Open Scope string_scope.
Local Open Scope list_scope.

Lemma safe_all : forall l, forallb (fun p => safeb 2 (fst p) (snd p)) l = true -> Forall (fun p => safe (fst p) (snd p)) l.
Proof. intros l H. apply Forall_forall. intros [f ps] I. rewrite forallb_forall in H. apply (safeb_ok 2). apply (H _ I). Qed.

(** For every arithmetic, all values and all addresses that fit the declared parameters, every
    listed function stays inside the objects it is given, reads nothing uninitialised and writes
    only to the objects declared as outputs. *)
Lemma C58_safe_ok : Forall (fun p => safe (fst p) (snd p)) signatures.
Proof. apply safe_all. vm_compute. reflexivity. Qed.

(** the length of the list, one of its entries, and a memory with aliased arguments for it *)
Lemma C58_safe_ex : length signatures = 1479%nat /\ List.In (glm_vec3_cross, [Reads Flt 3; Reads Flt 3; Writes 3]) signatures /\
  forall (F : Type) (x : F), exists m args ps, Forall2 fits [Reads Flt 3; Reads Flt 3; Writes 3] args /\ layout m args ps /\ nth_error ps 0 = nth_error ps 2 /\ m = [fl [x; x; x; x]; fl [x; x; x]].
Proof.
  split; [vm_compute; reflexivity|]. split.
  - apply (nth_error_In signatures 1350). reflexivity.
  - intros F x. exists [fl [x; x; x; x]; fl [x; x; x]], [InA (fl [x; x; x]); InA (fl [x; x; x]); Out 3], [(0%nat, 1%Z); (1%nat, 0%Z); (0%nat, 1%Z)].
    split; [|split; [|auto]].
    + repeat constructor; simpl; exists (fl [x;x;x]); split; auto; exists [x;x;x]; auto.
    + split.
      * repeat constructor; simpl; try reflexivity. discriminate.
      * intros i j a b p q Nij Ha Hb Hp Hq W P.
        destruct i as [|[|[|[|i]]]], j as [|[|[|[|j]]]]; simpl in *; try congruence; try discriminate; injection Ha as <-; injection Hb as <-; injection Hp as <-; injection Hq as <-;
          simpl in *; try discriminate; auto. left. left. simpl. lia.
Qed.

(** ** Functions the symbolic evaluator does not cover *)
Section D.
Variable S : Scalar.
Notation F := (T S).
Definition cj_body : stmt :=
  match glm_decasteljau with
  | Fun _ _ (SSeq _ (SSeq _ (SSeq _ (SSeq _ (SSeq (SFor _ _ _ b) _))))) => b
  | _ => SSkip end.
Definition cj_env (prm p0 c0 c1 p1 u v : F) (a b c d e f i : value F) : env F :=
  [("prm", VF prm); ("p0", VF p0); ("c0", VF c0); ("c1", VF c1); ("p1", VF p1); ("u", VF u); ("v", VF v);
   ("a", a); ("b", b); ("c", c); ("d", d); ("e", e); ("f", f); ("i", i)].
Lemma clamp_call : forall x m, exists y, call S glm_clamp_zo [VF x] m = Ok (VF y, m).
Proof.
  intros. cbn. repeat match goal with |- context [if ?b then _ else _] => destruct b; cbn end; repeat rewrite firstn_all; eexists; reflexivity.
Qed.
Lemma cj_step : forall prm p0 c0 c1 p1 u v a b c d e f i m,
  (exists y r, exec S cj_body (cj_env prm p0 c0 c1 p1 u v a b c d e f (VI i)) m = Ok (FRet (VF y), r, m)) \/
  exists p0' c0' c1' p1' u' v' a' b' c' d' e' f', exec S cj_body (cj_env prm p0 c0 c1 p1 u v a b c d e f (VI i)) m =
    Ok (FNext, cj_env prm p0' c0' c1' p1' u' v' a' b' c' d' e' f' (VI i), m).
Proof.
  intros. unfold cj_env, cj_body, glm_decasteljau. pose proof clamp_call as H. revert H. generalize glm_clamp_zo. intros g H.
  cbn. fold (call S). unfold fop1, fop2. cbn. fold (call S).
  match goal with |- context [s_cmp S CLt ?x (s_lit S 1 1000000000)] => destruct (s_cmp S CLt x (s_lit S 1 1000000000)) end; cbn; fold (call S).
  - left. match goal with |- context [call S g [VF ?x] m] => destruct (H x m) as [y ->] end. cbn. eauto.
  - right. match goal with |- context [s_cmp S CLt ?x prm] => destruct (s_cmp S CLt x prm) end; cbn; repeat eexists.
Qed.
Lemma cj_loop : forall n z prm p0 c0 c1 p1 u v a b c d e f i m,
  (exists y r, forloop S "i" cj_body n z (cj_env prm p0 c0 c1 p1 u v a b c d e f i) m = Ok (FRet (VF y), r, m)) \/
  exists p0' c0' c1' p1' u' v' a' b' c' d' e' f' i', forloop S "i" cj_body n z (cj_env prm p0 c0 c1 p1 u v a b c d e f i) m =
    Ok (FNext, cj_env prm p0' c0' c1' p1' u' v' a' b' c' d' e' f' i', m).
Proof.
  induction n; intros.
  - right. repeat eexists.
  - rewrite forloop_S. change (assign "i" (VI z) (cj_env prm p0 c0 c1 p1 u v a b c d e f i)) with (cj_env prm p0 c0 c1 p1 u v a b c d e f (VI z)).
    destruct (cj_step prm p0 c0 c1 p1 u v a b c d e f z m) as [(y & r & ->)|(p0' & c0' & c1' & p1' & u' & v' & a' & b' & c' & d' & e' & f' & ->)]; cbn [rbind].
    + left. eauto.
    + apply IHn.
Qed.
Lemma cj_call : forall prm p0 c0 c1 p1 (m : mem F), exists y, call S glm_decasteljau [VF prm; VF p0; VF c0; VF c1; VF p1] m = Ok (VF y, m).
Proof.
  intros. unfold glm_decasteljau. rewrite call_fun. cbn [bind_params bind_locals rbind app].
  rewrite exec_seq, exec_if. cbn -[exec s_cmp call]. destruct (s_cmp S CLt (s_op2 S OSub prm p0) (s_lit S 1 100000000000000000000)).
  { cbn. rewrite firstn_all. eauto. }
  rewrite exec_skip. cbn [rbind]. rewrite exec_seq, exec_if. cbn -[exec s_cmp call]. destruct (s_cmp S CLt (s_op2 S OSub p1 prm) (s_lit S 1 100000000000000000000)).
  { cbn. rewrite firstn_all. eauto. }
  rewrite exec_skip. cbn [rbind]. rewrite exec_seq, exec_set. cbn -[exec s_cmp call]. rewrite exec_seq, exec_set. cbn -[exec s_cmp call].
  rewrite exec_seq, exec_for. cbn [eval rbind]. change (Z.to_nat (1000 - 0)) with 1000%nat.
  match goal with |- context [forloop S "i" ?b 1000 0 ?r m] => change (forloop S "i" b 1000 0 r m) with
    (forloop S "i" cj_body 1000 0 (cj_env prm p0 c0 c1 p1 (s_lit S 0 1) (s_lit S 1 1) VU VU VU VU VU VU VU) m) end.
  destruct (cj_loop 1000 0 prm p0 c0 c1 p1 (s_lit S 0 1) (s_lit S 1 1) VU VU VU VU VU VU VU m) as [(y & r & ->)|(p0' & c0' & c1' & p1' & u' & v' & a' & b' & c' & d' & e' & f' & i' & ->)]; cbn [rbind].
  { rewrite firstn_all. eauto. }
  rewrite exec_ret. unfold cj_env. pose proof clamp_call as H. revert H. generalize glm_clamp_zo. intros g H. cbn. fold (call S).
  match goal with |- context [call S g [VF ?x] m] => destruct (H x m) as [y ->] end. cbn. rewrite firstn_all. eauto.
Qed.
End D.

(** De Casteljau's algorithm. *)
Lemma C58_decasteljau_ok : safe glm_decasteljau [Float; Float; Float; Float; Float].
Proof.
  intros S args H. repeat match goal with H : Forall2 fits (_ :: _) _ |- _ => inversion H; clear H; subst end.
  match goal with H : Forall2 fits [] _ |- _ => inversion H; clear H; subst end.
  repeat match goal with H : fits Float _ |- _ => destruct H as [? ->] end.
  intros m ps L. left. pose proof (Forall2_len _ _ _ _ _ (lay_placed _ _ _ L)) as E.
  destruct ps as [|q0 [|q1 [|q2 [|q3 [|q4 [|]]]]]]; try discriminate. cbn [actuals actual].
  match goal with |- context [call S _ [VF ?a; VF ?b; VF ?c; VF ?d; VF ?e] m] => destruct (cj_call S a b c d e m) as [y Y] end.
  exists (VF y), []. split; [constructor|]. exact Y.
Qed.

(** ** The struct version of glm_frustum_corners_at is not safe *)
Definition unitS : Scalar := {| T := unit; s_op1 := fun _ _ => tt; s_ok1 := fun _ _ => true; s_op2 := fun _ _ _ => tt; s_ok2 := fun _ _ _ => true;
  s_fma := fun _ _ _ => tt; s_cmp := fun _ _ _ => false; s_test := fun _ _ => false; s_lit := fun _ _ => tt; s_pi := fun _ _ => tt;
  s_ofZ := fun _ => tt; s_toZ := fun _ => None |}.

(** glms_frustum_corners_at reads past the end of a local array. *)
Lemma C58_frustum_corners_at_refuted_ok : exists (S : Scalar) args m ps, Forall2 fits [Reads Flt 32; Float; Float; Writes 16] args /\ layout m args ps /\
  call S glms_frustum_corners_at (actuals args ps) m = Err XBounds.
Proof.
  exists unitS, [InA (fl (repeat tt 32)); Val (VF tt); Val (VF tt); Out 16], [fl (repeat tt 32); repeat CU 16], [(0%nat, 0%Z); (0%nat, 0%Z); (0%nat, 0%Z); (1%nat, 0%Z)].
  split; [|split].
  - repeat constructor; simpl; eauto. eexists; split; [|reflexivity]. exists (repeat tt 32). auto.
  - split.
    + repeat constructor; simpl; try reflexivity. discriminate.
    + intros i j a b p q Nij Ha Hb Hp Hq W P.
      destruct i as [|[|[|[|[|i]]]]], j as [|[|[|[|[|j]]]]]; simpl in *; try congruence; try discriminate; injection Ha as <-; injection Hb as <-; injection Hp as <-; injection Hq as <-;
          simpl in *; try discriminate; auto. left. left. simpl. lia.
  - vm_compute. reflexivity.
Qed.

