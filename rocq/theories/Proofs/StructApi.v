(** * The struct API forwards to the array API (C56) *)

From Coq Require Import String List ZArith Bool Lia.
From Verif Require Import MiniC Contract SymSound SymCall Tac Cglm.
From Verif.Spec Require Import StructApi Agree.
From Verif.Proofs Require Import Loop Layout Forward Struct Outcome.
Import ListNotations.
Local Open Scope nat_scope.
Local Open Scope list_scope.

(** 611 functions of the struct API: the contract of the array function carries over *)
Lemma C56_transfer_ok : Forall (fun t => transfers (fst (fst t)) (snd (fst t)) (snd t)) struct_api.
Proof. unfold struct_api. repeat (apply Forall_cons; [apply shape_ok; vm_compute; reflexivity|]). constructor. Qed.

(** ** Functions that pass copies of their structures to a struct function *)
Fixpoint copies (ps : list (string * option nat)) (es : exprs) : bool :=
  match ps, es with
  | [], Enil => true
  | (x, None) :: ps', Econs (EV y) es' => String.eqb x y && copies ps' es'
  | (x, Some n) :: ps', Econs (ELdA k (EV y)) es' => String.eqb x y && Nat.eqb n k && copies ps' es'
  | _, _ => false
  end.
Definition delegate (f g : fundef) : Prop :=
  match f with
  | Fun ps [] b => distinct (map fst ps) = true /\
    match b with
    | SRet (ECall g' es) => g = g' /\ copies ps es = true
    | SExp (ECall g' es) => g = g' /\ void g = true /\ copies ps es = true
    | _ => False
    end
  | _ => False
  end.

Lemma evals_copies : forall S ps es, copies ps es = true -> forall afs ags, operands (map snd ps) afs ags ->
  forall (m : mem (T S)) pts pre r, length pts = length ps ->
  Forall2 (fun x v => var S r x = Ok v) (map fst ps) (actuals ags (gptrs (length (m ++ pre)) (map snd ps) pts)) ->
  forall M, M = (m ++ pre) ++ blks afs (map snd ps) ->
  evals S es r M = Ok (actuals afs pts, M).
Proof.
  induction ps as [|[x [n|]] ps IH]; intros es C afs ags O m pts pre r L V M ->; destruct es as [|e es]; try discriminate.
  - inversion O; subst. destruct pts; [reflexivity|discriminate].
  - simpl in C. destruct e; try discriminate. destruct e; try discriminate. apply andb_prop in C. destruct C as [C C2]. apply andb_prop in C. destruct C as [C C1].
    apply String.eqb_eq in C. apply Nat.eqb_eq in C1. subst. cbn [map snd fst] in *. inversion O; subst. destruct pts as [|p pts]; [discriminate|].
    cbn [gptrs actuals blks] in *. inversion V; subst.
    change (evals S (Econs (ELdA (length cs) (EV x0)) es) r ((m ++ pre) ++ cs :: blks afs0 (map snd ps))) with
      (do (v, m1) <- eval S (ELdA (length cs) (EV x0)) r ((m ++ pre) ++ cs :: blks afs0 (map snd ps)); do (vs, m2) <- evals S es r m1; Ok (v :: vs, m2)).
    assert (B : actual b (length (m ++ pre), 0%Z) = VP (length (m ++ pre)) 0) by (match goal with h : b = _ \/ _ |- _ => destruct h as [ -> | [ -> | -> ] ]; reflexivity end).
    rewrite B in *.
    erewrite eval_lda; eauto. 2:{ apply (holds_block (m ++ pre) (blks afs0 (map snd ps)) cs). }
    cbn [rbind]. erewrite (IH es C2 afs0 ags0 ltac:(eassumption) m pts (pre ++ [cs])).
    + reflexivity.
    + simpl in L. lia.
    + rewrite app_assoc, (app_length (m ++ pre)). cbn [length]. rewrite Nat.add_1_r. eassumption.
    + rewrite <- !app_assoc. reflexivity.
  - simpl in C. destruct e; try discriminate. apply andb_prop in C. destruct C as [C C2]. apply String.eqb_eq in C. subst.
    cbn [map snd fst] in *. inversion O; subst. destruct pts as [|p pts]; [discriminate|].
    cbn [gptrs actuals] in *. inversion V; subst. rewrite blks_none.
    match goal with |- evals S (Econs (EV ?y) es) r ?M = _ =>
      change (evals S (Econs (EV y) es) r M) with (do (v, m1) <- (do v <- var S r y; Ok (v, M)); do (vs, m2) <- evals S es r m1; Ok (v :: vs, m2)) end.
    match goal with h : var S r _ = Ok _ |- _ => rewrite h end. cbn [rbind].
    erewrite (IH es C2 afs0 ags0 ltac:(eassumption) m pts pre); eauto.
Qed.

Lemma delegate_ok : forall f g, delegate f g -> stands_for f g.
Proof.
  intros [ps [|? ?] b] g D S afs ags ret outs O C m pts L; [|contradiction]. destruct D as [Dd D]. cbn [kinds] in O.
  assert (Lk := operands_len _ _ _ O). rewrite map_length in Lk. destruct Lk as [La Lg].
  assert (Lp : length pts = length ps) by (rewrite <- (Forall2_len _ _ _ _ _ (lay_placed _ _ _ L)); auto).
  rewrite call_fun, (bind_ops _ _ _ _ O) by auto. cbn [rbind bind_locals].
  set (gs := gptrs (length m) (map snd ps) pts) in *.
  assert (V : Forall2 (fun x v => var S (combine (map fst ps) (actuals ags gs) ++ []) x = Ok v) (map fst ps) (actuals ags gs)).
  { assert (Lq : length gs = length ags) by (unfold gs; rewrite gptrs_len; rewrite map_length; lia).
    apply vars_own; auto. rewrite actuals_len, map_length; lia. eapply ops_defined; eauto. }
  assert (Y : layout (m ++ blks afs (map snd ps)) afs pts).
  { split.
    - apply Forall2_ranged. apply (lay_placed _ _ _ L). intros i a p. apply (ranged_at _ _ _ (ops_ranged _ _ _ O _ _ (lay_placed _ _ _ L))).
    - apply (lay_compat _ _ _ L). }
  assert (Ev : forall es, copies ps es = true -> evals S es (combine (map fst ps) (actuals ags gs) ++ []) (m ++ blks afs (map snd ps)) = Ok (actuals afs pts, m ++ blks afs (map snd ps))).
  { intros es Ce. apply (evals_copies S ps es Ce _ _ O m pts []); auto; rewrite (app_nil_r m); auto. }
  assert (Hold : filter (old (length m)) (combine (wptrs afs pts) outs) = combine (wptrs afs pts) outs).
  { pose proof (ops_ranged _ _ _ O _ _ (lay_placed _ _ _ L)) as R. clear -R.
    revert outs. induction R; intros outs; simpl; auto. destruct (written x) eqn:W; auto. destruct outs; auto. simpl. unfold old at 1. simpl.
    destruct (Nat.ltb_spec (fst y) (length m)) as [Q|Q]; [f_equal; auto|]. specialize (H (wr_pointer _ W)). lia. }
  destruct b; try contradiction; destruct e; try contradiction.
  - destruct D as (-> & Vd & Ce). rewrite exec_exp, (eval_call _ _ _ _ _ _ (Ev _ Ce)). pose proof (C _ _ Y) as Cm. rewrite Cm. cbn [rbind].
    rewrite (call_void _ _ _ _ _ _ Vd Cm), upds_cut, Hold. reflexivity.
  - destruct D as (-> & Ce). rewrite exec_ret, (eval_call _ _ _ _ _ _ (Ev _ Ce)). rewrite (C _ _ Y). cbn [rbind]. rewrite upds_cut, Hold. reflexivity.
Qed.

(** the functions of the default clip space *)
Lemma C56_default_ok : Forall (fun p => stands_for (fst p) (snd p)) struct_default.
Proof. unfold struct_default. repeat (apply Forall_cons; [apply delegate_ok; vm_compute; repeat split|]). constructor. Qed.

(** ** Functions that copy boxes, planes or corners *)
(** the bounding box functions of the struct API have the outcome of the array functions *)
Lemma C56_box_ok : forall S (b c d m s p : list (T S)), length b = 6 -> length c = 6 -> length d = 6 -> length m = 16 -> length s = 4 -> length p = 3 ->
  same S glm_aabb_transform [In (fl b); In (fl m); Out 6] glms_aabb_transform [In (fl b); Val (VA (fl m)); Out 6] /\
  same S glm_aabb_merge [In (fl b); In (fl c); Out 6] glms_aabb_merge [In (fl b); In (fl c); Out 6] /\
  same S glm_aabb_crop [In (fl b); In (fl c); Out 6] glms_aabb_crop [In (fl b); In (fl c); Out 6] /\
  same S glm_aabb_crop_until [In (fl b); In (fl c); In (fl d); Out 6] glms_aabb_crop_until [In (fl b); In (fl c); In (fl d); Out 6] /\
  same S glm_aabb_invalidate [Out 6] glms_aabb_invalidate [Out 6] /\
  same S glm_aabb_isvalid [In (fl b)] glms_aabb_isvalid [In (fl b)] /\
  same S glm_aabb_size [In (fl b)] glms_aabb_size [In (fl b)] /\
  same S glm_aabb_radius [In (fl b)] glms_aabb_radius [In (fl b)] /\
  same S glm_aabb_aabb [In (fl b); In (fl c)] glms_aabb_aabb [In (fl b); In (fl c)] /\
  same S glm_aabb_sphere [In (fl b); In (fl s)] glms_aabb_sphere [In (fl b); Val (VA (fl s))] /\
  same S glm_aabb_point [In (fl b); In (fl p)] glms_aabb_point [In (fl b); Val (VA (fl p))] /\
  same S glm_aabb_contains [In (fl b); In (fl c)] glms_aabb_contains [In (fl b); In (fl c)] /\
  same_value S glm_aabb_center [In (fl b); Out 3] glms_aabb_center [In (fl b)].
Proof. intros. unlists. repeat split; unfold same, same_value; outcome_with 2%nat. Qed.
(** box against frustum planes *)
Lemma C56_aabb_frustum_ok : forall S (b p : list (T S)), length b = 6 -> length p = 24 ->
  same S glm_aabb_frustum [In (fl b); In (fl p)] glms_aabb_frustum [In (fl b); In (fl p)].
Proof. intros. unlists. repeat split; unfold same, same_value; outcome_with 2%nat. Qed.
(** the frustum functions *)
Lemma C56_frustum_ok : forall S (k m : list (T S)), length k = 32 -> length m = 16 ->
  same S glm_frustum_planes [In (fl m); Out 24] glms_frustum_planes [Val (VA (fl m)); Out 24] /\
  same S glm_frustum_corners [In (fl m); Out 32] glms_frustum_corners [Val (VA (fl m)); Out 32] /\
  same_value S glm_frustum_center [In (fl k); Out 4] glms_frustum_center [In (fl k)].
Proof. intros. unlists. repeat split; unfold same, same_value; outcome_with 2%nat. Qed.
(** the box of a frustum *)
Lemma C56_frustum_box_ok : forall S (k m : list (T S)), length k = 32 -> length m = 16 ->
  same S glm_frustum_box [In (fl k); In (fl m); Out 6] glms_frustum_box [In (fl k); Val (VA (fl m)); Out 6].
Proof. intros. unlists. repeat split; unfold same, same_value; outcome_with 2%nat. Qed.
(** orthographic projections of a box *)
Lemma C56_ortho_aabb_ok : forall S (b : list (T S)) (x : T S), length b = 6 ->
  same_value S glm_ortho_aabb_lh_no [In (fl b); Out 16] glms_ortho_aabb_lh_no [In (fl b)] /\
  same_value S glm_ortho_aabb_p_lh_no [In (fl b); Val (VF x); Out 16] glms_ortho_aabb_p_lh_no [In (fl b); Val (VF x)] /\
  same_value S glm_ortho_aabb_pz_lh_no [In (fl b); Val (VF x); Out 16] glms_ortho_aabb_pz_lh_no [In (fl b); Val (VF x)] /\
  same_value S glm_ortho_aabb_lh_zo [In (fl b); Out 16] glms_ortho_aabb_lh_zo [In (fl b)] /\
  same_value S glm_ortho_aabb_p_lh_zo [In (fl b); Val (VF x); Out 16] glms_ortho_aabb_p_lh_zo [In (fl b); Val (VF x)] /\
  same_value S glm_ortho_aabb_pz_lh_zo [In (fl b); Val (VF x); Out 16] glms_ortho_aabb_pz_lh_zo [In (fl b); Val (VF x)] /\
  same_value S glm_ortho_aabb_rh_no [In (fl b); Out 16] glms_ortho_aabb_rh_no [In (fl b)] /\
  same_value S glm_ortho_aabb_p_rh_no [In (fl b); Val (VF x); Out 16] glms_ortho_aabb_p_rh_no [In (fl b); Val (VF x)] /\
  same_value S glm_ortho_aabb_pz_rh_no [In (fl b); Val (VF x); Out 16] glms_ortho_aabb_pz_rh_no [In (fl b); Val (VF x)] /\
  same_value S glm_ortho_aabb_rh_zo [In (fl b); Out 16] glms_ortho_aabb_rh_zo [In (fl b)] /\
  same_value S glm_ortho_aabb_p_rh_zo [In (fl b); Val (VF x); Out 16] glms_ortho_aabb_p_rh_zo [In (fl b); Val (VF x)] /\
  same_value S glm_ortho_aabb_pz_rh_zo [In (fl b); Val (VF x); Out 16] glms_ortho_aabb_pz_rh_zo [In (fl b); Val (VF x)].
Proof. intros. unlists. repeat split; unfold same, same_value; outcome_with 2%nat. Qed.
(** functions that change a copy of their matrix *)
Lemma C56_change_ok : forall S (m q : list (T S)) (x : T S), length m = 16 -> length q = 4 ->
  same_value S glm_persp_move_far_lh_no [InOut (fl m); Val (VF x)] glms_persp_move_far_lh_no [Val (VA (fl m)); Val (VF x)] /\
  same_value S glm_perspective_resize_lh_no [Val (VF x); InOut (fl m)] glms_perspective_resize_lh_no [Val (VA (fl m)); Val (VF x)] /\
  same_value S glm_persp_move_far_lh_zo [InOut (fl m); Val (VF x)] glms_persp_move_far_lh_zo [Val (VA (fl m)); Val (VF x)] /\
  same_value S glm_perspective_resize_lh_zo [Val (VF x); InOut (fl m)] glms_perspective_resize_lh_zo [Val (VA (fl m)); Val (VF x)] /\
  same_value S glm_persp_move_far_rh_no [InOut (fl m); Val (VF x)] glms_persp_move_far_rh_no [Val (VA (fl m)); Val (VF x)] /\
  same_value S glm_perspective_resize_rh_no [Val (VF x); InOut (fl m)] glms_perspective_resize_rh_no [Val (VA (fl m)); Val (VF x)] /\
  same_value S glm_persp_move_far_rh_zo [InOut (fl m); Val (VF x)] glms_persp_move_far_rh_zo [Val (VA (fl m)); Val (VF x)] /\
  same_value S glm_perspective_resize_rh_zo [Val (VF x); InOut (fl m)] glms_perspective_resize_rh_zo [Val (VA (fl m)); Val (VF x)] /\
  same_value S glm_quat_rotate [In (fl m); In (fl q); Out 16] glms_quat_rotate [Val (VA (fl m)); Val (VA (fl q))].
Proof. intros. unlists. repeat split; unfold same, same_value; outcome_with 2%nat. Qed.

(** ** The statements apply *)
Lemma C56_transfer_ex : List.In (glms_vec3_cross, glm_vec3_cross, Dest 3) struct_api /\ List.In (glms_mat4_mulv3, glm_mat4_mulv3, Dest 3) struct_api /\
  length struct_api = 611.
Proof.
  split; [|split; [|reflexivity]]; unfold struct_api; repeat (first [left; reflexivity | right]).
Qed.
(** a contract of the struct function obtained from that of the array function *)
Lemma C56_transfer_cross_ex : forall S (a b : list (T S)) out, length a = 3 -> length b = 3 -> length out = 3 ->
  computes S glm_vec3_cross [In (fl a); In (fl b); Out 3] VVoid [fl out] ->
  computes S glms_vec3_cross [Val (VA (fl a)); Val (VA (fl b))] (VA (fl out)) [].
Proof.
  intros S a b out La Lb Lo H. assert (X : transfers glms_vec3_cross glm_vec3_cross (Dest 3)).
  { pose proof C56_transfer_ok as E. rewrite Forall_forall in E. apply (E (glms_vec3_cross, glm_vec3_cross, Dest 3)). apply C56_transfer_ex. }
  apply (X S [Val (VA (fl a)); Val (VA (fl b))] [In (fl a); In (fl b)] [] VVoid).
  - replace (kinds glms_vec3_cross) with [Some (length (fl a)); Some (length (fl b))] by (unfold fl; rewrite !map_length, La, Lb; reflexivity).
    repeat constructor.
  - reflexivity.
  - unfold fl. rewrite map_length. auto.
  - exact H.
Qed.
Lemma C56_default_ex : length struct_default = 25.
Proof. reflexivity. Qed.
