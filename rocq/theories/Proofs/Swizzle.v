(** * Swizzle (C50) *)

From Coq Require Import String List ZArith Bool Lia.
From Verif Require Import Cglm.
From Verif.Spec Require Import Swizzle.
From Verif.Proofs Require Import Layout RExact MatMisc.
Import ListNotations.
Local Open Scope Z_scope.

Lemma field0 : forall mask, Z.land mask 3 = Z.of_nat (field mask 0).
Proof.
  intros. unfold field. rewrite Z.div_1_r, Z2Nat.id by (apply Z.mod_pos_bound; lia). change 3 with (Z.ones 2). rewrite Z.land_ones by lia. reflexivity.
Qed.
Lemma fieldk : forall mask k s, s = 2 * Z.of_nat k -> Z.shiftr (Z.land mask (Z.shiftl 3 s)) s = Z.of_nat (field mask k).
Proof.
  intros mask k s ->. unfold field. rewrite Z2Nat.id by (apply Z.mod_pos_bound; lia).
  rewrite Z.shiftr_land, Z.shiftr_shiftl_l, Z.sub_diag, Z.shiftl_0_r by lia. change 3 with (Z.ones 2). rewrite Z.land_ones by lia.
  rewrite Z.shiftr_div_pow2 by lia. rewrite Z.pow_mul_r by lia. reflexivity.
Qed.
Lemma field_shuffle : forall l k, Forall (fun i => 0 <= i < 4) l -> (k < length l)%nat -> Z.of_nat (field (shuffle l) k) = nth k l 0.
Proof.
  intros l. induction l as [|i l IH]; cbn [shuffle length nth]; intros k F H; [lia|]. inversion F as [|? ? A B]. subst. destruct k.
  - unfold field. change (4 ^ Z.of_nat 0) with 1. rewrite Z.div_1_r, Z2Nat.id by (apply Z.mod_pos_bound; lia). rewrite Z.mul_comm, Z.mod_add by lia. apply Z.mod_small. exact A.
  - rewrite <- IH by (auto; lia). unfold field. rewrite !Z2Nat.id by (apply Z.mod_pos_bound; lia). f_equal.
    rewrite Nat2Z.inj_succ, Z.pow_succ_r by lia. rewrite <- Z.div_div by lia. f_equal. rewrite Z.mul_comm, Z.div_add by lia. rewrite Z.div_small by lia. reflexivity.
Qed.
Ltac mstep S := cbn -[call Z.shiftl Z.shiftr Z.land load store mwrite field Z.mul Z.add];
  repeat match goal with
  | |- context [mkint (Z.shiftl 3 ?k)] => let r := eval vm_compute in (mkint (Z.shiftl 3 k)) in change (mkint (Z.shiftl 3 k)) with r
  end;
  cbn -[call Z.shiftl Z.shiftr Z.land load store mwrite field Z.mul Z.add];
  rewrite ?field0; rewrite ?(fun m => fieldk m 1 2 eq_refl : Z.shiftr (Z.land m 12) 2 = _), ?(fun m => fieldk m 2 4 eq_refl : Z.shiftr (Z.land m 48) 4 = _),
    ?(fun m => fieldk m 3 6 eq_refl : Z.shiftr (Z.land m 192) 6 = _).
Ltac mgo S rw := mstep S; rw; repeat (first [reflexivity
  | match goal with
    | |- context [load S ?m ?p] => destruct (load S m p); mstep S; rw
    | |- context [store S ?m ?p ?v] => destruct (store S m p v); mstep S; rw
    | |- context [var S ?r ?x] => destruct (var S r x); mstep S; rw
    | |- context [call S ?f ?v ?m] => destruct (call S f v m) as [[]|]; mstep S; rw
    end]).

Lemma vec2_mask : forall (S : Scalar) mask mask' b o m b' o', (forall k, (k < 2)%nat -> field mask k = field mask' k) ->
  call S glm_vec2_swizzle [VP b o; VI mask; VP b' o'] m = call S glm_vec2_swizzle [VP b o; VI mask'; VP b' o'] m.
Proof.
  intros S mask mask' b o m b' o' H. assert (H0 := H 0%nat ltac:(lia)). assert (H1 := H 1%nat ltac:(lia)). clear H.
  unfold glm_vec2_swizzle. generalize glm_vec2_copy. intros f. unfold call. cbn [exec eval evals]. fold (call S).
  mgo S ltac:(rewrite ?H0, ?H1). 
Qed.
Lemma vec3_mask : forall (S : Scalar) mask mask' b o m b' o', (forall k, (k < 3)%nat -> field mask k = field mask' k) ->
  call S glm_vec3_swizzle [VP b o; VI mask; VP b' o'] m = call S glm_vec3_swizzle [VP b o; VI mask'; VP b' o'] m.
Proof.
  intros S mask mask' b o m b' o' H. assert (H0 := H 0%nat ltac:(lia)). assert (H1 := H 1%nat ltac:(lia)). assert (H2 := H 2%nat ltac:(lia)). clear H.
  unfold glm_vec3_swizzle. generalize glm_vec3_copy. intros f. unfold call. cbn [exec eval evals]. fold (call S).
  mgo S ltac:(rewrite ?H0, ?H1, ?H2). 
Qed.
Lemma vec4_mask : forall (S : Scalar) mask mask' b o m b' o', (forall k, (k < 4)%nat -> field mask k = field mask' k) ->
  call S glm_vec4_swizzle [VP b o; VI mask; VP b' o'] m = call S glm_vec4_swizzle [VP b o; VI mask'; VP b' o'] m.
Proof.
  intros S mask mask' b o m b' o' H. assert (H0 := H 0%nat ltac:(lia)). assert (H1 := H 1%nat ltac:(lia)). assert (H2 := H 2%nat ltac:(lia)). assert (H3 := H 3%nat ltac:(lia)). clear H.
  unfold glm_vec4_swizzle. generalize glm_vec4_copy. intros f. unfold call. cbn [exec eval evals]. fold (call S).
  mgo S ltac:(rewrite ?H0, ?H1, ?H2, ?H3). 
Qed.

(** arguments passed by value do not matter for the layout *)
Definition same_place {F} (a b : arg F) : Prop := a = b \/ exists v w, a = Val v /\ b = Val w.
Lemma same_placed : forall F (m : mem F) a b p, same_place a b -> placed m a p -> placed m b p.
Proof. intros F m a b p [->|(v & w & -> & ->)]; auto. Qed.
Lemma same_compat : forall F (a a' b b' : arg F) p q, same_place a a' -> same_place b b' -> compatible a p b q -> compatible a' p b' q.
Proof.
  intros F a a' b b' p q [->|(v & w & -> & ->)] [->|(v' & w' & -> & ->)]; auto; unfold compatible; simpl; try discriminate.
Qed.
Lemma nth_same : forall F (l l' : list (arg F)), Forall2 same_place l l' -> forall i a', nth_error l' i = Some a' -> exists a, nth_error l i = Some a /\ same_place a a'.
Proof.
  intros F l l' H. induction H; intros [|i] a'; simpl; intros E; try discriminate; eauto. injection E as <-. eauto.
Qed.
Lemma layout_same : forall F (m : mem F) l l' ps, Forall2 same_place l l' -> layout m l ps -> layout m l' ps.
Proof.
  intros F m l l' ps H [P C]. split.
  - clear C. revert l' H. induction P; intros l2 H2; inversion H2; subst; constructor; eauto using same_placed.
  - intros i j a b p q N Ea Eb Ep Eq. destruct (nth_same _ _ _ H _ _ Ea) as (a0 & A & Sa). destruct (nth_same _ _ _ H _ _ Eb) as (b0 & B & Sb).
    eapply same_compat; eauto.
Qed.

Lemma swz_transfer : forall (S : Scalar) n mask mask' v outs, (2 <= n <= 4)%nat -> (forall k, (k < n)%nat -> field mask k = field mask' k) ->
  computes S (swizzle_fn n) [InA v; Val (VI mask'); Out n] VVoid outs -> computes S (swizzle_fn n) [InA v; Val (VI mask); Out n] VVoid outs.
Proof.
  intros S n mask mask' v outs Hn H C m ps Hl.
  assert (Hl' : layout m [InA v; Val (VI mask'); Out n] ps).
  { eapply layout_same; [|exact Hl]. constructor; [left; auto|]. constructor; [right; eauto|]. constructor; [left; auto|constructor]. }
  specialize (C m ps Hl'). pose proof (lay_placed _ _ _ Hl) as F. inversion F as [|? p ? l1 _ F1]; subst. inversion F1 as [|? q ? l2 _ F2]; subst. inversion F2 as [|? r ? l3 _ F3]; subst. inversion F3; subst.
  cbn -[call swizzle_fn upds] in *. rewrite <- C.
  assert (n = 2 \/ n = 3 \/ n = 4)%nat as [->|[->| ->]] by lia; [apply vec2_mask|apply vec3_mask|apply vec4_mask]; exact H.
Qed.
Ltac lits := repeat match goal with |- context [shuffle ?l] => let r := eval vm_compute in (shuffle l) in change (shuffle l) with r end.
Lemma swz2 : forall (S : Scalar) (d : T S) v i j, length v = 2%nat -> 0 <= i < 2 -> 0 <= j < 2 ->
  computes S glm_vec2_swizzle [InA (fl v); Val (VI (shuffle [i; j])); Out 2] VVoid [fl [nth (Z.to_nat i) v d; nth (Z.to_nat j) v d]].
Proof.
  intros S d v i j L Hi Hj. unlists. revert i Hi. apply zcases2; revert j Hj; apply zcases2; lits; sym_with 100%nat; useeqs; gsplit; reflexivity.
Qed.
Lemma swz3 : forall (S : Scalar) (d : T S) v i j k, length v = 3%nat -> 0 <= i < 3 -> 0 <= j < 3 -> 0 <= k < 3 ->
  computes S glm_vec3_swizzle [InA (fl v); Val (VI (shuffle [i; j; k])); Out 3] VVoid [fl [nth (Z.to_nat i) v d; nth (Z.to_nat j) v d; nth (Z.to_nat k) v d]].
Proof.
  intros S d v i j k L Hi Hj Hk. unlists. revert i Hi. apply zcases3; revert j Hj; apply zcases3; revert k Hk; apply zcases3; lits; sym_with 100%nat; useeqs; gsplit; reflexivity.
Qed.
Lemma swz4 : forall (S : Scalar) (d : T S) v i j k l, length v = 4%nat -> 0 <= i < 4 -> 0 <= j < 4 -> 0 <= k < 4 -> 0 <= l < 4 ->
  computes S glm_vec4_swizzle [InA (fl v); Val (VI (shuffle [i; j; k; l])); Out 4] VVoid [fl [nth (Z.to_nat i) v d; nth (Z.to_nat j) v d; nth (Z.to_nat k) v d; nth (Z.to_nat l) v d]].
Proof.
  intros S d v i j k l L Hi Hj Hk Hl. unlists. revert i Hi. apply zcases4; revert j Hj; apply zcases4; revert k Hk; apply zcases4; revert l Hl; apply zcases4; lits; sym_with 100%nat; useeqs; gsplit; reflexivity.
Qed.

(** ** C50 *)
(** every valid mask, for every arithmetic, in place too *)
Lemma C50_swizzle_ok : forall (S : Scalar) n mask (d : T S) v, (2 <= n <= 4)%nat -> length v = n -> mask_ok n mask ->
  computes S (swizzle_fn n) [InA (fl v); Val (VI mask); Out n] VVoid [fl (swizzled n mask d v)].
Proof.
  intros S n mask d v Hn L H.
  assert (B : forall k, (k < n)%nat -> 0 <= Z.of_nat (field mask k) < Z.of_nat n) by (intros k Hk; specialize (H k Hk); lia).
  apply swz_transfer with (shuffle (map (fun k => Z.of_nat (field mask k)) (seq 0 n))); [exact Hn| |].
  - intros k Hk. apply Nat2Z.inj. rewrite field_shuffle.
    + rewrite nth_indep with (d' := (fun k => Z.of_nat (field mask k)) 0%nat) by (rewrite map_length, seq_length; exact Hk).
      rewrite (map_nth (fun k => Z.of_nat (field mask k))), seq_nth by exact Hk. reflexivity.
    + apply Forall_map, Forall_forall. intros j Hj. apply in_seq in Hj. specialize (B j ltac:(lia)). lia.
    + rewrite map_length, seq_length. exact Hk.
  - assert (n = 2 \/ n = 3 \/ n = 4)%nat as [E|[E|E]] by lia; subst n; unfold swizzled; cbn [seq map];
      [pose proof (swz2 S d v (Z.of_nat (field mask 0)) (Z.of_nat (field mask 1)) E) as P
      |pose proof (swz3 S d v (Z.of_nat (field mask 0)) (Z.of_nat (field mask 1)) (Z.of_nat (field mask 2)) E) as P
      |pose proof (swz4 S d v (Z.of_nat (field mask 0)) (Z.of_nat (field mask 1)) (Z.of_nat (field mask 2)) (Z.of_nat (field mask 3)) E) as P];
      rewrite !Nat2Z.id in P; rewrite E in *; apply P; apply B; lia.
Qed.
(** a field beyond the dimension reads outside the vector: shown where nothing follows it in memory *)
Lemma C50_outside_ok : forall (S : Scalar) n mask v, (2 <= n <= 3)%nat -> length v = n -> ~ mask_ok n mask -> exists m ps,
  layout m [InA (fl v); Val (VI mask); Out n] ps /\
  call S (swizzle_fn n) (actuals [InA (fl v); Val (VI mask); Out n] ps) m = Err XBounds.
Proof.
  intros S n mask v Hn L H. exists [fl v; repeat CU n], [(0%nat, 0); (0%nat, 0); (1%nat, 0)]. split.
  - split.
    + repeat constructor; simpl; unfold holds, valid; simpl.
      * assert (n = 2 \/ n = 3)%nat as [E|E] by lia; subst n; unlists; reflexivity.
      * assert (n = 2 \/ n = 3)%nat as [E|E] by lia; rewrite E; discriminate.
    + intros i j a b p q N Ea Eb Ep Eq. unfold compatible.
      destruct i as [|[|[|i]]]; simpl in Ea, Ep; try discriminate; try (destruct i; discriminate); injection Ea as <-; injection Ep as <-; simpl; try discriminate.
      intros _. destruct j as [|[|[|j]]]; simpl in Eb, Eq; try discriminate; try (destruct j; discriminate); try lia; injection Eb as <-; injection Eq as <-; simpl; try discriminate.
      intros _. left. left. simpl. lia.
  - assert (n = 2 \/ n = 3)%nat as [E|E] by lia; subst n.
    + assert (B : forall k, 0 <= Z.of_nat (field mask k) < 4).
      { intros k. unfold field. rewrite Z2Nat.id by (apply Z.mod_pos_bound; lia). apply Z.mod_pos_bound; lia. }
      unlists. cbn [length] in *. cbn [swizzle_fn actuals actual fst snd]. rewrite vec2_mask with (mask' := shuffle [Z.of_nat (field mask 0); Z.of_nat (field mask 1)]).
      * assert (K : ~ (Z.of_nat (field mask 0) < 2 /\ Z.of_nat (field mask 1) < 2)).
        { intros K. apply H. intros [|[|k]] Hk; lia. }
        revert K. pose proof (B 0%nat) as B0. pose proof (B 1%nat) as B1. clear B H.
        revert B0. generalize (Z.of_nat (field mask 0)). revert B1. generalize (Z.of_nat (field mask 1)). intros j Hj i Hi.
        intros K.
        assert (i = 0 \/ i = 1 \/ i = 2 \/ i = 3) as [->|[->|[->| ->]]] by lia; assert (j = 0 \/ j = 1 \/ j = 2 \/ j = 3) as [->|[->|[->| ->]]] by lia; try (exfalso; apply K; split; reflexivity); vm_compute; reflexivity.
      * intros k Hk. apply Nat2Z.inj. rewrite field_shuffle; [|repeat constructor; apply B|exact Hk]. destruct k as [|[|k]]; [reflexivity|reflexivity|lia].
    + assert (B : forall k, 0 <= Z.of_nat (field mask k) < 4).
      { intros k. unfold field. rewrite Z2Nat.id by (apply Z.mod_pos_bound; lia). apply Z.mod_pos_bound; lia. }
      unlists. cbn [length] in *. cbn [swizzle_fn actuals actual fst snd]. rewrite vec3_mask with (mask' := shuffle [Z.of_nat (field mask 0); Z.of_nat (field mask 1); Z.of_nat (field mask 2)]).
      * assert (K : ~ (Z.of_nat (field mask 0) < 3 /\ Z.of_nat (field mask 1) < 3 /\ Z.of_nat (field mask 2) < 3)).
        { intros K. apply H. intros [|[|[|k]]] Hk; lia. }
        revert K. pose proof (B 0%nat) as B0. pose proof (B 1%nat) as B1. pose proof (B 2%nat) as B2. clear B H.
        revert B0. generalize (Z.of_nat (field mask 0)). revert B1. generalize (Z.of_nat (field mask 1)). revert B2. generalize (Z.of_nat (field mask 2)). intros k Hk j Hj i Hi.
        intros K.
        assert (i = 0 \/ i = 1 \/ i = 2 \/ i = 3) as [->|[->|[->| ->]]] by lia; assert (j = 0 \/ j = 1 \/ j = 2 \/ j = 3) as [->|[->|[->| ->]]] by lia;
        assert (k = 0 \/ k = 1 \/ k = 2 \/ k = 3) as [->|[->|[->| ->]]] by lia; try (exfalso; apply K; repeat split; reflexivity); vm_compute; reflexivity.
      * intros k Hk. apply Nat2Z.inj. rewrite field_shuffle; [|repeat constructor; apply B|exact Hk]. destruct k as [|[|[|k]]]; [reflexivity|reflexivity|reflexivity|lia].
Qed.
(** GLM_ZYX reverses, GLM_WWWW of common.h on a vec3 is not valid *)
Lemma C50_swizzle_ex : mask_ok 3 6 /\ swizzled 3 6 0 [1; 2; 3] = [3; 2; 1] /\ ~ mask_ok 3 255 /\ mask_ok 4 255.
Proof.
  split; [intros k Hk; assert (k = 0 \/ k = 1 \/ k = 2)%nat as [->|[->| ->]] by lia; vm_compute; lia|]. split; [reflexivity|]. split.
  - intros H. specialize (H 0%nat ltac:(lia)). revert H. vm_compute. lia.
  - intros k Hk; assert (k = 0 \/ k = 1 \/ k = 2 \/ k = 3)%nat as [->|[->|[->| ->]]] by lia; vm_compute; lia.
Qed.
