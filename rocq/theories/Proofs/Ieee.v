(** * Binary32: NaN and infinities (C45, C46, C62) *)

From Coq Require Import String List ZArith Bool Lia Floats.SpecFloat.
From Verif Require Import MiniC Sym SymSound Contract SymCall SymTac Tac Cglm B32.
From Verif.Spec Require Import Float32.
Import ListNotations.
(* props: From Coq Require Import Floats.SpecFloat. *)
(* props: From Verif Require Import B32. *)
(* props: From Verif.Spec Require Import Float32. *)

Lemma if_same : forall A (b : bool) (x : A), (if b then x else x) = x.
Proof. destruct b; auto. Qed.
Ltac bcbv := cbv [B32 T s_op1 s_ok1 s_op2 s_ok2 s_cmp s_test s_lit s_pi s_ofZ s_toZ s_fma b_op1 b_op2 b_cmp fl map].
Ltac brun := sym_with 20%nat; useeqs; bcbv; gsplit; try reflexivity; rewrite ?if_same; try reflexivity.

Lemma lt_nan_l : forall x y, is_nan x = true -> SFltb x y = false.
Proof. intros [] []; simpl; try discriminate; auto. Qed.
Lemma lt_nan_r : forall x y, is_nan y = true -> SFltb x y = false.
Proof. intros [] []; simpl; try discriminate; auto; destruct s; auto. Qed.

Lemma C45_min_max_nan_ok : forall l a b, is_nan a = true \/ is_nan b = true ->
  computes (B32 l) glm_min [Val (VF a); Val (VF b)] (VF b) [] /\
  computes (B32 l) glm_max [Val (VF a); Val (VF b)] (VF b) [].
Proof.
  intros l a b H. split; brun; destruct H as [H|H]; rewrite ?(lt_nan_l _ _ H), ?(lt_nan_r _ _ H); auto.
Qed.

Lemma C45_min_max_nan_ex : is_nan nan = true /\ is_nan b1 = false /\ inb32 b1 = true.
Proof. auto. Qed.
(** so they are not commutative *)
Lemma C45_commutative_refuted_ok : exists a b, inb32 a = true /\ inb32 b = true /\ a <> b /\ forall l,
  computes (B32 l) glm_min [Val (VF a); Val (VF b)] (VF b) [] /\ computes (B32 l) glm_min [Val (VF b); Val (VF a)] (VF a) [] /\
  computes (B32 l) glm_max [Val (VF a); Val (VF b)] (VF b) [] /\ computes (B32 l) glm_max [Val (VF b); Val (VF a)] (VF a) [].
Proof.
  exists nan, b1. repeat split; auto; try discriminate; apply C45_min_max_nan_ok; auto.
Qed.

Lemma cmp_sym : forall x y, SFcompare y x = option_map CompOpp (SFcompare x y).
Proof.
  intros [[]|[]| |[] m e] [[]|[]| |[] m' e']; simpl; auto.
  - rewrite (Z.compare_antisym e e'). destruct (e ?= e')%Z; simpl; auto. rewrite (Pos.compare_cont_antisym m m'). simpl. destruct (Pos.compare_cont Eq m m'); auto.
  - rewrite (Z.compare_antisym e e'). destruct (e ?= e')%Z; simpl; auto. rewrite (Pos.compare_cont_antisym m m'). simpl. destruct (Pos.compare_cont Eq m m'); auto.
Qed.
Lemma cmp_some : forall x y, is_nan x = false -> is_nan y = false -> SFcompare x y <> None.
Proof.
  intros [[]|[]| |[] m e] [[]|[]| |[] m' e']; simpl; intros; try discriminate; destruct (e ?= e')%Z; discriminate.
Qed.
Lemma le_refl : forall x, is_nan x = false -> SFleb x x = true.
Proof.
  intros x H. unfold SFleb. pose proof (cmp_sym x x) as S. pose proof (cmp_some x x H H) as N. destruct (SFcompare x x) as [[]|]; simpl in S; auto; congruence.
Qed.
Lemma lt_le : forall x y, SFltb x y = true -> SFleb x y = true.
Proof. unfold SFltb, SFleb. intros x y. destruct (SFcompare x y) as [[]|]; auto. Qed.
Lemma nlt_le : forall x y, is_nan x = false -> is_nan y = false -> SFltb x y = false -> SFleb y x = true.
Proof.
  unfold SFltb, SFleb. intros x y Hx Hy. rewrite (cmp_sym x y). pose proof (cmp_some x y Hx Hy). destruct (SFcompare x y) as [[]|]; simpl; auto; congruence.
Qed.
(** without NaN: the smaller and the larger argument *)
Lemma C45_min_max_ok : forall l a b, is_nan a = false -> is_nan b = false ->
  (exists r, computes (B32 l) glm_min [Val (VF a); Val (VF b)] (VF r) [] /\ (r = a \/ r = b) /\ SFleb r a = true /\ SFleb r b = true) /\
  (exists r, computes (B32 l) glm_max [Val (VF a); Val (VF b)] (VF r) [] /\ (r = a \/ r = b) /\ SFleb a r = true /\ SFleb b r = true).
Proof.
  intros l a b Ha Hb. split.
  - exists (if SFltb a b then a else b). split; [brun|]. destruct (SFltb a b) eqn:E; repeat split; auto using le_refl, lt_le, nlt_le.
  - exists (if SFltb b a then a else b). split; [brun|]. destruct (SFltb b a) eqn:E; repeat split; auto using le_refl, lt_le, nlt_le.
Qed.
Lemma C45_min_max_ex : is_nan b0 = false /\ is_nan b1 = false /\ is_nan (S754_infinity true) = false.
Proof. auto. Qed.
(** glm_clamp of NaN is the lower bound (of two equal bounds, the upper one), never NaN *)
Lemma C45_clamp_nan_ok : forall l lo hi, SFleb lo hi = true ->
  exists r, computes (B32 l) glm_clamp [Val (VF nan); Val (VF lo); Val (VF hi)] (VF r) [] /\ feq r lo /\ is_nan r = false /\ (r = lo \/ r = hi).
Proof.
  intros l lo hi H. exists (if SFltb lo hi then lo else hi). split; [brun|].
  - rewrite (lt_nan_r _ nan eq_refl). reflexivity.
  - unfold feq, SFeqb, SFltb, SFleb in *. rewrite (cmp_sym lo hi) || idtac.
    assert (N : is_nan lo = false /\ is_nan hi = false). { destruct lo as [| | |], hi as [| | |]; simpl in *; auto; try discriminate; destruct s; discriminate. }
    destruct N as [N1 N2]. pose proof (cmp_sym lo lo) as S. pose proof (cmp_some lo lo N1 N1). pose proof (cmp_sym lo hi) as S2.
    destruct (SFcompare lo hi) as [[]|] eqn:E; try discriminate; simpl in *.
    + rewrite S2. auto.
    + destruct (SFcompare lo lo) as [[]|]; simpl in S; auto; congruence.
Qed.
Lemma C45_clamp_nan_ex : SFleb b0 b1 = true /\ feq b0 (S754_zero true).
Proof. split; reflexivity. Qed.
(** glm_clamp_zo never returns NaN *)
Lemma C45_clamp_zo_ok : forall l x, exists r, computes (B32 l) glm_clamp_zo [Val (VF x)] (VF r) [] /\ SFleb b0 r = true /\ SFleb r b1 = true.
Proof.
  intros l x. set (y := if SFltb b0 x then x else b0).
  exists (if SFltb y b1 then y else b1). split; [brun|].
  assert (N : is_nan y = false). { unfold y. destruct x as [[]|[]| |[] m e]; reflexivity. }
  assert (P : SFleb b0 y = true). { unfold y. destruct (SFltb b0 x) eqn:E; auto using lt_le. }
  destruct (SFltb y b1) eqn:E; split; auto using lt_le.
Qed.

(** a vector is equal to itself iff no component is NaN *)
Lemma eq_self : forall x, SFeqb x x = negb (is_nan x).
Proof.
  intros x. unfold SFeqb. pose proof (cmp_sym x x) as S. destruct (is_nan x) eqn:N.
  - destruct x; try discriminate. reflexivity.
  - pose proof (cmp_some x x N N). destruct (SFcompare x x) as [[]|]; simpl in *; auto; congruence.
Qed.
Lemma C46_eqv_nan_ok : forall l,
  (forall v, length v = 2%nat -> computes (B32 l) glm_vec2_eqv [InA (fl v); InA (fl v)] (VB (negb (existsb is_nan v))) []) /\
  (forall v, length v = 3%nat -> computes (B32 l) glm_vec3_eqv [InA (fl v); InA (fl v)] (VB (negb (existsb is_nan v))) []) /\
  (forall v, length v = 4%nat -> computes (B32 l) glm_vec4_eqv [InA (fl v); InA (fl v)] (VB (negb (existsb is_nan v))) []).
Proof.
  intros l. repeat split; intros; unlists; brun; rewrite !eq_self; unfold existsb; repeat match goal with |- context [is_nan ?x] => destruct (is_nan x) end; reflexivity.
Qed.
Lemma C46_eqv_nan_ex : existsb is_nan [b1; nan; b0] = true /\ existsb is_nan [b1; b0] = false.
Proof. split; reflexivity. Qed.
(** glm_eq of a value with itself holds iff the value is a number: it is false for infinities *)
Lemma sub_self : forall x, SFleb (SFabs (SFsub prec emax x x)) (b_lit 1 100000) = finite x.
Proof.
  intros [s|s| |s m e]; try (destruct s; reflexivity); try reflexivity. simpl. rewrite Z.min_id.
  replace (cond_Zopp s (Z.pos (fst (shl_align m e e))) - cond_Zopp s (Z.pos (fst (shl_align m e e))))%Z with 0%Z by lia. reflexivity.
Qed.
Lemma C46_eq_self_ok : forall l x, computes (B32 l) glm_eq [Val (VF x); Val (VF x)] (VB (finite x)) [].
Proof. intros. brun. f_equal. apply sub_self. Qed.
Lemma C46_eq_self_ex : finite (S754_infinity false) = false /\ finite b1 = true.
Proof. split; reflexivity. Qed.
