(** * Binary32: identities that hold exactly (C63) *)

From Coq Require Import String List ZArith Bool Reals Lra Lia Floats.SpecFloat.
From Verif Require Import MiniC Sym SymSound Contract SymCall SymTac Tac Cglm B32.
From Verif.Spec Require Import Float32.
From Verif.Proofs Require Import Flo Ieee.
Import ListNotations.
(* props: From Coq Require Import Floats.SpecFloat. *)
(* props: From Verif Require Import B32. *)
(* props: From Verif.Spec Require Import Float32. *)

Definition is (x : b32) (r : R) := number x /\ rval x = r.
Lemma is_self : forall x, number x -> is x (rval x).
Proof. split; auto. Qed.
Lemma is_zero : forall s, is (S754_zero s) 0.
Proof. intros. split; [apply num_zero|reflexivity]. Qed.
Lemma is_mul1_r : forall x r, is x r -> is (SFmul prec emax x b1) r.
Proof. intros x r [[V F] E]. rewrite mul1_r by auto. split; [split|]; auto. Qed.
Lemma is_mul1_l : forall x r, is x r -> is (SFmul prec emax b1 x) r.
Proof. intros. rewrite mul_comm. apply is_mul1_r; auto. Qed.
Lemma is_mul0_r : forall x y r, is x r -> is y 0 -> is (SFmul prec emax x y) 0.
Proof.
  intros x y r [[V F] E] [[W G] Z]. apply value_zero in Z; auto. destruct Z as [s ->]. destruct (mul0_r x s F) as [s' ->]. apply is_zero.
Qed.
Lemma is_mul0_l : forall x y r, is x r -> is y 0 -> is (SFmul prec emax y x) 0.
Proof. intros. rewrite mul_comm. eapply is_mul0_r; eauto. Qed.
Lemma is_add0_r : forall x z r, is x r -> is z 0 -> is (SFadd prec emax x z) r.
Proof.
  intros x z r [N E] [M Z]. destruct (add_rnd x z N M) as [A B]. rewrite Z, Rplus_0_r, rnd_id in * by apply N.
  specialize (B (value_big x (proj1 N))). split; [split; auto; apply add_valid; [apply N|apply M]|]. rewrite A; auto.
Qed.
Lemma is_add0_l : forall x z r, is x r -> is z 0 -> is (SFadd prec emax z x) r.
Proof. intros. rewrite add_comm. apply is_add0_r; auto. Qed.
Lemma is_sub0_r : forall x z r, is x r -> is z 0 -> is (SFsub prec emax x z) r.
Proof.
  intros x z r [N E] [M Z]. destruct (sub_rnd x z N M) as [A B]. rewrite Z, Rminus_0_r, rnd_id in * by apply N.
  specialize (B (value_big x (proj1 N))). split; [split; auto; apply sub_valid; [apply N|apply M]|]. rewrite A; auto.
Qed.
Lemma is_feq : forall x y, number y -> is x (rval y) -> feq x y.
Proof. intros x y N [M E]. apply feq_value; auto. Qed.

Ltac isgo :=
  match goal with
  | |- is (S754_zero _) _ => apply is_zero
  | |- is (SFmul _ _ _ (S754_zero _)) _ => eapply is_mul0_r; [isgo|isgo]
  | |- is (SFmul _ _ (S754_zero _) _) _ => eapply is_mul0_l; [isgo|isgo]
  | |- is (SFmul _ _ _ (S754_finite false 8388608 (-23))) _ => apply is_mul1_r; isgo
  | |- is (SFmul _ _ (S754_finite false 8388608 (-23)) _) _ => apply is_mul1_l; isgo
  | |- is (SFadd _ _ ?a ?b) _ => first [apply is_add0_r; [isgo|isgo] | apply is_add0_l; [isgo|isgo]]
  | |- is (SFsub _ _ ?a ?b) _ => apply is_sub0_r; [isgo|isgo]
  | |- is ?x _ => apply is_self; assumption
  end.
Ltac nums := repeat match goal with H : Forall number (_ :: _) |- _ => inversion_clear H end.
Ltac exl n := match n with
  | 2%nat => refine (ex_intro _ [_; _] _) | 3%nat => refine (ex_intro _ [_; _; _] _) | 4%nat => refine (ex_intro _ [_; _; _; _] _)
  | 9%nat => refine (ex_intro _ [_; _; _; _; _; _; _; _; _] _)
  | 16%nat => refine (ex_intro _ [_; _; _; _; _; _; _; _; _; _; _; _; _; _; _; _] _)
  end.
Ltac lit := change (b_lit 1 1) with b1; change (b_lit 0 1) with b0.
Ltac idgo n := intros; unlists; nums; exl n; split; [cbv [bI2 bI3 bI4 bIq b1 b0]; brun|repeat (apply Forall2_cons; [apply is_feq; [assumption|]|]); try apply Forall2_nil].
Ltac idall := intros l; repeat match goal with |- _ /\ _ => split end.
(** multiplication by the identity matrix *)
Lemma C63_mat_mul_ok : forall l,
  (forall m, length m = 4%nat -> Forall number m ->
    exists r, computes (B32 l) glm_mat2_mul [InA (fl m); In (fl bI2); Out 4] VVoid [fl r] /\ Forall2 feq r m) /\
  (forall m, length m = 4%nat -> Forall number m ->
    exists r, computes (B32 l) glm_mat2_mul [In (fl bI2); InA (fl m); Out 4] VVoid [fl r] /\ Forall2 feq r m) /\
  (forall m, length m = 9%nat -> Forall number m ->
    exists r, computes (B32 l) glm_mat3_mul [InA (fl m); In (fl bI3); Out 9] VVoid [fl r] /\ Forall2 feq r m) /\
  (forall m, length m = 9%nat -> Forall number m ->
    exists r, computes (B32 l) glm_mat3_mul [In (fl bI3); InA (fl m); Out 9] VVoid [fl r] /\ Forall2 feq r m) /\
  (forall m, length m = 16%nat -> Forall number m ->
    exists r, computes (B32 l) glm_mat4_mul [InA (fl m); In (fl bI4); Out 16] VVoid [fl r] /\ Forall2 feq r m) /\
  (forall m, length m = 16%nat -> Forall number m ->
    exists r, computes (B32 l) glm_mat4_mul [In (fl bI4); InA (fl m); Out 16] VVoid [fl r] /\ Forall2 feq r m).
Proof. idall; [idgo 4%nat|idgo 4%nat|idgo 9%nat|idgo 9%nat|idgo 16%nat|idgo 16%nat]; isgo. Qed.
Definition nex : b32 := S754_finite true 11184811 (-24).
Lemma C63_mat_mul_ex : number (S754_finite true 11184811 (-24)) /\ Forall number bI4 /\ number (S754_zero true) /\ ~ number nan /\ ~ number (S754_infinity true) /\
  feq (S754_zero true) b0 /\ ~ feq nan nan.
Proof. repeat split; try (repeat constructor; fail); try discriminate; intros [? H]; discriminate. Qed.
Lemma C63_mulv_ok : forall l,
  (forall v, length v = 2%nat -> Forall number v ->
    exists r, computes (B32 l) glm_mat2_mulv [In (fl bI2); In (fl v); Out 2] VVoid [fl r] /\ Forall2 feq r v) /\
  (forall v, length v = 3%nat -> Forall number v ->
    exists r, computes (B32 l) glm_mat3_mulv [In (fl bI3); InA (fl v); Out 3] VVoid [fl r] /\ Forall2 feq r v) /\
  (forall v, length v = 4%nat -> Forall number v ->
    exists r, computes (B32 l) glm_mat4_mulv [In (fl bI4); InA (fl v); Out 4] VVoid [fl r] /\ Forall2 feq r v) /\
  (forall v w, length v = 3%nat -> Forall number v -> number w ->
    exists r, computes (B32 l) glm_mat4_mulv3 [In (fl bI4); InA (fl v); Val (VF w); Out 3] VVoid [fl r] /\ Forall2 feq r v).
Proof. idall; [idgo 2%nat|idgo 3%nat|idgo 4%nat|idgo 3%nat]; isgo. Qed.
(** affine transforms by the identity *)
Lemma C63_affine_ok : forall l,
  (forall m, length m = 16%nat -> Forall number m ->
    exists r, computes (B32 l) glm_mul [InA (fl m); In (fl bI4); Out 16] VVoid [fl r] /\
      (nth 3 m b1 = b0 /\ nth 7 m b1 = b0 /\ nth 11 m b1 = b0 -> Forall2 feq r m)) /\
  (forall m, length m = 16%nat -> Forall number m ->
    exists r, computes (B32 l) glm_translate [InOut (fl m); In (fl [b0; b0; b0])] VVoid [fl r] /\ Forall2 feq r m) /\
  (forall m, length m = 16%nat -> Forall number m ->
    exists r, computes (B32 l) glm_scale [InOut (fl m); In (fl [b1; b1; b1])] VVoid [fl r] /\ Forall2 feq r m) /\
  (forall m, length m = 16%nat -> Forall number m ->
    exists r, computes (B32 l) glm_scale_uni [InOut (fl m); Val (VF b1)] VVoid [fl r] /\ Forall2 feq r m) /\
  (forall m, length m = 16%nat -> Forall number m ->
    exists r, computes (B32 l) glm_mat4_scale [InOut (fl m); Val (VF b1)] VVoid [fl r] /\ Forall2 feq r m).
Proof.
  idall.
  - intros; unlists; nums; exl 16%nat; split; [cbv [bI4 b1 b0]; brun|]. simpl nth. intros (-> & -> & ->).
    repeat (apply Forall2_cons; [apply is_feq; [assumption || apply num_zero|]|]); try apply Forall2_nil; isgo.
  - idgo 16%nat; isgo.
  - idgo 16%nat; isgo.
  - idgo 16%nat; isgo.
  - idgo 16%nat; isgo.
Qed.
(** multiplication by the identity quaternion *)
Lemma C63_quat_ok : forall l,
  (forall q, length q = 4%nat -> Forall number q ->
    exists r, computes (B32 l) glm_quat_mul [In (fl q); In (fl bIq); Out 4] VVoid [fl r] /\ Forall2 feq r q) /\
  (forall q, length q = 4%nat -> Forall number q ->
    exists r, computes (B32 l) glm_quat_mul [In (fl bIq); In (fl q); Out 4] VVoid [fl r] /\ Forall2 feq r q).
Proof. idall; idgo 4%nat; isgo. Qed.
(** vectors: scaling by one, adding and subtracting zero *)
Lemma C63_vec_ok : forall l,
  (forall v, length v = 2%nat -> Forall number v ->
    exists r, computes (B32 l) glm_vec2_scale [InA (fl v); Val (VF b1); Out 2] VVoid [fl r] /\ r = v) /\
  (forall v s, length v = 2%nat -> Forall number v ->
    exists r, computes (B32 l) glm_vec2_add [InA (fl v); In (fl (repeat (S754_zero s) 2)); Out 2] VVoid [fl r] /\ Forall2 feq r v) /\
  (forall v s, length v = 2%nat -> Forall number v ->
    exists r, computes (B32 l) glm_vec2_sub [InA (fl v); In (fl (repeat (S754_zero s) 2)); Out 2] VVoid [fl r] /\ Forall2 feq r v) /\
  (forall v, length v = 3%nat -> Forall number v ->
    exists r, computes (B32 l) glm_vec3_scale [InA (fl v); Val (VF b1); Out 3] VVoid [fl r] /\ r = v) /\
  (forall v s, length v = 3%nat -> Forall number v ->
    exists r, computes (B32 l) glm_vec3_add [InA (fl v); In (fl (repeat (S754_zero s) 3)); Out 3] VVoid [fl r] /\ Forall2 feq r v) /\
  (forall v s, length v = 3%nat -> Forall number v ->
    exists r, computes (B32 l) glm_vec3_sub [InA (fl v); In (fl (repeat (S754_zero s) 3)); Out 3] VVoid [fl r] /\ Forall2 feq r v) /\
  (forall v, length v = 4%nat -> Forall number v ->
    exists r, computes (B32 l) glm_vec4_scale [InA (fl v); Val (VF b1); Out 4] VVoid [fl r] /\ r = v) /\
  (forall v s, length v = 4%nat -> Forall number v ->
    exists r, computes (B32 l) glm_vec4_add [InA (fl v); In (fl (repeat (S754_zero s) 4)); Out 4] VVoid [fl r] /\ Forall2 feq r v) /\
  (forall v s, length v = 4%nat -> Forall number v ->
    exists r, computes (B32 l) glm_vec4_sub [InA (fl v); In (fl (repeat (S754_zero s) 4)); Out 4] VVoid [fl r] /\ Forall2 feq r v).
Proof.
  idall.
  - intros; unlists; nums; exl 2%nat; split; [cbv [b1]; brun|]. repeat match goal with H : number _ |- _ => destruct H end. repeat (f_equal; try (apply mul1_r; assumption)).
  - cbv [repeat]. idgo 2%nat; isgo.
  - cbv [repeat]. idgo 2%nat; isgo.
  - intros; unlists; nums; exl 3%nat; split; [cbv [b1]; brun|]. repeat match goal with H : number _ |- _ => destruct H end. repeat (f_equal; try (apply mul1_r; assumption)).
  - cbv [repeat]. idgo 3%nat; isgo.
  - cbv [repeat]. idgo 3%nat; isgo.
  - intros; unlists; nums; exl 4%nat; split; [cbv [b1]; brun|]. repeat match goal with H : number _ |- _ => destruct H end. repeat (f_equal; try (apply mul1_r; assumption)).
  - cbv [repeat]. idgo 4%nat; isgo.
  - cbv [repeat]. idgo 4%nat; isgo.
Qed.
Fixpoint map2 (f : b32 -> b32 -> b32) (a b : list b32) : list b32 :=
  match a, b with x :: a', y :: b' => f x y :: map2 f a' b' | _, _ => [] end.
Definition dotb (a b : list b32) : b32 :=
  match map2 (SFmul prec emax) a b with x :: r => fold_left (SFadd prec emax) r x | [] => b0 end.
Ltac commgo := repeat first [reflexivity | apply add_comm | apply mul_comm | f_equal].
(** sums, products and dot products commute bit for bit, NaN and infinities included *)
Lemma C63_comm_ok : forall l,
  (forall a b, length a = 2%nat -> length b = 2%nat -> exists r,
    computes (B32 l) glm_vec2_dot [In (fl a); In (fl b)] (VF r) [] /\ computes (B32 l) glm_vec2_dot [In (fl b); In (fl a)] (VF r) []) /\
  (forall a b, length a = 2%nat -> length b = 2%nat -> exists r,
    computes (B32 l) glm_vec2_add [InA (fl a); InA (fl b); Out 2] VVoid [fl r] /\ computes (B32 l) glm_vec2_add [InA (fl b); InA (fl a); Out 2] VVoid [fl r]) /\
  (forall a b, length a = 2%nat -> length b = 2%nat -> exists r,
    computes (B32 l) glm_vec2_mul [InA (fl a); InA (fl b); Out 2] VVoid [fl r] /\ computes (B32 l) glm_vec2_mul [InA (fl b); InA (fl a); Out 2] VVoid [fl r]) /\
  (forall a b, length a = 3%nat -> length b = 3%nat -> exists r,
    computes (B32 l) glm_vec3_dot [In (fl a); In (fl b)] (VF r) [] /\ computes (B32 l) glm_vec3_dot [In (fl b); In (fl a)] (VF r) []) /\
  (forall a b, length a = 3%nat -> length b = 3%nat -> exists r,
    computes (B32 l) glm_vec3_add [InA (fl a); InA (fl b); Out 3] VVoid [fl r] /\ computes (B32 l) glm_vec3_add [InA (fl b); InA (fl a); Out 3] VVoid [fl r]) /\
  (forall a b, length a = 3%nat -> length b = 3%nat -> exists r,
    computes (B32 l) glm_vec3_mul [InA (fl a); InA (fl b); Out 3] VVoid [fl r] /\ computes (B32 l) glm_vec3_mul [InA (fl b); InA (fl a); Out 3] VVoid [fl r]) /\
  (forall a b, length a = 4%nat -> length b = 4%nat -> exists r,
    computes (B32 l) glm_vec4_dot [In (fl a); In (fl b)] (VF r) [] /\ computes (B32 l) glm_vec4_dot [In (fl b); In (fl a)] (VF r) []) /\
  (forall a b, length a = 4%nat -> length b = 4%nat -> exists r,
    computes (B32 l) glm_vec4_add [InA (fl a); InA (fl b); Out 4] VVoid [fl r] /\ computes (B32 l) glm_vec4_add [InA (fl b); InA (fl a); Out 4] VVoid [fl r]) /\
  (forall a b, length a = 4%nat -> length b = 4%nat -> exists r,
    computes (B32 l) glm_vec4_mul [InA (fl a); InA (fl b); Out 4] VVoid [fl r] /\ computes (B32 l) glm_vec4_mul [InA (fl b); InA (fl a); Out 4] VVoid [fl r]).
Proof.
  idall; intros a b La Lb.
  all: match goal with
    | |- context [glm_vec2_dot] => exists (dotb a b) | |- context [glm_vec3_dot] => exists (dotb a b) | |- context [glm_vec4_dot] => exists (dotb a b)
    | |- context [glm_vec2_add] => exists (map2 (SFadd prec emax) a b) | |- context [glm_vec3_add] => exists (map2 (SFadd prec emax) a b) | |- context [glm_vec4_add] => exists (map2 (SFadd prec emax) a b)
    | _ => exists (map2 (SFmul prec emax) a b)
    end; unlists; cbv [map2 dotb fold_left]; split; brun; commgo.
Qed.

Lemma bra_opp : forall s m e l, binary_round_aux prec emax (negb s) m e l = SFopp (binary_round_aux prec emax s m e l).
Proof.
  intros. unfold binary_round_aux. destruct (shr_fexp prec emax m e l) as [a b]. destruct (shr_fexp prec emax _ b loc_Exact) as [c d].
  destruct (shr_m c); auto. destruct (d <=? emax - prec)%Z; auto.
Qed.
Lemma bn_opp : forall m e, m <> 0%Z -> binary_normalize prec emax (- m) e false = SFopp (binary_normalize prec emax m e false).
Proof.
  intros [|p|p] e H; [congruence| |]; simpl; unfold binary_round; destruct (shl_align _ _ _); [apply (bra_opp false)|].
  rewrite (bra_opp true) || rewrite <- (bra_opp true); auto.
Qed.
Lemma sub_opp : forall x y, SFsub prec emax y x = SFopp (SFsub prec emax x y) \/ (SFsub prec emax y x = S754_zero false /\ SFsub prec emax x y = S754_zero false).
Proof.
  intros [s|s| |s m e] [t|t| |t n f]; simpl; rewrite ?negb_involutive; auto; try (destruct s, t; simpl; auto; fail).
  rewrite (Z.min_comm f e). set (a := cond_Zopp s _). set (b := cond_Zopp t _). destruct (Z.eq_dec (a - b) 0) as [E|E].
  - right. replace (b - a)%Z with 0%Z by lia. rewrite E. auto.
  - left. replace (b - a)%Z with (- (a - b))%Z by lia. apply bn_opp. auto.
Qed.
Lemma mul_opp2 : forall x, SFmul prec emax (SFopp x) (SFopp x) = SFmul prec emax x x.
Proof. intros [s|s| |s m e]; simpl; auto; destruct s; reflexivity. Qed.
Lemma sq_sym : forall x y, SFmul prec emax (SFsub prec emax y x) (SFsub prec emax y x) = SFmul prec emax (SFsub prec emax x y) (SFsub prec emax x y).
Proof. intros. destruct (sub_opp x y) as [->|[-> ->]]; auto. apply mul_opp2. Qed.
Ltac sqgo := lazymatch goal with
  | |- SFmul _ _ _ _ = _ => apply sq_sym
  | |- SFadd _ _ ?a ?b = SFadd _ _ ?c ?d => apply f_equal2; sqgo
  | |- SFsqrt _ _ _ = _ => apply f_equal; sqgo
  | |- VF _ = _ => apply f_equal; sqgo
  | |- _ => reflexivity
  end.
(** distances are symmetric bit for bit *)
Lemma C63_distance_ok : forall l,
  (forall a b, length a = 2%nat -> length b = 2%nat -> exists r,
    computes (B32 l) glm_vec2_distance [In (fl a); In (fl b)] (VF r) [] /\ computes (B32 l) glm_vec2_distance [In (fl b); In (fl a)] (VF r) []) /\
  (forall a b, length a = 2%nat -> length b = 2%nat -> exists r,
    computes (B32 l) glm_vec2_distance2 [In (fl a); In (fl b)] (VF r) [] /\ computes (B32 l) glm_vec2_distance2 [In (fl b); In (fl a)] (VF r) []) /\
  (forall a b, length a = 3%nat -> length b = 3%nat -> exists r,
    computes (B32 l) glm_vec3_distance [In (fl a); In (fl b)] (VF r) [] /\ computes (B32 l) glm_vec3_distance [In (fl b); In (fl a)] (VF r) []) /\
  (forall a b, length a = 3%nat -> length b = 3%nat -> exists r,
    computes (B32 l) glm_vec3_distance2 [In (fl a); In (fl b)] (VF r) [] /\ computes (B32 l) glm_vec3_distance2 [In (fl b); In (fl a)] (VF r) []) /\
  (forall a b, length a = 4%nat -> length b = 4%nat -> exists r,
    computes (B32 l) glm_vec4_distance [In (fl a); In (fl b)] (VF r) [] /\ computes (B32 l) glm_vec4_distance [In (fl b); In (fl a)] (VF r) []) /\
  (forall a b, length a = 4%nat -> length b = 4%nat -> exists r,
    computes (B32 l) glm_vec4_distance2 [In (fl a); In (fl b)] (VF r) [] /\ computes (B32 l) glm_vec4_distance2 [In (fl b); In (fl a)] (VF r) []).
Proof.
  idall; intros a b La Lb; unlists; eexists; (split; [brun|sym_with 20%nat; useeqs; bcbv; gsplit; sqgo]).
Qed.
