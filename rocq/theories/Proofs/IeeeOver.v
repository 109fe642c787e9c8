(** * Binary32: overflow, underflow, NaN and infinities (C62) *)

From Coq Require Import String List ZArith Bool Reals Lra Lia Floats.SpecFloat.
From Flocq Require Import Core.
From Verif Require Import MiniC Sym SymSound Contract SymCall SymTac Tac Cglm B32.
From Verif.Spec Require Import Float32.
From Verif.Proofs Require Import Flo Ieee IeeeId.
Import ListNotations.
(* props: From Coq Require Import Reals Floats.SpecFloat. *)
(* props: From Verif Require Import B32. *)
(* props: From Verif.Spec Require Import Float32. *)

Definition inf := S754_infinity false.
(** a square, or a sum of squares *)
Definition nn (x : b32) := x = inf \/ (number x /\ (0 <= rval x)%R).
Lemma rnd_0 : rnd 0 = 0%R.
Proof. apply (rnd_id (S754_zero false)). reflexivity. Qed.
Lemma nn_sq : forall x, number x -> nn (SFmul prec emax x x).
Proof.
  intros x N. destruct (finite (SFmul prec emax x x)) eqn:F.
  - right. split; [split; auto; apply mul_valid; apply N|]. destruct (mul_rnd x x N N) as [E _]. rewrite (E F). rewrite <- rnd_0. apply rnd_le. nra.
  - left. rewrite (mul_inf x x N N F), xorb_nilpotent. auto.
Qed.
Lemma nn_add : forall x y, nn x -> nn y -> nn (SFadd prec emax x y).
Proof.
  intros x y [->|[N P]] [->|[M Q]].
  - left. auto.
  - left. destruct M as [_ M]. destruct y; auto; discriminate.
  - left. destruct N as [_ N]. destruct x; auto; discriminate.
  - destruct (finite (SFadd prec emax x y)) eqn:F.
    + right. split; [split; auto; apply add_valid; [apply N|apply M]|]. destruct (add_rnd x y N M) as [E _]. rewrite (E F). rewrite <- rnd_0. apply rnd_le. lra.
    + left. destruct (add_inf x y N M F) as [-> S]. destruct (isign x) eqn:E; auto. exfalso.
      pose proof (sign_value x (proj2 N) E). pose proof (sign_value y (proj2 M) (eq_sym S)).
      assert (X : rval x = 0%R) by lra. assert (Y : rval y = 0%R) by lra. apply value_zero in X; [|apply N]. apply value_zero in Y; [|apply M].
      destruct X as [a ->], Y as [b ->]. simpl in F. destruct (Bool.eqb a b); discriminate.
Qed.
Lemma nn_inf_l : forall y, nn y -> SFadd prec emax inf y = inf.
Proof. intros y [->|[[_ F] _]]; auto. destruct y; auto; discriminate. Qed.
Lemma nn_inf_r : forall y, nn y -> SFadd prec emax y inf = inf.
Proof. intros y [->|[[_ F] _]]; auto. destruct y; auto; discriminate. Qed.
Lemma sq_inf : forall x, number x -> (powerRZ 2 64 <= Rabs (rval x))%R -> SFmul prec emax x x = inf.
Proof.
  intros x N B. destruct (finite (SFmul prec emax x x)) eqn:F.
  - exfalso. destruct (mul_rnd x x N N) as [E _]. specialize (E F).
    assert (A : (bpow radix2 emax <= rnd (rval x * rval x))%R).
    { apply round_ge_generic; auto with typeclass_instances.
      - apply Hfx.
      - apply generic_format_bpow. vm_compute. discriminate.
      - replace (rval x * rval x)%R with (Rabs (rval x) * Rabs (rval x))%R by (rewrite <- Rabs_mult; apply Rabs_pos_eq; nra).
        replace (bpow radix2 emax) with (powerRZ 2 64 * powerRZ 2 64)%R by (change emax with (64 + 64)%Z; rewrite bpow_plus, !bpow_powerRZ; reflexivity).
        assert (0 < powerRZ 2 64)%R by (apply powerRZ_lt; lra). apply Rmult_le_compat; lra. }
    rewrite <- E in A. pose proof (value_big (SFmul prec emax x x) (mul_valid _ _ (proj1 N) (proj1 N))) as V. unfold big in V. pose proof (Rle_abs (rval (SFmul prec emax x x))). lra.
  - rewrite (mul_inf x x N N F), xorb_nilpotent. auto.
Qed.

Ltac infgo := repeat first [rewrite nn_inf_l by infnn | rewrite nn_inf_r by infnn]
with infnn := first [apply nn_sq; assumption | apply nn_add; infnn].
Ltac hugego := repeat match goal with
  | H : huge [] |- _ => inversion H
  | H : huge (?x :: ?r) |- _ => apply Exists_cons in H; destruct H as [H|H]; [rewrite (sq_inf x) by assumption; infgo; reflexivity|]
  | H : Exists _ [] |- _ => inversion H
  | H : Exists _ (?x :: ?r) |- _ => apply Exists_cons in H; destruct H as [H|H]; [rewrite (sq_inf x) by assumption; infgo; reflexivity|]
  end.
Ltac sqsum E := match goal with |- context [SFsqrt prec emax ?s] => assert (E : s = inf) end.
Ltac zeros := repeat (apply Forall_cons; [match goal with |- feq (SFmul prec emax ?x _) _ => let s := fresh in destruct (mul0_r x false) as [s ->]; [match goal with H : number x |- _ => apply H end|destruct s; reflexivity] end|]); apply Forall_nil.
Ltac norminf n :=
  intros; unlists; nums; exl n; split; [brun|]; cbv beta;
  let E := fresh "E" in sqsum E; [hugego|rewrite E; clear E];
  change (SFsqrt prec emax inf) with inf; change (SFdiv prec emax (b_lit 1 1) inf) with (S754_zero false); change (SFltb inf (b_lit 1 8388608)) with false;
  cbv beta iota; zeros.
(** a finite vector with a component of magnitude 2^64 or more is normalised to zero *)
Lemma C62_normalize_overflow_ok : forall l,
  (forall v, length v = 2%nat -> Forall number v -> huge v ->
    exists r, computes (B32 l) glm_vec2_normalize [InOut (fl v)] VVoid [fl r] /\ Forall (fun x => feq x b0) r) /\
  (forall v, length v = 2%nat -> Forall number v -> huge v ->
    exists r, computes (B32 l) glm_vec2_normalize_to [InA (fl v); Out 2] VVoid [fl r] /\ Forall (fun x => feq x b0) r) /\
  (forall v, length v = 3%nat -> Forall number v -> huge v ->
    exists r, computes (B32 l) glm_vec3_normalize [InOut (fl v)] VVoid [fl r] /\ Forall (fun x => feq x b0) r) /\
  (forall v, length v = 3%nat -> Forall number v -> huge v ->
    exists r, computes (B32 l) glm_vec3_normalize_to [InA (fl v); Out 3] VVoid [fl r] /\ Forall (fun x => feq x b0) r) /\
  (forall v, length v = 4%nat -> Forall number v -> huge v ->
    exists r, computes (B32 l) glm_vec4_normalize [InOut (fl v)] VVoid [fl r] /\ Forall (fun x => feq x b0) r) /\
  (forall v, length v = 4%nat -> Forall number v -> huge v ->
    exists r, computes (B32 l) glm_vec4_normalize_to [InA (fl v); Out 4] VVoid [fl r] /\ Forall (fun x => feq x b0) r).
Proof. idall; [norminf 2%nat|norminf 2%nat|norminf 3%nat|norminf 3%nat|norminf 4%nat|norminf 4%nat]. Qed.
Lemma C62_normalize_overflow_ex : Forall number [S754_finite false 8388608 41; b0; b0] /\ huge [S754_finite false 8388608 41; b0; b0].
Proof.
  split; [repeat constructor|]. apply Exists_cons_hd. unfold rval. rewrite Rabs_pos_eq.
  - change (powerRZ 2 64) with (powerRZ 2 (23 + 41)). rewrite powerRZ_add by lra. apply Req_le. f_equal. simpl. lra.
  - apply Rmult_le_pos; [lra|]. apply powerRZ_le. lra.
Qed.
(** and such a quaternion is normalised to zero, not to the identity *)
Lemma C62_quat_normalize_ok : forall l q, length q = 4%nat -> Forall number q -> huge q ->
  exists r, computes (B32 l) glm_quat_normalize_to [InA (fl q); Out 4] VVoid [fl r] /\ Forall (fun x => feq x b0) r.
Proof.
  intros; unlists; nums; exl 4%nat; split; [brun|]; cbv beta.
  sqsum E; [hugego|rewrite E; clear E].
  change (SFsqrt prec emax inf) with inf; change (SFdiv prec emax (b_lit 1 1) inf) with (S754_zero false). change (SFleb inf (b_lit 0 1)) with false.
  cbv beta iota. zeros.
Qed.

(** glm_mat4_inv of 2^-40 times the identity is not a matrix of numbers, though the inverse is representable *)
Definition bdiag (x : b32) : list b32 := [x; b0; b0; b0; b0; x; b0; b0; b0; b0; x; b0; b0; b0; b0; x].
Lemma C62_inv_underflow_refuted_ok : exists m n, length m = 16%nat /\ Forall number m /\ Forall number n /\ forall l,
  computes (B32 l) glm_mat4_mul [In (fl m); In (fl n); Out 16] VVoid [fl bI4] /\
  exists r, computes (B32 l) glm_mat4_inv [InA (fl m); Out 16] VVoid [fl r] /\ Exists (fun x => is_nan x = true) r.
Proof.
  exists (bdiag (S754_finite false 8388608 (-63))), (bdiag (S754_finite false 8388608 17)).
  split; [reflexivity|]. split; [repeat constructor|]. split; [repeat constructor|]. intros l. split.
  - cbv [bdiag b0 b1 bI4]. brun; vm_compute; reflexivity.
  - exl 16%nat. split.
    + cbv [bdiag b0 b1]. brun.
    + vm_compute. repeat first [apply Exists_cons_hd; reflexivity | apply Exists_cons_tl].
Qed.

(** glm_lerp at 0 is the first value, unless the difference overflows *)
Lemma C62_lerp_zero_ok : forall l a b, number a -> number b ->
  (finite (SFsub prec emax b a) = true -> exists r, computes (B32 l) glm_lerp [Val (VF a); Val (VF b); Val (VF b0)] (VF r) [] /\ feq r a) /\
  (finite (SFsub prec emax b a) = false -> computes (B32 l) glm_lerp [Val (VF a); Val (VF b); Val (VF b0)] (VF nan) []).
Proof.
  intros l a b Na Nb. split; intros F.
  - eexists. split; [brun|]. apply is_feq; auto. apply is_add0_r; [apply is_self; auto|]. eapply is_mul0_l; [apply is_self; split; eauto; apply sub_valid; [apply Nb|apply Na]|apply is_zero].
  - brun. destruct (sub_inf b a Nb Na F) as [-> _]. simpl. destruct a; auto.
Qed.
Lemma C62_lerp_zero_ex : finite (SFsub prec emax b1 b0) = true /\
  number (S754_finite false 16777215 104) /\ number (S754_finite true 16777215 104) /\
  finite (SFsub prec emax (S754_finite false 16777215 104) (S754_finite true 16777215 104)) = false.
Proof. repeat split. Qed.
(** glm_lerp at 1 need not be the second value *)
Lemma C62_lerp_one_refuted_ok : exists a b r, number a /\ number b /\ ~ feq r b /\
  forall l, computes (B32 l) glm_lerp [Val (VF a); Val (VF b); Val (VF b1)] (VF r) [].
Proof.
  exists (S754_finite false 8388608 2), b1, b0. repeat split; try discriminate; intros; brun; vm_compute; reflexivity.
Qed.

(** the classification functions *)
Lemma C62_classify_ok : forall l,
  (forall v, length v = 2%nat ->
    computes (B32 l) glm_vec2_isnan [In (fl v)] (VB (existsb is_nan v)) [] /\
    computes (B32 l) glm_vec2_isinf [In (fl v)] (VB (existsb is_inf v)) [] /\
    computes (B32 l) glm_vec2_isvalid [In (fl v)] (VB (forallb finite v)) []) /\
  (forall v, length v = 3%nat ->
    computes (B32 l) glm_vec3_isnan [In (fl v)] (VB (existsb is_nan v)) [] /\
    computes (B32 l) glm_vec3_isinf [In (fl v)] (VB (existsb is_inf v)) [] /\
    computes (B32 l) glm_vec3_isvalid [In (fl v)] (VB (forallb finite v)) []) /\
  (forall v, length v = 4%nat ->
    computes (B32 l) glm_vec4_isnan [In (fl v)] (VB (existsb is_nan v)) [] /\
    computes (B32 l) glm_vec4_isinf [In (fl v)] (VB (existsb is_inf v)) [] /\
    computes (B32 l) glm_vec4_isvalid [In (fl v)] (VB (forallb finite v)) []).
Proof.
  intros l. repeat split; unlists; brun; f_equal; unfold existsb, forallb; repeat match goal with x : T (B32 l) |- _ => destruct x; clear x || idtac; try reflexivity end.
Qed.
(** the sign of a binary32 value: zero for zeros and NaN *)
Lemma C62_signf_ok : forall l x, computes (B32 l) glm_signf [Val (VF x)]
  (VF (match x with S754_zero _ | S754_nan => b0 | _ => if isign x then SFopp b1 else b1 end)) [].
Proof.
  intros l x. destruct x as [s|s| |s m e]; try destruct s; brun; reflexivity.
Qed.
(** glm_step is 1 when either argument is NaN *)
Lemma C62_step_ok : forall l e x, is_nan e = true \/ is_nan x = true -> computes (B32 l) glm_step [Val (VF e); Val (VF x)] (VF b1) [].
Proof. intros l e x [H|H]; brun; rewrite ?(lt_nan_l _ _ H), ?(lt_nan_r _ _ H); reflexivity. Qed.
Lemma C62_step_ex : is_nan nan = true. Proof. reflexivity. Qed.
