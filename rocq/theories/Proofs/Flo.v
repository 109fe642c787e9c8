(** * The SpecFloat operations round the real operations: link with Flocq *)

From Coq Require Import ZArith Bool List Reals Lra Lia Psatz Floats.SpecFloat.
From Flocq Require Import Core BinarySingleNaN Relative Plus_error.
From Verif Require Import B32.
From Verif.Spec Require Import Float32.
Import ListNotations.
Local Open Scope R_scope.

Local Instance Hprec : FLX.Prec_gt_0 prec := eq_refl _.
Local Instance Hmax : Prec_lt_emax prec emax := eq_refl _.
Notation fx := (SpecFloat.fexp prec emax).
Notation rnd := (round radix2 fx ZnearestE).
Notation bf := (binary_float prec emax).

Lemma value_SF2R : forall x, rval x = SF2R radix2 x.
Proof.
  intros [s|s| |s m e]; auto. unfold rval, SF2R, F2R. simpl Fnum. simpl Fexp. rewrite bpow_powerRZ. destruct s; reflexivity.
Qed.
Lemma value_B2R : forall (x : bf), rval (B2SF x) = B2R x.
Proof. intros. rewrite value_SF2R. apply SF2R_B2SF. Qed.
Lemma valid_B2SF : forall (x : bf), inb32 (B2SF x) = true.
Proof. intros. apply valid_binary_B2SF. Qed.
Lemma to_B : forall x, inb32 x = true -> exists b : bf, B2SF b = x.
Proof. intros x H. exists (SF2B x H). apply B2SF_SF2B. Qed.
Lemma finite_B : forall (x : bf), finite (B2SF x) = is_finite x.
Proof. intros []; reflexivity. Qed.

Lemma rne_equiv s m l : round_nearest_even m l = choice_mode mode_NE s m l.
Proof. case l; [reflexivity|intro c]. case c; [|reflexivity..]. now simpl; unfold Round.cond_incr; case Z.even. Qed.
Lemma bra_equiv sx mx ex lx : SpecFloat.binary_round_aux prec emax sx mx ex lx = BinarySingleNaN.binary_round_aux prec emax mode_NE sx mx ex lx.
Proof.
  unfold SpecFloat.binary_round_aux, BinarySingleNaN.binary_round_aux. set (mrse' := shr_fexp _ _ _ _ _). case mrse'; intros mrs' e'; simpl. now rewrite (rne_equiv sx).
Qed.
Lemma br_equiv s m e : SpecFloat.binary_round prec emax s m e = BinarySingleNaN.binary_round prec emax mode_NE s m e.
Proof. unfold SpecFloat.binary_round, BinarySingleNaN.binary_round, shl_align_fexp. set (mez := shl_align _ _ _); case mez as [mz ez]. apply bra_equiv. Qed.
Lemma bn_equiv m e sz : SpecFloat.binary_normalize prec emax m e sz = B2SF (BinarySingleNaN.binary_normalize prec emax Hprec Hmax mode_NE m e sz).
Proof. case m as [|p|p]; simpl; auto; rewrite B2SF_SF2B; apply br_equiv. Qed.

Lemma mul_B : forall x y : bf, SFmul prec emax (B2SF x) (B2SF y) = B2SF (Bmult mode_NE x y).
Proof.
  intros x y. case x as [sx|sx| |sx mx ex Bx]; case y as [sy|sy| |sy my ey By]; [now trivial..|]. simpl. rewrite B2SF_SF2B. apply bra_equiv.
Qed.
Lemma add_B : forall x y : bf, SFadd prec emax (B2SF x) (B2SF y) = B2SF (Bplus mode_NE x y).
Proof.
  intros x y. case x as [sx|sx| |sx mx ex Bx]; case y as [sy|sy| |sy my ey By]; [now (trivial || simpl; case Bool.eqb)..|]. apply bn_equiv.
Qed.
Lemma sub_B : forall x y : bf, SFsub prec emax (B2SF x) (B2SF y) = B2SF (Bminus mode_NE x y).
Proof.
  intros x y. case x as [sx|sx| |sx mx ex Bx]; case y as [sy|sy| |sy my ey By]; [now (trivial || simpl; case Bool.eqb)..|].
  simpl. unfold Zminus. rewrite <- cond_Zopp_negb. apply bn_equiv.
Qed.
Lemma div_B : forall x y : bf, SFdiv prec emax (B2SF x) (B2SF y) = B2SF (Bdiv mode_NE x y).
Proof.
  intros x y. case x as [sx|sx| |sx mx ex Bx]; case y as [sy|sy| |sy my ey By]; [now (trivial || simpl; case Bool.eqb)..|].
  simpl. rewrite B2SF_SF2B. set (melz := SFdiv_core_binary _ _ _ _ _ _). case melz as [[mz ez] lz]. apply bra_equiv.
Qed.
Lemma sqrt_B : forall x : bf, SFsqrt prec emax (B2SF x) = B2SF (Bsqrt mode_NE x).
Proof.
  intros x. case x as [sx|sx| |sx mx ex Bx]; [now (trivial || case sx)..|]. case sx; [reflexivity|].
  simpl. rewrite B2SF_SF2B. set (melz := SFsqrt_core_binary _ _ _ _). case melz as [[mz ez] lz]. apply bra_equiv.
Qed.

Ltac toB := repeat match goal with H : inb32 ?x = true |- _ => is_var x; destruct (to_B x H) as [? <-]; clear H end.
Lemma mul_valid : forall x y, inb32 x = true -> inb32 y = true -> inb32 (SFmul prec emax x y) = true.
Proof. intros. toB. rewrite mul_B. apply valid_B2SF. Qed.
Lemma add_valid : forall x y, inb32 x = true -> inb32 y = true -> inb32 (SFadd prec emax x y) = true.
Proof. intros. toB. rewrite add_B. apply valid_B2SF. Qed.
Lemma sub_valid : forall x y, inb32 x = true -> inb32 y = true -> inb32 (SFsub prec emax x y) = true.
Proof. intros. toB. rewrite sub_B. apply valid_B2SF. Qed.
Lemma div_valid : forall x y, inb32 x = true -> inb32 y = true -> inb32 (SFdiv prec emax x y) = true.
Proof. intros. toB. rewrite div_B. apply valid_B2SF. Qed.
Lemma sqrt_valid : forall x, inb32 x = true -> inb32 (SFsqrt prec emax x) = true.
Proof. intros. toB. rewrite sqrt_B. apply valid_B2SF. Qed.
Lemma opp_valid : forall x, inb32 x = true -> inb32 (SFopp x) = true.
Proof. intros []; auto. Qed.
Lemma opp_value : forall x, rval (SFopp x) = - rval x.
Proof.
  intros [s|s| |s m e]; simpl; try lra. replace (if negb s then Z.neg m else Z.pos m) with (- (if s then Z.neg m else Z.pos m))%Z by (destruct s; reflexivity). rewrite opp_IZR. ring.
Qed.
Lemma opp_finite : forall x, finite (SFopp x) = finite x.
Proof. intros []; auto. Qed.

(** finite results come from finite arguments *)
Lemma mul_fin : forall x y, finite (SFmul prec emax x y) = true -> finite x = true /\ finite y = true.
Proof. intros [] []; simpl; intros; auto; discriminate. Qed.
Lemma add_fin : forall x y, finite (SFadd prec emax x y) = true -> finite x = true /\ finite y = true.
Proof. intros [] []; simpl; intros; auto; try discriminate; destruct (Bool.eqb s s0); discriminate. Qed.
Lemma sub_fin : forall x y, finite (SFsub prec emax x y) = true -> finite x = true /\ finite y = true.
Proof. intros [] []; simpl; intros; auto; try discriminate; destruct (Bool.eqb s (negb s0)); discriminate. Qed.

Definition big : R := bpow radix2 emax.
Lemma ovf_not_fin : forall (z : bf) m s, B2SF z = binary_overflow prec emax m s -> is_finite z = true -> overflow_to_inf m s = true -> False.
Proof. intros z m s H F O. unfold binary_overflow in H. rewrite O in H. destruct z; simpl in *; discriminate. Qed.

Lemma mul_rnd : forall x y, number x -> number y ->
  (finite (SFmul prec emax x y) = true -> rval (SFmul prec emax x y) = rnd (rval x * rval y)) /\
  (Rabs (rnd (rval x * rval y)) < big -> finite (SFmul prec emax x y) = true).
Proof.
  intros x y [Vx Fx] [Vy Fy]. toB. rewrite mul_B, !value_B2R, !finite_B in *. pose proof (Bmult_correct prec emax _ _ mode_NE x1 x0) as C.
  simpl round_mode in C. fold big in C. destruct (Rlt_bool_spec (Rabs (rnd (B2R x1 * B2R x0))) big) as [L|L].
  - destruct C as (C & F & _). split; intros; auto. rewrite F, Fx, Fy. auto.
  - split; [intros F; exfalso; eapply ovf_not_fin; eauto|lra].
Qed.
Lemma add_rnd : forall x y, number x -> number y ->
  (finite (SFadd prec emax x y) = true -> rval (SFadd prec emax x y) = rnd (rval x + rval y)) /\
  (Rabs (rnd (rval x + rval y)) < big -> finite (SFadd prec emax x y) = true).
Proof.
  intros x y [Vx Fx] [Vy Fy]. toB. rewrite add_B, !value_B2R, !finite_B in *. pose proof (Bplus_correct prec emax _ _ mode_NE x1 x0 Fx Fy) as C.
  simpl round_mode in C. fold big in C. destruct (Rlt_bool_spec (Rabs (rnd (B2R x1 + B2R x0))) big) as [L|L].
  - destruct C as (C & F & _). split; intros; auto.
  - destruct C as [C _]. split; [intros F; exfalso; eapply ovf_not_fin; eauto|lra].
Qed.
Lemma sub_rnd : forall x y, number x -> number y ->
  (finite (SFsub prec emax x y) = true -> rval (SFsub prec emax x y) = rnd (rval x - rval y)) /\
  (Rabs (rnd (rval x - rval y)) < big -> finite (SFsub prec emax x y) = true).
Proof.
  intros x y [Vx Fx] [Vy Fy]. toB. rewrite sub_B, !value_B2R, !finite_B in *. pose proof (Bminus_correct prec emax _ _ mode_NE x1 x0 Fx Fy) as C.
  simpl round_mode in C. fold big in C. destruct (Rlt_bool_spec (Rabs (rnd (B2R x1 - B2R x0))) big) as [L|L].
  - destruct C as (C & F & _). split; intros; auto.
  - destruct C as [C _]. split; [intros F; exfalso; eapply ovf_not_fin; eauto|lra].
Qed.
Lemma div_rnd : forall x y, number x -> number y -> rval y <> 0 ->
  (finite (SFdiv prec emax x y) = true -> rval (SFdiv prec emax x y) = rnd (rval x / rval y)) /\
  (Rabs (rnd (rval x / rval y)) < big -> finite (SFdiv prec emax x y) = true).
Proof.
  intros x y [Vx Fx] [Vy Fy] NZ. toB. rewrite div_B, !value_B2R, !finite_B in *. pose proof (Bdiv_correct prec emax _ _ mode_NE x1 x0 NZ) as C.
  simpl round_mode in C. fold big in C. destruct (Rlt_bool_spec (Rabs (rnd (B2R x1 / B2R x0))) big) as [L|L].
  - destruct C as (C & F & _). split; intros; auto. rewrite F. auto.
  - split; [intros F; exfalso; eapply ovf_not_fin; eauto|lra].
Qed.
Lemma sqrt_rnd : forall x, number x -> 0 <= rval x ->
  finite (SFsqrt prec emax x) = true /\ rval (SFsqrt prec emax x) = rnd (sqrt (rval x)).
Proof.
  intros x [Vx Fx] P. toB. rewrite sqrt_B, !value_B2R, !finite_B in *. pose proof (Bsqrt_correct prec emax _ _ mode_NE x0) as (C & F & _).
  split; auto. rewrite F. destruct x0 as [| | |[] m e h]; auto. exfalso. simpl in P. unfold F2R in P. simpl in P.
  pose proof (bpow_gt_0 radix2 e). assert (IZR (Z.neg m) <= -1) by (apply IZR_le; lia). nra.
Qed.

Lemma format_value : forall x, inb32 x = true -> generic_format radix2 fx (rval x).
Proof. intros. toB. rewrite value_B2R. apply generic_format_B2R. Qed.
Lemma rnd_id : forall x, inb32 x = true -> rnd (rval x) = rval x.
Proof. intros. apply round_generic; auto with typeclass_instances. apply format_value. auto. Qed.

(** the rounding error *)
Lemma err_any : forall r, exists d e, Rabs d <= u /\ Rabs e <= eta /\ d * e = 0 /\ rnd r = r * (1 + d) + e.
Proof.
  intros r. destruct (error_N_FLT radix2 (SpecFloat.emin prec emax) prec eq_refl (fun z => negb (Z.even z)) r) as (d & e & D & E & P & H).
  exists d, e. change (SpecFloat.fexp prec emax) with (FLT_exp (SpecFloat.emin prec emax) prec) in *.
  repeat split; auto.
  - eapply Rle_trans; [exact D|]. unfold u. simpl. lra.
  - eapply Rle_trans; [exact E|]. unfold eta. replace (/ 2)%R with (bpow radix2 (-1)) by (simpl; lra). rewrite <- bpow_plus. rewrite bpow_powerRZ. apply Rle_refl.
Qed.
Lemma err_add : forall x y, inb32 x = true -> inb32 y = true -> exists d, Rabs d <= u /\ rnd (rval x + rval y) = (rval x + rval y) * (1 + d).
Proof.
  intros x y Vx Vy. destruct (FLT_plus_error_N_ex radix2 (SpecFloat.emin prec emax) prec (fun z => negb (Z.even z)) (rval x) (rval y)) as (d & D & H).
  - apply (format_value x Vx). - apply (format_value y Vy).
  - exists d. split; auto. eapply Rle_trans; [exact D|]. unfold u_ro, u. simpl. apply Rle_trans with (/2 * / 8388608)%R; [|lra].
    apply Rle_trans with ((/ 2 * / 8388608) / 1)%R; [|lra]. unfold Rdiv. apply Rmult_le_compat_l; [lra|]. apply Rinv_le; lra.
Qed.
(** away from underflow the error is relative *)
Definition small : R := bpow radix2 (-126).
Lemma err_rel : forall r, small <= Rabs r -> exists d, Rabs d <= u /\ rnd r = r * (1 + d).
Proof.
  intros r H. destruct (relative_error_N_FLT_ex radix2 (SpecFloat.emin prec emax) prec eq_refl (fun z => negb (Z.even z)) r H) as (d & D & E).
  exists d. split; auto. eapply Rle_trans; [exact D|]. unfold u. simpl. lra.
Qed.
Local Instance Hfx : Valid_exp fx := BinarySingleNaN.fexp_correct prec emax Hprec.
Lemma rnd_le : forall a b, a <= b -> rnd a <= rnd b.
Proof. intros. apply round_le; auto with typeclass_instances. Qed.

(** ** Exact operations *)

Lemma value_zero : forall x, finite x = true -> (rval x = 0 <-> exists s, x = S754_zero s).
Proof.
  intros [s|s| |s m e] F; try discriminate.
  - split; intros; eauto.
  - split; [intros H|intros [? ?]; discriminate]. exfalso. simpl in H. assert (P : 0 < powerRZ 2 e) by (apply powerRZ_lt; lra).
    apply Rmult_integral in H. destruct H as [H|H]; [|lra]. apply eq_IZR in H. destruct s; discriminate.
Qed.
Lemma value_inj : forall x y, number x -> number y -> rval x = rval y -> rval x <> 0 -> x = y.
Proof.
  intros x y [Vx Fx] [Vy Fy]. toB. rewrite !finite_B, !value_B2R in *. intros E N. apply f_equal. apply B2R_inj; auto.
  - destruct x1; simpl in *; auto; try discriminate; exfalso; auto.
  - destruct x0; simpl in *; auto; try discriminate; exfalso; apply N; auto.
Qed.
Lemma feq_value : forall x y, number x -> number y -> (feq x y <-> rval x = rval y).
Proof.
  intros x y [Vx Fx] [Vy Fy]. toB. rewrite !finite_B, !value_B2R in *. unfold feq. change (SFeqb (B2SF x1) (B2SF x0)) with (Beqb x1 x0).
  rewrite Beqb_correct by auto. destruct (Req_bool_spec (B2R x1) (B2R x0)); split; intros; auto; congruence.
Qed.
Lemma lt_value : forall x y, number x -> number y -> (SFltb x y = true <-> rval x < rval y).
Proof.
  intros x y [Vx Fx] [Vy Fy]. toB. rewrite !finite_B, !value_B2R in *. change (SFltb (B2SF x1) (B2SF x0)) with (Bltb x1 x0).
  rewrite Bltb_correct by auto. destruct (Rlt_bool_spec (B2R x1) (B2R x0)); split; intros; auto; try discriminate; lra.
Qed.
Lemma le_value : forall x y, number x -> number y -> (SFleb x y = true <-> rval x <= rval y).
Proof.
  intros x y [Vx Fx] [Vy Fy]. toB. rewrite !finite_B, !value_B2R in *. change (SFleb (B2SF x1) (B2SF x0)) with (Bleb x1 x0).
  rewrite Bleb_correct by auto. destruct (Rle_bool_spec (B2R x1) (B2R x0)); split; intros; auto; try discriminate; lra.
Qed.
Lemma value_big : forall x, inb32 x = true -> Rabs (rval x) < big.
Proof. intros. toB. rewrite value_B2R. apply abs_B2R_lt_emax. Qed.
Lemma value_b1 : rval b1 = 1.
Proof. unfold rval, b1. simpl. lra. Qed.
Lemma num_b1 : number b1. Proof. split; reflexivity. Qed.
Lemma num_zero : forall s, number (S754_zero s). Proof. split; reflexivity. Qed.
Lemma mul_comm : forall x y, SFmul prec emax x y = SFmul prec emax y x.
Proof. intros [] []; simpl; auto; rewrite xorb_comm; auto. rewrite Pos.mul_comm, Z.add_comm. reflexivity. Qed.
Lemma add_comm : forall x y, SFadd prec emax x y = SFadd prec emax y x.
Proof.
  intros [] []; simpl; auto; try (destruct s, s0; reflexivity).
  rewrite (Z.min_comm e0 e). f_equal. apply Z.add_comm.
Qed.
Lemma mul1_r : forall x, inb32 x = true -> SFmul prec emax x b1 = x.
Proof.
  intros x V. destruct (finite x) eqn:F; [|destruct x as [| | |]; try discriminate; simpl; rewrite ?xorb_false_r; auto].
  destruct (mul_rnd x b1 (conj V F) num_b1) as [E B]. rewrite value_b1, Rmult_1_r, rnd_id in * by auto. specialize (B (value_big x V)). specialize (E B).
  destruct (Req_dec (rval x) 0) as [Z|Z].
  - apply value_zero in Z; auto. destruct Z as [s ->]. simpl. rewrite xorb_false_r. auto.
  - apply value_inj; auto; [|split; auto|congruence]. split; auto. apply mul_valid; auto.
Qed.
Lemma mul1_l : forall x, inb32 x = true -> SFmul prec emax b1 x = x.
Proof. intros. rewrite mul_comm. apply mul1_r. auto. Qed.
Lemma mul0_r : forall x s, finite x = true -> exists s', SFmul prec emax x (S754_zero s) = S754_zero s'.
Proof. intros x s F; destruct x; simpl in *; try discriminate; eauto. Qed.
Lemma mul0_l : forall x s, finite x = true -> exists s', SFmul prec emax (S754_zero s) x = S754_zero s'.
Proof. intros. rewrite mul_comm. apply mul0_r; auto. Qed.
(** ** Overflow *)
Lemma sign_B : forall x : bf, isign (B2SF x) = Bsign x.
Proof. intros []; reflexivity. Qed.
Lemma mul_inf : forall x y, number x -> number y -> finite (SFmul prec emax x y) = false -> SFmul prec emax x y = S754_infinity (xorb (isign x) (isign y)).
Proof.
  intros x y [Vx Fx] [Vy Fy]. toB. rewrite mul_B, !finite_B, !sign_B in *. intros F. pose proof (Bmult_correct prec emax _ _ mode_NE x1 x0) as C.
  destruct (Rlt_bool_spec (Rabs (round radix2 fx (round_mode mode_NE) (B2R x1 * B2R x0))) (bpow radix2 emax)) as [L|L].
  - destruct C as (_ & C & _). rewrite C, Fx, Fy in F. discriminate.
  - exact C.
Qed.
Lemma add_inf : forall x y, number x -> number y -> finite (SFadd prec emax x y) = false -> SFadd prec emax x y = S754_infinity (isign x) /\ isign x = isign y.
Proof.
  intros x y [Vx Fx] [Vy Fy]. toB. rewrite add_B, !finite_B, !sign_B in *. intros F. pose proof (Bplus_correct prec emax _ _ mode_NE x1 x0 Fx Fy) as C.
  destruct (Rlt_bool_spec (Rabs (round radix2 fx (round_mode mode_NE) (B2R x1 + B2R x0))) (bpow radix2 emax)) as [L|L].
  - destruct C as (_ & C & _). rewrite C in F. discriminate.
  - exact C.
Qed.
Lemma sub_inf : forall x y, number x -> number y -> finite (SFsub prec emax x y) = false -> SFsub prec emax x y = S754_infinity (isign x) /\ isign x = negb (isign y).
Proof.
  intros x y [Vx Fx] [Vy Fy]. toB. rewrite sub_B, !finite_B, !sign_B in *. intros F. pose proof (Bminus_correct prec emax _ _ mode_NE x1 x0 Fx Fy) as C.
  destruct (Rlt_bool_spec (Rabs (round radix2 fx (round_mode mode_NE) (B2R x1 - B2R x0))) (bpow radix2 emax)) as [L|L].
  - destruct C as (_ & C & _). rewrite C in F. discriminate.
  - exact C.
Qed.
Lemma sign_value : forall x, finite x = true -> isign x = true -> rval x <= 0.
Proof.
  intros [s|s| |s m e] F S; simpl in *; try discriminate; try lra. subst s. assert (0 < powerRZ 2 e) by (apply powerRZ_lt; lra).
  assert (IZR (Z.neg m) <= -1) by (apply IZR_le; lia). nra.
Qed.
Lemma sign_value' : forall x, finite x = true -> isign x = false -> 0 <= rval x.
Proof.
  intros [s|s| |s m e] F S; simpl in *; try discriminate; try lra. subst s. assert (0 < powerRZ 2 e) by (apply powerRZ_lt; lra).
  assert (1 <= IZR (Z.pos m)) by (apply IZR_le; lia). nra.
Qed.
