(** * Rounding errors of polynomial expressions with fused operations (proof tool) *)

From Coq Require Import ZArith Bool List Reals Lra Lia Psatz Floats.SpecFloat.
From Flocq Require Import Core BinarySingleNaN.
From Verif Require Import B32.
From Verif.Spec Require Import Float32.
From Verif.Proofs Require Import Flo FloErr ExactSound.
Import ListNotations.
Local Open Scope R_scope.

Lemma fma_norm : forall s m e s' m' e' s2 m2 e2,
  exists b : bf, b_fma (S754_finite s m e) (S754_finite s' m' e') (S754_finite s2 m2 e2) = B2SF b /\
    let r := rval (S754_finite s m e) * rval (S754_finite s' m' e') + rval (S754_finite s2 m2 e2) in
    if Rlt_bool (Rabs (rnd r)) big then B2R b = rnd r /\ is_finite b = true else exists sg, B2SF b = binary_overflow prec emax mode_NE sg.
Proof.
  intros. cbn [b_fma]. unfold SFadd. set (ez := Z.min (e + e') e2). cbv zeta.
  pose proof (shl_align_correct' (m * m') (e + e') ez ltac:(lia)) as S1. pose proof (shl_align_correct' m2 e2 ez ltac:(lia)) as S2.
  destruct (shl_align (m * m') (e + e') ez) as [p1 x1]. destruct (shl_align m2 e2 ez) as [p2 x2]. destruct S1 as [S1 _], S2 as [S2 _]. cbn [fst].
  rewrite bn_equiv. eexists. split; [reflexivity|].
  pose proof (binary_normalize_correct prec emax Flo.Hprec Flo.Hmax mode_NE (cond_Zopp (xorb s s') (Zpos p1) + cond_Zopp s2 (Zpos p2)) ez false) as C. cbv zeta in C.
  assert (F : F2R (Defs.Float radix2 (cond_Zopp (xorb s s') (Zpos p1) + cond_Zopp s2 (Zpos p2)) ez) =
     rval (S754_finite s m e) * rval (S754_finite s' m' e') + rval (S754_finite s2 m2 e2)).
  { unfold F2R in *. cbn [Fnum Fexp] in *. rewrite !bpow_powerRZ in *. change (IZR radix2) with 2 in *. rewrite plus_IZR, Rmult_plus_distr_r.
    assert (X : forall s p, IZR (cond_Zopp s (Zpos p)) = (if s then -1 else 1) * IZR (Zpos p)) by (intros [] p; simpl cond_Zopp; [change (Z.neg p) with (- Z.pos p)%Z; rewrite opp_IZR|]; ring).
    assert (Y : forall s p e, rval (S754_finite s p e) = (if s then -1 else 1) * (IZR (Zpos p) * powerRZ 2 e)).
    { intros [] p q; unfold rval; [change (Z.neg p) with (- Z.pos p)%Z; rewrite opp_IZR|]; ring. }
    rewrite !X, !Y, !Rmult_assoc, S1, S2. rewrite Pos2Z.inj_mul, mult_IZR, p2plus. destruct s, s'; simpl; ring. }
  rewrite F in C. simpl round_mode in C. fold big in C. destruct (Rlt_bool _ big).
  - destruct C as (C1 & C2 & _). split; auto.
  - eexists. exact C.
Qed.
Lemma fma_fin : forall x y z, finite (b_fma x y z) = true -> finite x = true /\ finite y = true /\ finite z = true.
Proof.
  intros x y z H. assert (G : finite (SFadd prec emax (SFmul prec emax x y) z) = true -> finite x = true /\ finite y = true /\ finite z = true).
  { intros K. apply add_fin in K. destruct K as [K1 K2]. apply mul_fin in K1. tauto. }
  destruct x as [s|s| |s m e], y as [s'|s'| |s' m' e'], z as [s2|s2| |s2 m2 e2]; auto; try discriminate; apply G; exact H.
Qed.
Lemma fma_valid : forall x y z, inb32 x = true -> inb32 y = true -> inb32 z = true -> inb32 (b_fma x y z) = true.
Proof.
  intros x y z Hx Hy Hz. destruct x as [s|s| |s m e], y as [s'|s'| |s' m' e'], z as [s2|s2| |s2 m2 e2];
    try (apply add_valid; auto; apply mul_valid; assumption); try (apply mul_valid; assumption); try reflexivity.
  destruct (fma_norm s m e s' m' e' s2 m2 e2) as (b & -> & _). apply valid_B2SF.
Qed.
Lemma fma_rnd : forall x y z, number x -> number y -> number z ->
  (finite (b_fma x y z) = true -> rval (b_fma x y z) = rnd (rval x * rval y + rval z)) /\
  (Rabs (rnd (rval x * rval y + rval z)) < big -> finite (b_fma x y z) = true).
Proof.
  intros x y z Nx Ny Nz.
  assert (G : rval x * rval y = 0 -> (exists s, SFmul prec emax x y = S754_zero s) ->
    (finite (SFadd prec emax (SFmul prec emax x y) z) = true -> rval (SFadd prec emax (SFmul prec emax x y) z) = rnd (rval x * rval y + rval z)) /\
    (Rabs (rnd (rval x * rval y + rval z)) < big -> finite (SFadd prec emax (SFmul prec emax x y) z) = true)).
  { intros E [s W]. rewrite W, E. apply (add_rnd (S754_zero s) z (num_zero s) Nz). }
  destruct x as [s|s| |s m e]; try (destruct Nx as [_ Nx]; discriminate).
  { replace (b_fma (S754_zero s) y z) with (SFadd prec emax (SFmul prec emax (S754_zero s) y) z) by (destruct y; reflexivity).
    apply G; [unfold rval at 1; ring|]. apply mul0_l. apply Ny. }
  destruct y as [s'|s'| |s' m' e']; try (destruct Ny as [_ Ny]; discriminate).
  { apply G; [unfold rval at 2; ring|]. apply mul0_r. reflexivity. }
  destruct z as [s2|s2| |s2 m2 e2]; try (destruct Nz as [_ Nz]; discriminate).
  { cbn [b_fma]. replace (rval (S754_zero s2)) with 0 by reflexivity. rewrite Rplus_0_r. apply mul_rnd; auto. }
  destruct (fma_norm s m e s' m' e' s2 m2 e2) as (b & -> & C). cbv zeta in C. rewrite value_B2R, finite_B.
  destruct (Rlt_bool_spec (Rabs (rnd (rval (S754_finite s m e) * rval (S754_finite s' m' e') + rval (S754_finite s2 m2 e2)))) big) as [L|L].
  - destruct C as [C1 C2]. split; intros; auto.
  - destruct C as [sg C]. split; [|lra]. intros F. exfalso. eapply ovf_not_fin; eauto.
Qed.

Inductive qe := QV (x : b32) | QOpp (a : qe) | QAdd (a b : qe) | QSub (a b : qe) | QMul (a b : qe) | QFma (a b c : qe).
Fixpoint qbfl (e : qe) : b32 :=
  match e with
  | QV x => x
  | QOpp a => SFopp (qbfl a)
  | QAdd a b => SFadd prec emax (qbfl a) (qbfl b)
  | QSub a b => SFsub prec emax (qbfl a) (qbfl b)
  | QMul a b => SFmul prec emax (qbfl a) (qbfl b)
  | QFma a b c => b_fma (qbfl a) (qbfl b) (qbfl c)
  end.
Fixpoint qev (e : qe) : R :=
  match e with
  | QV x => rval x
  | QOpp a => - qev a
  | QAdd a b => qev a + qev b
  | QSub a b => qev a - qev b
  | QMul a b => qev a * qev b
  | QFma a b c => qev a * qev b + qev c
  end.
Fixpoint qmaj (e : qe) : R :=
  match e with
  | QV x => rabs x
  | QOpp a => qmaj a
  | QAdd a b | QSub a b => qmaj a + qmaj b
  | QMul a b => qmaj a * qmaj b
  | QFma a b c => qmaj a * qmaj b + qmaj c
  end.
Fixpoint qwt (e : qe) : nat :=
  match e with
  | QV x => O
  | QOpp a => qwt a
  | QAdd a b | QSub a b => S (max (qwt a) (qwt b))
  | QMul a b => S (qwt a + qwt b)
  | QFma a b c => S (max (qwt a + qwt b) (qwt c))
  end.
(** what underflow can add; for [QFma] the product itself is not rounded *)
Fixpoint qund (e : qe) : R :=
  match e with
  | QV x => 0
  | QOpp a => qund a
  | QAdd a b | QSub a b => (1 + u) * (qund a + qund b)
  | QMul a b => (1 + u) * ((1 + u) ^ qwt a * qmaj a * qund b + (1 + u) ^ qwt b * qmaj b * qund a + qund a * qund b) + eta
  | QFma a b c => (1 + u) * (((1 + u) ^ qwt a * qmaj a * qund b + (1 + u) ^ qwt b * qmaj b * qund a + qund a * qund b) + qund c) + eta
  end.
Fixpoint qallnum (e : qe) : Prop :=
  match e with
  | QV x => number x
  | QOpp a => qallnum a
  | QAdd a b | QSub a b | QMul a b => qallnum a /\ qallnum b
  | QFma a b c => qallnum a /\ qallnum b /\ qallnum c
  end.
Lemma qmaj_pos : forall e, 0 <= qmaj e.
Proof. induction e; simpl; try nra. unfold rabs. apply Rabs_pos. Qed.
Lemma qev_maj : forall e, Rabs (qev e) <= qmaj e.
Proof.
  assert (M : forall a b A B, Rabs a <= A -> Rabs b <= B -> Rabs (a * b) <= A * B) by (intros; rewrite Rabs_mult; apply Rmult_le_compat; auto using Rabs_pos).
  induction e; simpl; auto.
  - unfold rabs. lra.
  - rewrite Rabs_Ropp. auto.
  - eapply Rle_trans; [apply Rabs_triang|lra].
  - unfold Rminus. eapply Rle_trans; [apply Rabs_triang|]. rewrite Rabs_Ropp. lra.
  - eapply Rle_trans; [apply Rabs_triang|]. apply Rplus_le_compat; auto.
Qed.
Lemma qund_pos : forall e, 0 <= qund e.
Proof.
  pose proof u_pos. pose proof eta_pos. assert (P : forall n, 0 <= (1 + u) ^ n) by (intros; apply pow_le; lra).
  assert (X : forall n m a b c d, 0 <= a -> 0 <= b -> 0 <= c -> 0 <= d -> 0 <= (1 + u) ^ n * a * d + (1 + u) ^ m * b * c + c * d).
  { intros. pose proof (P n). pose proof (P m). assert (0 <= (1 + u) ^ n * a) by nra. assert (0 <= (1 + u) ^ m * b) by nra. nra. }
  induction e; cbn [qund]; try lra; try nra.
  - pose proof (X (qwt e1) (qwt e2) _ _ _ _ (qmaj_pos e1) (qmaj_pos e2) IHe1 IHe2). nra.
  - pose proof (X (qwt e1) (qwt e2) _ _ _ _ (qmaj_pos e1) (qmaj_pos e2) IHe1 IHe2). nra.
Qed.
Lemma qbfl_valid : forall e, qallnum e -> inb32 (qbfl e) = true.
Proof.
  induction e; simpl; intros.
  - apply H.
  - apply opp_valid; auto.
  - apply add_valid; tauto. - apply sub_valid; tauto. - apply mul_valid; tauto.
  - destruct H as (? & ? & ?). apply fma_valid; auto.
Qed.
(** one rounding of a product and a sum *)
Lemma fma_step : forall x y z a b c P Q Ma Mb Mc Ua Ub Uc W d e,
  Rabs (x - a) <= (P - 1) * Ma + Ua -> Rabs (y - b) <= (Q - 1) * Mb + Ub -> Rabs (z - c) <= (W - 1) * Mc + Uc ->
  Rabs a <= Ma -> Rabs b <= Mb -> Rabs c <= Mc -> P * Q <= W -> 1 <= W -> Rabs d <= u -> Rabs e <= eta ->
  Rabs ((x * y + z) * (1 + d) + e - (a * b + c)) <=
    ((1 + u) * W - 1) * (Ma * Mb + Mc) + ((1 + u) * ((P * Ma * Ub + Q * Mb * Ua + Ua * Ub) + Uc) + eta).
Proof.
  intros x y z a b c P Q Ma Mb Mc Ua Ub Uc W d e Hx Hy Hz Ha Hb Hc HW HW1 Hd He. pose proof u_pos.
  replace ((x * y + z) * (1 + d) + e - (a * b + c)) with (((x - a) * (y - b) + a * (y - b) + b * (x - a) + (z - c)) * (1 + d) + (a * b + c) * d + e) by ring.
  set (Ex := (P - 1) * Ma + Ua) in *. set (Ey := (Q - 1) * Mb + Ub) in *. set (Ez := (W - 1) * Mc + Uc) in *.
  assert (D : Rabs (1 + d) <= 1 + u). { eapply Rle_trans; [apply Rabs_triang|]. rewrite Rabs_R1. lra. }
  assert (A : Rabs ((x - a) * (y - b) + a * (y - b) + b * (x - a) + (z - c)) <= Ex * Ey + Ma * Ey + Mb * Ex + Ez).
  { eapply Rle_trans; [apply Rabs_triang|]. apply Rplus_le_compat; auto. eapply Rle_trans; [apply Rabs_triang|]. apply Rplus_le_compat. eapply Rle_trans; [apply Rabs_triang|]. apply Rplus_le_compat.
    all: rewrite Rabs_mult; apply Rmult_le_compat; auto using Rabs_pos. }
  assert (B : Rabs ((a * b + c) * d) <= (Ma * Mb + Mc) * u).
  { rewrite Rabs_mult. apply Rmult_le_compat; auto using Rabs_pos. eapply Rle_trans; [apply Rabs_triang|]. rewrite Rabs_mult. apply Rplus_le_compat; auto. apply Rmult_le_compat; auto using Rabs_pos. }
  assert (X : Rabs (((x - a) * (y - b) + a * (y - b) + b * (x - a) + (z - c)) * (1 + d)) <= (Ex * Ey + Ma * Ey + Mb * Ex + Ez) * (1 + u)).
  { rewrite Rabs_mult. apply Rmult_le_compat; auto using Rabs_pos. }
  eapply Rle_trans; [apply Rabs_triang|]. eapply Rle_trans; [apply Rplus_le_compat_r; apply Rabs_triang|].
  eapply Rle_trans; [apply Rplus_le_compat; [apply Rplus_le_compat; [exact X|exact B]|exact He]|].
  assert (MM : 0 <= Ma * Mb) by (apply Rmult_le_pos; eapply Rle_trans; try apply Rabs_pos; eassumption).
  assert (Y : (Ex * Ey + Ma * Ey + Mb * Ex + Ez) * (1 + u) + (Ma * Mb + Mc) * u + eta =
     ((1 + u) * (P * Q) - 1) * (Ma * Mb) + ((1 + u) * W - 1) * Mc + ((1 + u) * ((P * Ma * Ub + Q * Mb * Ua + Ua * Ub) + Uc) + eta)) by (unfold Ex, Ey, Ez; ring).
  rewrite Y. assert ((1 + u) * (P * Q) * (Ma * Mb) <= (1 + u) * W * (Ma * Mb)); [|lra].
  apply Rmult_le_compat_r; auto. apply Rmult_le_compat_l; [lra|auto].
Qed.
Theorem qpoly_err : forall e, qallnum e -> finite (qbfl e) = true -> Rabs (rval (qbfl e) - qev e) <= ((1 + u) ^ qwt e - 1) * qmaj e + qund e.
Proof.
  assert (W : forall x n m M U, 0 <= M -> (n <= m)%nat -> x <= ((1 + u) ^ n - 1) * M + U -> x <= ((1 + u) ^ m - 1) * M + U).
  { intros. eapply Rle_trans; [eassumption|]. apply Rplus_le_compat_r. apply Rmult_le_compat_r; auto. apply Rplus_le_compat_r. apply pow_mono. auto. }
  induction e as [x|a IHa|a IHa b IHb|a IHa b IHb|a IHa b IHb|a IHa b IHb c IHc]; intros N F.
  - simpl. rewrite Rminus_diag_eq by auto. rewrite Rabs_R0. lra.
  - simpl in *. rewrite opp_finite in F. rewrite opp_value. replace (- rval (qbfl a) - - qev a) with (- (rval (qbfl a) - qev a)) by ring. rewrite Rabs_Ropp. auto.
  - destruct N as [Na Nb]. pose proof (add_fin _ _ F) as [Fa Fb]. specialize (IHa Na Fa). specialize (IHb Nb Fb).
    assert (Ka : number (qbfl a)) by (split; auto using qbfl_valid). assert (Kb : number (qbfl b)) by (split; auto using qbfl_valid).
    destruct (add_rnd _ _ Ka Kb) as [E _]. specialize (E F). cbn [qbfl]. rewrite E. destruct (err_add _ _ (proj1 Ka) (proj1 Kb)) as (d & D & ->).
    cbn [qev qmaj qwt qund]. change ((1 + u) ^ S (max (qwt a) (qwt b))) with ((1 + u) * (1 + u) ^ max (qwt a) (qwt b)).
    apply sum_step; auto using qev_maj, pow1.
    + eapply W; [apply qmaj_pos| |exact IHa]. lia.
    + eapply W; [apply qmaj_pos| |exact IHb]. lia.
  - destruct N as [Na Nb]. pose proof (sub_fin _ _ F) as [Fa Fb]. specialize (IHa Na Fa). specialize (IHb Nb Fb).
    assert (Ka : number (qbfl a)) by (split; auto using qbfl_valid). assert (Kb : number (qbfl b)) by (split; auto using qbfl_valid).
    destruct (sub_rnd _ _ Ka Kb) as [E _]. specialize (E F). cbn [qbfl]. rewrite E.
    assert (X : exists d, Rabs d <= u /\ rnd (rval (qbfl a) - rval (qbfl b)) = (rval (qbfl a) - rval (qbfl b)) * (1 + d)).
    { destruct (err_add (qbfl a) (SFopp (qbfl b))) as (d & D & R); [apply Ka|apply opp_valid; apply Kb|]. rewrite opp_value in R. exists d. split; auto. }
    destruct X as (d & D & ->).
    cbn [qev qmaj qwt qund]. change ((1 + u) ^ S (max (qwt a) (qwt b))) with ((1 + u) * (1 + u) ^ max (qwt a) (qwt b)).
    unfold Rminus at 2 4. apply sum_step; auto using qev_maj, pow1.
    + eapply W; [apply qmaj_pos| |exact IHa]. lia.
    + replace (- rval (qbfl b) - - qev b) with (- (rval (qbfl b) - qev b)) by ring. rewrite Rabs_Ropp.
      eapply W; [apply qmaj_pos| |exact IHb]. lia.
    + rewrite Rabs_Ropp. apply qev_maj.
  - destruct N as [Na Nb]. pose proof (mul_fin _ _ F) as [Fa Fb]. specialize (IHa Na Fa). specialize (IHb Nb Fb).
    assert (Ka : number (qbfl a)) by (split; auto using qbfl_valid). assert (Kb : number (qbfl b)) by (split; auto using qbfl_valid).
    destruct (mul_rnd _ _ Ka Kb) as [E _]. specialize (E F). cbn [qbfl]. rewrite E. destruct (err_any (rval (qbfl a) * rval (qbfl b))) as (d & e & D & H & _ & ->).
    cbn [qev qmaj qwt qund]. change ((1 + u) ^ S (qwt a + qwt b)) with ((1 + u) * (1 + u) ^ (qwt a + qwt b)). rewrite pow_add.
    apply mul_step; auto using qev_maj.
  - destruct N as (Na & Nb & Nc). pose proof (fma_fin _ _ _ F) as (Fa & Fb & Fc). specialize (IHa Na Fa). specialize (IHb Nb Fb). specialize (IHc Nc Fc).
    assert (Ka : number (qbfl a)) by (split; auto using qbfl_valid). assert (Kb : number (qbfl b)) by (split; auto using qbfl_valid). assert (Kc : number (qbfl c)) by (split; auto using qbfl_valid).
    destruct (fma_rnd _ _ _ Ka Kb Kc) as [E _]. specialize (E F). cbn [qbfl]. rewrite E. destruct (err_any (rval (qbfl a) * rval (qbfl b) + rval (qbfl c))) as (d & e & D & H & _ & ->).
    cbn [qev qmaj qwt qund]. change ((1 + u) ^ S (max (qwt a + qwt b) (qwt c))) with ((1 + u) * (1 + u) ^ max (qwt a + qwt b) (qwt c)).
    apply fma_step; auto using qev_maj, pow1.
    + eapply W; [apply qmaj_pos| |exact IHc]. lia.
    + rewrite <- pow_add. apply pow_mono. lia.
Qed.

(** no overflow below a cap *)
Fixpoint qcap (B : R) (e : qe) : R :=
  match e with
  | QV x => B
  | QOpp a => qcap B a
  | QAdd a b | QSub a b => (1 + u) * (qcap B a + qcap B b)
  | QMul a b => (1 + u) * (qcap B a * qcap B b) + eta
  | QFma a b c => (1 + u) * (qcap B a * qcap B b + qcap B c) + eta
  end.
Fixpoint qcapped (B : R) (e : qe) : Prop :=
  match e with
  | QV x => Rabs (rval x) <= B
  | QOpp a => qcapped B a
  | QAdd a b | QSub a b | QMul a b => qcapped B a /\ qcapped B b /\ qcap B e < big
  | QFma a b c => qcapped B a /\ qcapped B b /\ qcapped B c /\ qcap B e < big
  end.
Theorem qpoly_fin : forall B e, qallnum e -> qcapped B e -> finite (qbfl e) = true /\ Rabs (rval (qbfl e)) <= qcap B e.
Proof.
  intros B. assert (D1 : forall d, Rabs d <= u -> Rabs (1 + d) <= 1 + u).
  { intros. eapply Rle_trans; [apply Rabs_triang|]. rewrite Rabs_R1. lra. }
  induction e as [x|a IHa|a IHa b IHb|a IHa b IHb|a IHa b IHb|a IHa b IHb c IHc]; intros N C.
  - split; [apply N|apply C].
  - simpl in *. rewrite opp_finite, opp_value, Rabs_Ropp. auto.
  - destruct N as [Na Nb]. destruct C as (Ca & Cb & C). destruct (IHa Na Ca) as [Fa Ba]. destruct (IHb Nb Cb) as [Fb Bb].
    assert (Ka : number (qbfl a)) by (split; auto using qbfl_valid). assert (Kb : number (qbfl b)) by (split; auto using qbfl_valid).
    destruct (add_rnd _ _ Ka Kb) as [E G]. cbn [qbfl qcap] in *. destruct (err_add _ _ (proj1 Ka) (proj1 Kb)) as (d & D & R).
    assert (X : Rabs (rnd (rval (qbfl a) + rval (qbfl b))) <= (1 + u) * (qcap B a + qcap B b)).
    { rewrite R, Rabs_mult, Rmult_comm. apply Rmult_le_compat; auto using Rabs_pos. eapply Rle_trans; [apply Rabs_triang|]. lra. }
    assert (F : finite (SFadd prec emax (qbfl a) (qbfl b)) = true) by (apply G; lra). split; auto. rewrite E; auto.
  - destruct N as [Na Nb]. destruct C as (Ca & Cb & C). destruct (IHa Na Ca) as [Fa Ba]. destruct (IHb Nb Cb) as [Fb Bb].
    assert (Ka : number (qbfl a)) by (split; auto using qbfl_valid). assert (Kb : number (qbfl b)) by (split; auto using qbfl_valid).
    destruct (sub_rnd _ _ Ka Kb) as [E G]. cbn [qbfl qcap] in *.
    destruct (err_add (qbfl a) (SFopp (qbfl b))) as (d & D & R); [apply Ka|apply opp_valid; apply Kb|]. rewrite opp_value in R.
    assert (X : Rabs (rnd (rval (qbfl a) - rval (qbfl b))) <= (1 + u) * (qcap B a + qcap B b)).
    { unfold Rminus. rewrite R, Rabs_mult, Rmult_comm. apply Rmult_le_compat; auto using Rabs_pos.
      eapply Rle_trans; [apply Rabs_triang|]. rewrite Rabs_Ropp. lra. }
    assert (F : finite (SFsub prec emax (qbfl a) (qbfl b)) = true) by (apply G; lra). split; auto. rewrite E; auto.
  - destruct N as [Na Nb]. destruct C as (Ca & Cb & C). destruct (IHa Na Ca) as [Fa Ba]. destruct (IHb Nb Cb) as [Fb Bb].
    assert (Ka : number (qbfl a)) by (split; auto using qbfl_valid). assert (Kb : number (qbfl b)) by (split; auto using qbfl_valid).
    destruct (mul_rnd _ _ Ka Kb) as [E G]. cbn [qbfl qcap] in *. destruct (err_any (rval (qbfl a) * rval (qbfl b))) as (d & e & D & H & _ & R).
    assert (X : Rabs (rnd (rval (qbfl a) * rval (qbfl b))) <= (1 + u) * (qcap B a * qcap B b) + eta).
    { rewrite R. eapply Rle_trans; [apply Rabs_triang|]. apply Rplus_le_compat; auto. rewrite Rabs_mult, (Rmult_comm (1 + u)). apply Rmult_le_compat; auto using Rabs_pos.
      rewrite Rabs_mult. apply Rmult_le_compat; auto using Rabs_pos. }
    assert (F : finite (SFmul prec emax (qbfl a) (qbfl b)) = true) by (apply G; lra). split; auto. rewrite E; auto.
  - destruct N as (Na & Nb & Nc). destruct C as (Ca & Cb & Cc & C). destruct (IHa Na Ca) as [Fa Ba]. destruct (IHb Nb Cb) as [Fb Bb]. destruct (IHc Nc Cc) as [Fc Bc].
    assert (Ka : number (qbfl a)) by (split; auto using qbfl_valid). assert (Kb : number (qbfl b)) by (split; auto using qbfl_valid). assert (Kc : number (qbfl c)) by (split; auto using qbfl_valid).
    destruct (fma_rnd _ _ _ Ka Kb Kc) as [E G]. cbn [qbfl qcap] in *. destruct (err_any (rval (qbfl a) * rval (qbfl b) + rval (qbfl c))) as (d & e & D & H & _ & R).
    assert (X : Rabs (rnd (rval (qbfl a) * rval (qbfl b) + rval (qbfl c))) <= (1 + u) * (qcap B a * qcap B b + qcap B c) + eta).
    { rewrite R. eapply Rle_trans; [apply Rabs_triang|]. apply Rplus_le_compat; auto. rewrite Rabs_mult, (Rmult_comm (1 + u)). apply Rmult_le_compat; auto using Rabs_pos.
      eapply Rle_trans; [apply Rabs_triang|]. apply Rplus_le_compat; auto. rewrite Rabs_mult. apply Rmult_le_compat; auto using Rabs_pos. }
    assert (F : finite (b_fma (qbfl a) (qbfl b) (qbfl c)) = true) by (apply G; lra). split; auto. rewrite E; auto.
Qed.
