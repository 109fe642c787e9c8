(** * Relative accuracy of projections in single precision (C78) *)

From Coq Require Import String List ZArith Bool Reals Lra Lia Psatz Floats.SpecFloat.
From Flocq Require Import Core Mult_error BinarySingleNaN.
From Verif Require Import MiniC Sym SymSound Contract SymCall SymTac Tac Cglm B32 RScalar.
From Verif.Spec Require Import Float32 Linear Relative.
From Verif.Proofs Require Import Flo Ieee IeeeId ExactSound ApproxSound Layout RTac RExact Ranges Tests32.
Import ListNotations.
(* props: From Coq Require Import Reals Floats.SpecFloat. *)
(* props: From Verif Require Import B32. *)
(* props: From Verif.Spec Require Import Float32 Linear Relative. *)
Local Open Scope R_scope.

Definition q (n : nat) : R := (1 - u) ^ n.
Lemma q_pos : forall n, 0 < q n. Proof. intros. apply pow_lt. unfold u. lra. Qed.
Lemma q_le1 : forall n, q n <= 1. Proof. induction n; unfold q in *; simpl; [lra|]. pose proof (q_pos n). unfold q, u in *. nra. Qed.
Lemma q_add : forall n m, q (n + m) = q n * q m. Proof. intros. apply pow_add. Qed.
Definition about (n : nat) (x r : R) : Prop := exists t, x = r * t /\ q n <= t <= / q n.
Definition rng (k : Z) (v : R) : Prop := v = 0 \/ powerRZ 2 (- k) <= Rabs v <= powerRZ 2 k.
Definition tr (n : nat) (k : Z) (x : b32) (r : R) : Prop := number x /\ rng k (rval x) /\ about n (rval x) r.

Lemma about_mul : forall n m x y r s, about n x r -> about m y s -> about (n + m) (x * y) (r * s).
Proof.
  intros n m x y r s (t & -> & A1 & A2) (t' & -> & B1 & B2). exists (t * t'). split; [ring|]. rewrite q_add.
  pose proof (q_pos n). pose proof (q_pos m). split; [apply Rmult_le_compat; lra|]. rewrite Rinv_mult. apply Rmult_le_compat; lra.
Qed.
Lemma about_inv : forall n x r, about n x r -> about n (/ x) (/ r).
Proof.
  intros n x r (t & -> & A1 & A2). pose proof (q_pos n) as Q. assert (0 < t) by lra. exists (/ t). split.
  - destruct (Req_dec r 0) as [->|H0]; [rewrite Rmult_0_l, Rinv_0; ring|]. apply Rinv_mult.
  - split; [|apply Rinv_le_contravar; lra]. rewrite <- (Rinv_inv (q n)). apply Rinv_le_contravar; auto.
Qed.
Lemma about_opp : forall n x r, about n x r -> about n (- x) (- r).
Proof. intros n x r (t & -> & A). exists t. split; auto. ring. Qed.
Lemma about_1 : forall d, Rabs d <= u -> forall r, about 1 (r * (1 + d)) r.
Proof.
  intros d D r. exists (1 + d). split; auto. unfold q. rewrite pow_1. apply Rabs_le_inv in D. split; [lra|].
  apply Rmult_le_reg_l with (1 - u); [unfold u; lra|]. rewrite Rinv_r by (unfold u; lra). unfold u in *. nra.
Qed.
Lemma about_trans : forall n m x r s, about n x r -> about m r s -> about (m + n) x s.
Proof.
  intros n m x r s (t & -> & A1 & A2) (t' & -> & B1 & B2). exists (t' * t). split; [ring|]. rewrite q_add.
  pose proof (q_pos n). pose proof (q_pos m). split; [apply Rmult_le_compat; lra|]. rewrite Rinv_mult. apply Rmult_le_compat; lra.
Qed.
Lemma rng_rnd : forall k r, (0 <= k <= 120)%Z -> rng k r -> rng k (rnd r).
Proof.
  intros k r K [->|[H1 H2]]; [left; apply fix_0|]. right. rewrite rnd_abs. apply rnd_le in H1, H2.
  rewrite (proj1 (proj1 (fix_p2 (- k) ltac:(lia)))) in H1. rewrite (proj1 (proj1 (fix_p2 k ltac:(lia)))) in H2. auto.
Qed.
Lemma p2le : forall a b, (a <= b)%Z -> powerRZ 2 a <= powerRZ 2 b.
Proof. intros a b H. change (powerRZ (IZR radix2) a <= powerRZ (IZR radix2) b). rewrite <- !bpow_powerRZ. apply bpow_le. exact H. Qed.
Lemma rng_rel : forall k r, (0 <= k <= 120)%Z -> rng k r -> exists d, Rabs d <= u /\ rnd r = r * (1 + d).
Proof.
  intros k r K [->|[H1 H2]].
  - exists 0. split; [rewrite Rabs_R0; unfold u; lra|]. rewrite (proj1 fix_0). ring.
  - apply err_rel. eapply Rle_trans; [|exact H1]. apply Rle_trans with (powerRZ 2 (-126)); [right; unfold small; rewrite bpow_powerRZ; reflexivity|]. apply p2le. lia.
Qed.
Lemma rng_fin : forall k r, (0 <= k <= 120)%Z -> rng k r -> Rabs (rnd r) < big.
Proof.
  intros k r K H. apply (rng_rnd k r K) in H. apply Rle_lt_trans with (powerRZ 2 k).
  - destruct H as [->|[_ H]]; auto. rewrite Rabs_R0. apply powerRZ_le. lra.
  - pose proof (proj2 (proj1 (fix_p2 k ltac:(lia)))) as B. rewrite Rabs_pos_eq in B; auto. apply powerRZ_le. lra.
Qed.
(** a rounded operation *)
Lemma tr_rnd : forall n k x r s, inb32 x = true -> (finite x = true -> rval x = rnd r) -> (Rabs (rnd r) < big -> finite x = true) -> (0 <= k <= 120)%Z -> rng k r -> about n r s -> tr (n + 1) k x s.
Proof.
  intros n k x r s V F1 F2 K G A. pose proof (F2 (rng_fin k r K G)) as F. specialize (F1 F). split; [split; auto|]. rewrite F1. split; [apply rng_rnd; auto|].
  destruct (rng_rel k r K G) as (d & D & ->). apply (about_trans 1 n _ r); auto. apply about_1. auto.
Qed.
Lemma rng_mul : forall j k x y, rng j x -> rng k y -> rng (j + k) (x * y).
Proof.
  intros j k x y [->|[H1 H2]]; [intros; left; ring|]. intros [->|[H3 H4]]; [left; ring|]. right. rewrite Rabs_mult. replace (- (j + k))%Z with (- j + - k)%Z by lia. rewrite !powerRZ_add by lra.
  split; apply Rmult_le_compat; auto using Rabs_pos; apply powerRZ_le; lra.
Qed.
Lemma rng_inv : forall k x, rng k x -> rng k (/ x).
Proof.
  intros k x [->|[H1 H2]]; [left; apply Rinv_0|]. assert (P : forall a, 0 < powerRZ 2 a) by (intros; apply powerRZ_lt; lra). pose proof (P (- k)%Z). pose proof (P k).
  right. rewrite Rabs_inv. rewrite powerRZ_neg' in *.
  split; [apply Rinv_le_contravar; lra|]. rewrite <- (Rinv_inv (powerRZ 2 k)). apply Rinv_le_contravar; lra.
Qed.
Lemma tr_mul : forall n m j k x y r s, (0 <= j + k <= 120)%Z -> tr n j x r -> tr m k y s -> tr (n + m + 1) (j + k) (fmul x y) (r * s).
Proof.
  intros n m j k x y r s K (Nx & Gx & Ax) (Ny & Gy & Ay). destruct (mul_rnd x y Nx Ny) as [F1 F2].
  apply (tr_rnd (n + m) (j + k) _ _ _ (mul_valid x y (proj1 Nx) (proj1 Ny)) F1 F2 K); [apply rng_mul; auto|apply about_mul; auto].
Qed.
Lemma about_nz : forall n x r, about n x r -> r <> 0 -> x <> 0.
Proof. intros n x r (t & -> & A1 & A2) H E. pose proof (q_pos n). apply Rmult_integral in E. destruct E; auto. lra. Qed.
Lemma tr_div : forall n m j k x y r s, (0 <= j + k <= 120)%Z -> s <> 0 -> tr n j x r -> tr m k y s -> tr (n + m + 1) (j + k) (fdiv x y) (r / s).
Proof.
  intros n m j k x y r s K NZ (Nx & Gx & Ax) (Ny & Gy & Ay). destruct (div_rnd x y Nx Ny (about_nz _ _ _ Ay NZ)) as [F1 F2].
  apply (tr_rnd (n + m) (j + k) _ _ _ (div_valid x y (proj1 Nx) (proj1 Ny)) F1 F2 K); [apply rng_mul; auto; apply rng_inv; auto|apply about_mul; auto; apply about_inv; auto].
Qed.
Lemma tr_opp : forall n k x r, tr n k x r -> tr n k (SFopp x) (- r).
Proof.
  intros n k x r (N & G & A). split; [apply opp_number; auto|]. rewrite opp_value. split; [|apply about_opp; auto].
  destruct G as [E|G]; [left; lra|right; rewrite Rabs_Ropp; auto].
Qed.
Lemma about_refl : forall x, about 0 x x.
Proof. intros x. exists 1. split; [ring|]. unfold q. simpl. lra. Qed.
(** sums of floats of magnitude at least 2^-30 are multiples of 2^-53 *)
Lemma grid30 : forall x, ordinary x -> exists z, rval x = IZR z * bpow radix2 (-53).
Proof.
  intros x [[V F] [E|[H1 H2]]]; [exists 0%Z; rewrite E; ring|]. pose proof (format_value x V) as G. unfold generic_format, F2R in G. cbn [Fnum Fexp] in G.
  set (m := Ztrunc (scaled_mantissa radix2 fx (rval x))) in G. set (e := cexp radix2 fx (rval x)) in G.
  assert (E : (-53 <= e)%Z).
  { unfold e, cexp. change fx with (FLT_exp (-149) 24). unfold FLT_exp. assert (-29 <= mag radix2 (rval x))%Z; [|lia]. apply mag_ge_bpow. change (-29 - 1)%Z with (-30)%Z. rewrite bpow_powerRZ. exact H1. }
  exists (m * 2 ^ (e + 53))%Z. rewrite G, mult_IZR. change 2%Z with (radix_val radix2). rewrite IZR_Zpower by lia. rewrite Rmult_assoc, <- bpow_plus. do 2 f_equal. lia.
Qed.
Lemma rng_sum : forall x y, ordinary x -> ordinary y -> rng 53 (rval x + rval y) /\ rng 53 (rval x - rval y).
Proof.
  intros x y Ox Oy. destruct (grid30 x Ox) as (a & Ea). destruct (grid30 y Oy) as (b & Eb).
  assert (B : forall z, ordinary z -> Rabs (rval z) <= powerRZ 2 30) by (intros z [_ [->|[_ H]]]; auto; rewrite Rabs_R0; apply powerRZ_le; lra).
  assert (P : powerRZ 2 30 + powerRZ 2 30 <= powerRZ 2 53) by (simpl; lra).
  assert (K : forall z r, r = IZR z * bpow radix2 (-53) -> Rabs r <= powerRZ 2 53 -> rng 53 r).
  { intros z r E H. destruct (Z.eq_dec z 0) as [->|NZ]; [left; rewrite E; ring|]. right. split; auto. rewrite E, Rabs_mult, (Rabs_pos_eq (bpow _ _)) by apply bpow_ge_0.
    change (- (53))%Z with (-53)%Z. change (powerRZ 2 (-53)) with (powerRZ (IZR radix2) (-53)). rewrite <- bpow_powerRZ. rewrite <- (Rmult_1_l (bpow radix2 (-53))) at 1. apply Rmult_le_compat_r; [apply bpow_ge_0|].
    rewrite <- abs_IZR. apply IZR_le. lia. }
  pose proof (B x Ox). pose proof (B y Oy). split.
  - apply (K (a + b)%Z); [rewrite Ea, Eb, plus_IZR; ring|]. eapply Rle_trans; [apply Rabs_triang|]. lra.
  - apply (K (a - b)%Z); [rewrite Ea, Eb, minus_IZR; ring|]. unfold Rminus. eapply Rle_trans; [apply Rabs_triang|]. rewrite Rabs_Ropp. lra.
Qed.
Lemma tr_in : forall x, ordinary x -> tr 0 30 x (rval x).
Proof. intros x [N G]. split; auto. split; [exact G|apply about_refl]. Qed.
Lemma tr_add : forall x y, ordinary x -> ordinary y -> tr 1 53 (fadd x y) (rval x + rval y).
Proof.
  intros x y Ox Oy. destruct (add_rnd x y (proj1 Ox) (proj1 Oy)) as [F1 F2].
  apply (tr_rnd 0 53 _ _ _ (add_valid x y (proj1 (proj1 Ox)) (proj1 (proj1 Oy))) F1 F2); [lia|apply rng_sum; auto|apply about_refl].
Qed.
Lemma tr_sub : forall x y, ordinary x -> ordinary y -> tr 1 53 (fsub x y) (rval x - rval y).
Proof.
  intros x y Ox Oy. destruct (sub_rnd x y (proj1 Ox) (proj1 Oy)) as [F1 F2].
  apply (tr_rnd 0 53 _ _ _ (sub_valid x y (proj1 (proj1 Ox)) (proj1 (proj1 Oy))) F1 F2); [lia|apply rng_sum; auto|apply about_refl].
Qed.
Lemma tr_c : tr 0 0 (b_lit 0 1) 0 /\ tr 0 0 (b_lit 1 1) 1 /\ tr 0 0 (b_lit (-1) 1) (-1) /\ tr 0 1 (b_lit 2 1) 2.
Proof.
  assert (V : rval (b_lit 2 1) = 2) by (match goal with |- rval ?x = _ => let v := eval vm_compute in x in change x with v end; cbn [rval]; simpl (powerRZ _ _); lra).
  destruct v_ints as (V0 & V1 & Vm & _).
  assert (A : forall k x r, number x -> rval x = r -> rng k r -> tr 0 k x r) by (intros k x r N <- G; split; auto; split; auto; apply about_refl).
  split; [|split; [|split]]; (apply A; [split; reflexivity|auto|]); [left; reflexivity| | |]; right; simpl; rewrite ?Rabs_R1, ?Rabs_Ropp; try (rewrite Rabs_pos_eq; lra); try (rewrite Rabs_left; lra); lra.
Qed.
Lemma tr_end : forall n k x r, tr n k x r -> (n <= 5)%nat -> number x /\ Rabs (rval x - r) <= 6 * u * Rabs r.
Proof.
  intros n k x r (N & _ & t & E & A1 & A2) H. split; auto. rewrite E. replace (r * t - r) with (r * (t - 1)) by ring. rewrite Rabs_mult, Rmult_comm. apply Rmult_le_compat_r; [apply Rabs_pos|].
  assert (Q : q 5 <= q n) by (do 6 (destruct n as [|n]; [unfold q, u; simpl; lra|]); lia). pose proof (q_pos 5). pose proof (q_pos n).
  assert (Q2 : / q n <= / q 5) by (apply Rinv_le_contravar; lra). apply Rabs_le. assert (/ q 5 <= 1 + 6 * u). { apply Rmult_le_reg_l with (q 5); auto. rewrite Rinv_r by lra. unfold q, u. simpl. lra. }
  assert (1 - 6 * u <= q 5) by (unfold q, u; simpl; lra). lra.
Qed.

Ltac trc := lazymatch goal with
  | |- tr _ _ (fmul _ _) _ => eapply tr_mul; [|trc|trc]; lia
  | |- tr _ _ (fdiv _ _) _ => eapply tr_div; [| |trc|trc]; [lia|let E := fresh in intro E; match goal with H : ?x <> ?y |- _ => apply H; lra end]
  | |- tr _ _ (SFopp _) _ => apply tr_opp; trc
  | |- tr _ _ (fadd _ _) _ => apply tr_add; auto
  | |- tr _ _ (fsub _ _) _ => apply tr_sub; auto
  | |- tr _ _ (b_lit _ _) _ => apply tr_c
  | |- tr _ _ ?x (rval ?x) => apply tr_in; auto
  end.
Ltac vol := eexists [_;_;_;_;_;_;_;_;_;_;_;_;_;_;_;_], [_;_;_;_;_;_;_;_;_;_;_;_;_;_;_;_]; split; [brun|]; split;
  [symr; rprep; try (apply negb_true_iff; apply Reqb_false; let E := fresh in intro E; match goal with H : _ <> _ |- _ => apply H; lra end)|];
  repeat (apply Forall2_cons; [eapply tr_end; [trc|lia]|]); apply Forall2_nil.
Lemma C78_volume_ok : forall l a b c d n f, ordinary a -> ordinary b -> ordinary c -> ordinary d -> ordinary n -> ordinary f ->
  rval a <> rval b -> rval c <> rval d -> rval n <> rval f ->
  Forall (fun g => exists F M, computes (B32 l) g (map (fun x => Val (VF x)) [a; b; c; d; n; f] ++ [Out 16]) VVoid [fl F] /\
    computes RS g (map (fun x => Val (VF (rval x))) [a; b; c; d; n; f] ++ [Out 16]) VVoid [fl M] /\ accurate_to (6 * u) F M) volume_projections.
Proof.
  intros l a b c d n f A B C D N F H1 H2 H3. unfold volume_projections. cbn [map List.app].
  do 8 (apply Forall_cons; [vol|]). apply Forall_nil.
Qed.

(** ** Norms and distances *)
Lemma q_mono : forall n m, (n <= m)%nat -> q m <= q n.
Proof. intros n m H. replace m with (n + (m - n))%nat by lia. rewrite q_add. pose proof (q_pos n). pose proof (q_le1 (m - n)). pose proof (q_pos (m - n)). nra. Qed.
Lemma about_le : forall n m x r, (n <= m)%nat -> about n x r -> about m x r.
Proof.
  intros n m x r H (t & E & A1 & A2). exists t. split; auto. pose proof (q_mono n m H). pose proof (q_pos m). split; [lra|]. eapply Rle_trans; [exact A2|]. apply Rinv_le_contravar; auto.
Qed.
Lemma about_sum : forall n x y r s, 0 <= r -> 0 <= s -> about n x r -> about n y s -> about n (x + y) (r + s).
Proof.
  intros n x y r s Hr Hs (t & -> & A1 & A2) (t' & -> & B1 & B2). destruct (Req_dec (r + s) 0) as [E|E].
  - assert (r = 0) by lra. assert (s = 0) by lra. subst. exists t. split; [ring|auto].
  - exists ((r * t + s * t') / (r + s)). split; [field; auto|]. assert (0 < r + s) by lra. split.
    + apply Rmult_le_reg_r with (r + s); auto. unfold Rdiv. rewrite Rmult_assoc, Rinv_l, Rmult_1_r by auto. nra.
    + apply Rmult_le_reg_r with (r + s); auto. unfold Rdiv. rewrite Rmult_assoc, Rinv_l, Rmult_1_r by auto. nra.
Qed.
Lemma rng_le : forall j k v, (j <= k)%Z -> rng j v -> rng k v.
Proof. intros j k v H [E|[A B]]; [left; auto|]. right. pose proof (p2le j k H). pose proof (p2le (- k) (- j) ltac:(lia)). lra. Qed.
Lemma about_nonneg : forall n x r, 0 <= r -> about n x r -> 0 <= x.
Proof. intros n x r H (t & -> & A & _). pose proof (q_pos n). apply Rmult_le_pos; lra. Qed.
Lemma tr_sum : forall n m j k x y r s, (0 <= Z.max j k <= 119)%Z -> 0 <= r -> 0 <= s -> tr n j x r -> tr m k y s -> tr (Nat.max n m + 1) (Z.max j k + 1) (fadd x y) (r + s).
Proof.
  intros n m j k x y r s K Hr Hs (Nx & Gx & Ax) (Ny & Gy & Ay). destruct (add_rnd x y Nx Ny) as [F1 F2].
  apply (tr_rnd (Nat.max n m) (Z.max j k + 1) _ _ _ (add_valid x y (proj1 Nx) (proj1 Ny)) F1 F2); [lia| |apply about_sum; auto; [apply (about_le n)|apply (about_le m)]; auto; lia].
  pose proof (about_nonneg _ _ _ Hr Ax) as Px. pose proof (about_nonneg _ _ _ Hs Ay) as Py.
  apply (rng_le j (Z.max j k) _ ltac:(lia)) in Gx. apply (rng_le k (Z.max j k) _ ltac:(lia)) in Gy. set (w := Z.max j k) in *.
  pose proof (p2S w) as P. pose proof (p2le (- (w + 1)) (- w) ltac:(lia)) as P'. pose proof (p2pos w) as P''. pose proof (p2pos (- w)).
  destruct Gx as [E|[X1 X2]], Gy as [E'|[Y1 Y2]]; [left; lra|right|right|right]; rewrite (Rabs_pos_eq (rval x + rval y)) by lra; try rewrite (Rabs_pos_eq (rval x)) in * by lra; try rewrite (Rabs_pos_eq (rval y)) in * by lra; lra.
Qed.
Lemma tr_sqrt : forall n k x r, (0 <= k <= 120)%Z -> 0 <= r -> tr n k x r -> tr (n + 1) k (fsqrt x) (sqrt r).
Proof.
  intros n k x r K Hr (N & G & A). pose proof (about_nonneg _ _ _ Hr A) as P. destruct (sqrt_rnd x N P) as [F E].
  assert (S : forall v, 0 <= v <= 1 -> v <= sqrt v <= 1) by (intros v V; split; [rewrite <- (sqrt_square v) at 1 by lra; apply sqrt_le_1_alt; nra|rewrite <- sqrt_1; apply sqrt_le_1_alt; lra]).
  assert (B : forall v, 1 <= v -> 1 <= sqrt v <= v) by (intros v V; split; [rewrite <- sqrt_1; apply sqrt_le_1_alt; lra|rewrite <- (sqrt_square v) at 2 by lra; apply sqrt_le_1_alt; nra]).
  apply (tr_rnd n k _ _ _ (sqrt_valid x (proj1 N)) (fun _ => E) (fun _ => F) K).
  - destruct G as [G|[G1 G2]]; [left; rewrite G; apply sqrt_0|]. right. rewrite Rabs_pos_eq in G1, G2 by auto. rewrite Rabs_pos_eq by apply sqrt_pos.
    pose proof (p2le (- k) 0 ltac:(lia)) as L1. pose proof (p2le 0 k ltac:(lia)) as L2. simpl (powerRZ 2 0) in L1, L2.
    destruct (Rle_lt_dec (rval x) 1) as [H|H]; [pose proof (S _ (conj P H))|pose proof (B _ (Rlt_le _ _ H))]; lra.
  - destruct A as (t & Et & A1 & A2). pose proof (q_pos n). pose proof (q_le1 n). exists (sqrt t). split; [rewrite Et; apply sqrt_mult; lra|].
    assert (1 <= / q n) by (rewrite <- Rinv_1; apply Rinv_le_contravar; lra).
    destruct (Rle_lt_dec t 1) as [K1|K1]; [pose proof (S t ltac:(lra))|pose proof (B t ltac:(lra))]; lra.
Qed.
Lemma tr_end8 : forall n k x r, tr n k x r -> (n <= 7)%nat -> number x /\ Rabs (rval x - r) <= 8 * u * Rabs r.
Proof.
  intros n k x r (N & _ & t & E & A1 & A2) H. split; auto. rewrite E. replace (r * t - r) with (r * (t - 1)) by ring. rewrite Rabs_mult, Rmult_comm. apply Rmult_le_compat_r; [apply Rabs_pos|].
  pose proof (q_mono n 7 H) as Q. pose proof (q_pos 7). pose proof (q_pos n).
  assert (Q2 : / q n <= / q 7) by (apply Rinv_le_contravar; lra). apply Rabs_le. assert (/ q 7 <= 1 + 8 * u). { apply Rmult_le_reg_l with (q 7); auto. rewrite Rinv_r by lra. unfold q, u. simpl. lra. }
  assert (1 - 8 * u <= q 7) by (unfold q, u; simpl; lra). lra.
Qed.
Ltac sq0 := first [apply Rplus_le_le_0_compat; sq0 | match goal with |- 0 <= ?a * ?a => exact (Rle_0_sqr a) end].
Ltac trn := lazymatch goal with
  | |- tr _ _ (fsqrt _) _ => eapply tr_sqrt; [| |trn]; [lia|sq0]
  | |- tr _ _ (fadd _ _) _ => eapply tr_sum; [| | |trn|trn]; [lia|sq0|sq0]
  | |- tr _ _ (fmul _ _) _ => eapply tr_mul; [|trn|trn]; lia
  | |- tr _ _ (fsub _ _) _ => apply tr_sub; auto
  | |- tr _ _ _ _ => apply tr_in; auto
  end.
Lemma tr_nonneg8 : forall n k x r s, tr n k x r -> (n <= 7)%nat -> r = s -> 0 <= s -> number x /\ Rabs (rval x - s) <= 8 * u * s.
Proof. intros n k x r s T H -> P. rewrite <- (Rabs_pos_eq s P) at 2. apply (tr_end8 n k); auto. Qed.
Ltac nrm := eexists; split; [brun|]; eapply tr_nonneg8; [trn|lia|cbv [norm norm2 rdot vsub total map combine fold_left fst snd]; first [ring|f_equal; ring]|first [apply sqrt_pos|cbv [norm2 rdot vsub total map combine fold_left fst snd]; sq0]].
Lemma C78_norms_ok : forall l n (D : (n = 2 \/ n = 3 \/ n = 4)%nat) v w, length v = n -> length w = n -> Forall ordinary v -> Forall ordinary w ->
  let pick (f g h : fundef) := if Nat.eqb n 2 then f else if Nat.eqb n 3 then g else h in
  let d2 := norm2 (vsub (map rval v) (map rval w)) in
  (exists x, computes (B32 l) (pick glm_vec2_norm2 glm_vec3_norm2 glm_vec4_norm2) [In (fl v)] (VF x) [] /\ number x /\ Rabs (rval x - norm2 (map rval v)) <= 8 * u * norm2 (map rval v)) /\
  (exists x, computes (B32 l) (pick glm_vec2_norm glm_vec3_norm glm_vec4_norm) [In (fl v)] (VF x) [] /\ number x /\ Rabs (rval x - norm (map rval v)) <= 8 * u * norm (map rval v)) /\
  (exists x, computes (B32 l) (pick glm_vec2_distance2 glm_vec3_distance2 glm_vec4_distance2) [In (fl v); In (fl w)] (VF x) [] /\ number x /\ Rabs (rval x - d2) <= 8 * u * d2) /\
  (exists x, computes (B32 l) (pick glm_vec2_distance glm_vec3_distance glm_vec4_distance) [In (fl v); In (fl w)] (VF x) [] /\ number x /\ Rabs (rval x - sqrt d2) <= 8 * u * sqrt d2).
Proof.
  intros l n D v w Lv Lw Ov Ow. cbv zeta. destruct D as [ -> | [ -> | -> ] ]; unlists; cbn [Nat.eqb];
    repeat match goal with H : Forall _ (_ :: _) |- _ => inversion_clear H | H : Forall _ [] |- _ => clear H end.
  all: split; [|split; [|split]]; nrm.
Qed.
Lemma p30 : powerRZ 2 (-30) <= 1 /\ 5 <= powerRZ 2 30.
Proof. split; [pose proof (p2le (-30) 0 ltac:(lia)); simpl (powerRZ 2 0) in *; lra|pose proof (p2le 3 30 ltac:(lia)); simpl (powerRZ 2 3) in *; lra]. Qed.
Lemma ord_ints : forall n, List.In n [0; 1; -1; 5]%Z -> ordinary (b_lit n 1).
Proof.
  destruct v_ints as (V0 & V1 & Vm & V5). pose proof p30 as (A & B). simpl.
  intros n [<-|[<-|[<-|[<-|[]]]]]; (split; [split; reflexivity|]); rewrite ?V0, ?V1, ?Vm, ?V5; [left; reflexivity|right..]; [rewrite Rabs_pos_eq by lra|rewrite Rabs_left by lra|rewrite Rabs_pos_eq by lra]; lra.
Qed.
Lemma C78_volume_ex : ordinary (b_lit (-1) 1) /\ ordinary (b_lit 1 1) /\ ordinary (b_lit 5 1) /\ rval (b_lit (-1) 1) <> rval (b_lit 1 1) /\ rval (b_lit 1 1) <> rval (b_lit 5 1) /\
  accurate_to (6 * u) [b_lit 5 1] [rval (b_lit 5 1)] /\ ~ accurate_to (6 * u) [b_lit 5 1] [rval (b_lit 1 1)].
Proof.
  destruct v_ints as (V0 & V1 & Vm & V5). do 3 (split; [apply ord_ints; simpl; tauto|]). rewrite V1, Vm, V5. do 2 (split; [lra|]).
  assert (N : number (b_lit 5 1)) by (split; reflexivity). split.
  - apply Forall2_cons; [|apply Forall2_nil]. split; [exact N|]. rewrite V5. rewrite !Rabs_pos_eq by lra. unfold u. lra.
  - intro H. inversion_clear H. destruct H0 as [_ H0]. rewrite V5 in H0. rewrite !Rabs_pos_eq in H0 by lra. unfold u in H0. lra.
Qed.
Lemma C78_norms_ex : Forall ordinary (map (fun n => b_lit n 1) [1; 5; -1; 0]%Z) /\ norm2 (map rval (map (fun n => b_lit n 1) [1; 5; -1; 0]%Z)) = 27.
Proof.
  destruct v_ints as (V0 & V1 & Vm & V5). split; [repeat apply Forall_cons; try apply Forall_nil; apply ord_ints; simpl; tauto|].
  cbn [map]. rewrite V0, V1, Vm, V5. cbv [norm2 rdot total map combine fold_left fst snd]. lra.
Qed.

(** ** Perspective projections *)
Lemma cos_15 : forall x, 0 < x <= 3 / 2 -> 33 / 1000 <= cos x <= 1.
Proof.
  intros x H. pose proof PI2_3_2. split; [|apply COS_bound]. apply Rle_trans with (cos (3 / 2)); [|apply cos_decr_1; lra].
  replace (3 / 2) with (2 * (3 / 4)) by lra. rewrite cos_2a_cos.
  assert (1 - (3 / 4) * (3 / 4) / 2 <= cos (3 / 4)).
  { replace (3 / 4) with (2 * (3 / 8)) at 3 by lra. rewrite cos_2a_sin. pose proof (sin_lt_x (3 / 8) ltac:(lra)). pose proof (sin_gt_0 (3 / 8) ltac:(lra) ltac:(lra)). nra. }
  nra.
Qed.
Lemma tan_15 : forall x, 0 < x <= 3 / 2 -> 33 / 1000 * x <= tan x <= 31.
Proof.
  intros x H. pose proof (cos_15 x H) as [C1 C2]. unfold tan, Rdiv. assert (0 < cos x) by lra.
  assert (I : 1 <= / cos x <= 1000 / 33). { split; [rewrite <- Rinv_1; apply Rinv_le_contravar; lra|]. replace (1000 / 33) with (/ (33 / 1000)) by lra. apply Rinv_le_contravar; lra. }
  destruct (MVT_cor2 sin cos 0 x ltac:(lra)) as (c & E & Hc); [intros; apply derivable_pt_lim_sin|]. rewrite sin_0 in E. pose proof (cos_15 c ltac:(lra)).
  pose proof (SIN_bound x). assert (33 / 1000 * x <= sin x) by nra. assert (0 < sin x) by nra. split; nra.
Qed.
Lemma half_exact : forall x, number x -> powerRZ 2 (-30) <= rval x <= 3 -> number (fmul x (b_lit 1 2)) /\ rval (fmul x (b_lit 1 2)) = rval x * (1 / 2).
Proof.
  intros x N H. assert (V : rval (b_lit 1 2) = 1 / 2) by (match goal with |- rval ?x = _ => let v := eval vm_compute in x in change x with v end; cbn [rval]; simpl (powerRZ _ _); lra).
  assert (Nh : number (b_lit 1 2)) by (split; reflexivity). destruct (mul_rnd x (b_lit 1 2) N Nh) as [F1 F2]. rewrite V in F1, F2.
  pose proof (p2pos (-30)) as P.
  assert (E : rnd (rval x * (1 / 2)) = rval x * (1 / 2)).
  { replace (1 / 2) with (bpow radix2 (-1)) by (simpl; lra). apply round_generic; auto with typeclass_instances.
    apply (mult_bpow_exact_FLT radix2 (-149) 24 (rval x) (-1)); [apply (format_value x); apply N|].
    assert (-29 <= mag radix2 (rval x))%Z; [|lia]. apply mag_ge_bpow. rewrite Rabs_pos_eq by lra. rewrite bpow_powerRZ. simpl (IZR radix2). change (-29 - 1)%Z with (-30)%Z. lra. }
  rewrite E in F1, F2. assert (F : finite (fmul x (b_lit 1 2)) = true). { apply F2. rewrite Rabs_pos_eq by lra. unfold big. simpl. lra. }
  split; [split; auto; apply mul_valid; [apply N|apply Nh]|]. auto.
Qed.
Lemma tr_tan : forall l x, tan_accurate l -> number x -> powerRZ 2 (-30) <= rval x <= 3 -> tr 3 40 (l1 l OTan (fmul x (b_lit 1 2))) (tan (rval x * (1 / 2))).
Proof.
  intros l x L N H. destruct (half_exact x N H) as [N' E]. pose proof (p2pos (-30)) as P. pose proof (p2S (-31)) as P31. change (-31 + 1)%Z with (-30)%Z in P31. destruct (L _ N') as [N2 A]; [rewrite E; lra|]. rewrite E in A.
  pose proof (tan_15 (rval x * (1 / 2)) ltac:(lra)) as [T1 T2]. set (r := tan (rval x * (1 / 2))) in *. set (v := rval (l1 l OTan (fmul x (b_lit 1 2)))) in *.
  assert (Pr : 0 < r) by lra. apply Rabs_le_inv in A. assert (U : 0 < u < 1 / 1000) by (unfold u; lra). split; [exact N2|]. split.
  - right. fold v. assert (P40 : powerRZ 2 (-40) * 1024 = powerRZ 2 (-30)) by (replace 1024 with (powerRZ 2 10) by (simpl; lra); rewrite <- powerRZ_add by lra; reflexivity).
    pose proof (p2le 6 40 ltac:(lia)) as P6. simpl (powerRZ 2 6) in P6. assert (2 * u * r <= r / 500) by nra. change (- (40))%Z with (-40)%Z. rewrite Rabs_pos_eq by lra. split; lra.
  - exists (v / r). fold v. split; [field; lra|].
    assert (Q : 1 - 2 * u <= v / r <= 1 + 2 * u). { split; (apply Rmult_le_reg_r with r; [lra|]); unfold Rdiv; rewrite Rmult_assoc, Rinv_l by lra; lra. }
    assert (q 3 <= 1 - 2 * u) by (unfold q, u; simpl; lra). assert (1 + 2 * u <= / q 3); [|lra].
    apply Rmult_le_reg_l with (q 3); [apply q_pos|]. rewrite Rinv_r by (pose proof (q_pos 3); lra). unfold q, u. simpl. lra.
Qed.
Ltac trp := lazymatch goal with
  | |- tr _ _ (l1 _ OTan _) _ => apply tr_tan; auto
  | |- tr _ _ (fmul _ _) _ => eapply tr_mul; [|trp|trp]; lia
  | |- tr _ _ (fdiv _ _) _ => eapply tr_div; [| |trp|trp]; [lia|first [assumption|let E := fresh in intro E; match goal with H : ?x <> ?y |- _ => apply H; lra end]]
  | |- tr _ _ (SFopp _) _ => apply tr_opp; trp
  | |- tr _ _ (fadd _ _) _ => apply tr_add; auto
  | |- tr _ _ (fsub _ _) _ => apply tr_sub; auto
  | |- tr _ _ (b_lit _ _) _ => apply tr_c
  | |- tr _ _ ?x (rval ?x) => apply tr_in; auto
  end.
Lemma C78_perspective_ok : forall l fovy aspect n f, tan_accurate l -> number fovy -> powerRZ 2 (-30) <= rval fovy <= 3 ->
  ordinary aspect -> ordinary n -> ordinary f -> rval aspect <> 0 -> rval n <> rval f ->
  Forall (fun g => exists F M, computes (B32 l) g (map (fun x => Val (VF x)) [fovy; aspect; n; f] ++ [Out 16]) VVoid [fl F] /\
    computes RS g (map (fun x => Val (VF (rval x))) [fovy; aspect; n; f] ++ [Out 16]) VVoid [fl M] /\ accurate_to (6 * u) F M) view_projections.
Proof.
  intros l fovy aspect n f L Nf Hf A N F H1 H2. pose proof (p2pos (-30)) as P. pose proof (cos_15 (rval fovy * (1 / 2)) ltac:(lra)). pose proof (tan_15 (rval fovy * (1 / 2)) ltac:(lra)).
  assert (C0 : cos (rval fovy * (1 / 2)) <> 0) by lra. assert (T0 : tan (rval fovy * (1 / 2)) <> 0) by lra. unfold view_projections. cbn [map List.app].
  assert (D : rval n - rval f <> 0) by lra.
  do 4 (apply Forall_cons; [eexists [_;_;_;_;_;_;_;_;_;_;_;_;_;_;_;_], [_;_;_;_;_;_;_;_;_;_;_;_;_;_;_;_]; split; [brun|]; split;
    [symr; rprep; apply negb_true_iff; apply Reqb_false; assumption|]; repeat (apply Forall2_cons; [eapply tr_end; [trp|lia]|]); apply Forall2_nil|]).
  apply Forall_nil.
Qed.
Definition fround (r : R) : b32 := SpecFloat.binary_normalize prec emax (ZnearestE (scaled_mantissa radix2 fx r)) (cexp radix2 fx r) false.
Lemma fround_rnd : forall r, Rabs (rnd r) < big -> number (fround r) /\ rval (fround r) = rnd r.
Proof.
  intros r H. unfold fround. rewrite bn_equiv, value_B2R. unfold number. rewrite valid_B2SF, finite_B.
  pose proof (binary_normalize_correct prec emax Hprec Hmax mode_NE (ZnearestE (scaled_mantissa radix2 fx r)) (cexp radix2 fx r) false) as B.
  change (F2R (Defs.Float radix2 (ZnearestE (scaled_mantissa radix2 fx r)) (cexp radix2 fx r))) with (rnd r) in B.
  cbv zeta in B. change (round radix2 fx (round_mode mode_NE) (rnd r)) with (rnd (rnd r)) in B.
  assert (I : rnd (rnd r) = rnd r). { apply round_generic; [apply valid_rnd_N|]. apply generic_format_round; [apply fexp_correct; reflexivity|apply valid_rnd_N]. }
  rewrite I in B. rewrite Rlt_bool_true in B by exact H. destruct B as (B1 & B2 & _). rewrite B1. repeat split; auto.
Qed.
(** the correctly rounded tangent is accurate enough; a view of 5 / 2 radians *)
Lemma C78_perspective_ex : (exists l, tan_accurate l) /\ number (b_lit 5 2) /\ powerRZ 2 (-30) <= rval (b_lit 5 2) <= 3 /\ ordinary (b_lit 5 1) /\ ordinary (b_lit 1 1) /\ rval (b_lit 1 1) <> rval (b_lit 5 1).
Proof.
  destruct v_ints as (V0 & V1 & Vm & V5). split; [|split; [split; reflexivity|split; [|split; [apply ord_ints; simpl; tauto|split; [apply ord_ints; simpl; tauto|rewrite V1, V5; lra]]]]].
  - exists {| l1 := fun o x => match o with OTan => fround (tan (rval x)) | _ => x end; l2 := fun _ x _ => x |}.
    intros x _ H. cbn [l1]. pose proof (p2pos (-31)) as P. pose proof (tan_15 (rval x) ltac:(lra)) as [T1 T2].
    assert (P40 : powerRZ 2 (-40) * 512 = powerRZ 2 (-31)) by (replace 512 with (powerRZ 2 9) by (simpl; lra); rewrite <- powerRZ_add by lra; reflexivity).
    assert (G : rng 40 (tan (rval x))). { right. change (- (40))%Z with (-40)%Z. pose proof (p2le 6 40 ltac:(lia)) as P6. simpl (powerRZ 2 6) in P6. rewrite Rabs_pos_eq by lra. lra. }
    destruct (fround_rnd (tan (rval x)) (rng_fin 40 _ ltac:(lia) G)) as [N E]. split; [exact N|]. rewrite E.
    destruct (rng_rel 40 _ ltac:(lia) G) as (d & D & ->). replace (tan (rval x) * (1 + d) - tan (rval x)) with (d * tan (rval x)) by ring. rewrite Rabs_mult, (Rabs_pos_eq (tan _)) by lra.
    assert (0 < u) by (unfold u; lra). apply Rmult_le_compat_r; lra.
  - assert (V : rval (b_lit 5 2) = 5 / 2) by (match goal with |- rval ?x = _ => let v := eval vm_compute in x in change x with v end; cbn [rval]; simpl (powerRZ _ _); lra).
    rewrite V. pose proof p30. lra.
Qed.
