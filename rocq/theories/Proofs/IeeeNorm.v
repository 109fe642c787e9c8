(** * Binary32: the rounding error of normalisation (C64) *)

From Coq Require Import String List ZArith Bool Reals Lra Lia Psatz Floats.SpecFloat.
From Flocq Require Import Core.
From Verif Require Import MiniC Sym SymSound Contract SymCall SymTac Tac RScalar Cglm B32.
From Verif.Spec Require Import Linear Quaternion Float32.
From Verif.Proofs Require Import RTac Quat Flo FloErr Ieee IeeeId IeeeErr.
Import ListNotations.
(* props: From Coq Require Import Reals Floats.SpecFloat. *)
(* props: From Verif Require Import B32. *)
(* props: From Verif.Spec Require Import Linear Quaternion Float32. *)
Local Open Scope R_scope.

(** ** normalisation *)
Lemma prod_near : forall a b e f g, 0 <= e -> 0 <= f -> Rabs (a - 1) <= e -> Rabs (b - 1) <= f -> e + f + e * f <= g -> Rabs (a * b - 1) <= g.
Proof.
  intros. replace (a * b - 1) with ((a - 1) * (b - 1) + (a - 1) + (b - 1)) by ring.
  eapply Rle_trans; [apply Rabs_triang|]. eapply Rle_trans; [apply Rplus_le_compat_r; apply Rabs_triang|]. rewrite Rabs_mult.
  assert (Rabs (a - 1) * Rabs (b - 1) <= e * f) by (apply Rmult_le_compat; auto using Rabs_pos). lra.
Qed.
Lemma one_d : forall d, Rabs d <= u -> Rabs (1 + d - 1) <= u.
Proof. intros. replace (1 + d - 1) with d by ring. auto. Qed.
Lemma quot_near : forall w p, Rabs (w - 1) <= 17 / 8 * u -> Rabs (p - 1) <= 13 / 4 * u -> Rabs (w / p - 1) <= 6 * u.
Proof.
  intros w p W P. apply Rabs_le_inv in W. apply Rabs_le_inv in P. assert (0 < u <= 1 / 1000000) by (unfold u; lra).
  assert (Q : 0 < p) by lra. apply Rabs_le. split.
  - apply (Rmult_le_reg_r p); auto. replace ((w / p - 1) * p) with (w - p) by (field; lra). nra.
  - apply (Rmult_le_reg_r p); auto. replace ((w / p - 1) * p) with (w - p) by (field; lra). nra.
Qed.
Lemma sqrt_near : forall S N, 0 < N -> Rabs (S - N * N) <= 33 / 8 * u * (N * N) -> Rabs (sqrt S / N - 1) <= 17 / 8 * u /\ 0 < S.
Proof.
  intros S N P H. apply Rabs_le_inv in H. assert (U : 0 < u <= 1 / 1000000) by (unfold u; lra). assert (NN : 0 < N * N) by nra.
  assert (S0 : 0 < S) by nra. split; auto. set (q := sqrt S / N).
  assert (q0 : 0 < q) by (unfold q; apply Rdiv_lt_0_compat; auto; apply sqrt_lt_R0; auto).
  assert (qq : q * q * (N * N) = S). { unfold q. field_simplify; [|lra]. rewrite <- Rsqr_pow2. apply Rsqr_sqrt. lra. }
  assert (B : 1 - 33 / 8 * u <= q * q <= 1 + 33 / 8 * u) by (split; apply (Rmult_le_reg_r (N * N)); lra).
  assert (q1 : 99 / 100 <= q) by nra. apply Rabs_le. split; nra.
Qed.

Lemma p2 : forall n, powerRZ 2 (Z.of_nat n) = IZR (2 ^ Z.of_nat n).
Proof. intros. rewrite <- pow_powerRZ, pow_IZR. reflexivity. Qed.
Lemma p2n : forall n, powerRZ 2 (- Z.of_nat n) = / IZR (2 ^ Z.of_nat n).
Proof. intros. rewrite powerRZ_neg', p2. reflexivity. Qed.
Lemma small_num : small = / 85070591730234615865843651857942052864.
Proof. unfold small. rewrite bpow_powerRZ. exact (p2n 126). Qed.
Lemma small_le : small <= / 4194304 * / 4194304.
Proof. rewrite small_num. lra. Qed.
Lemma eta_le : eta <= / IZR (2 ^ 150).
Proof. apply Req_le. exact (p2n 150). Qed.

Definition eps32 := b_lit 1 8388608.
Lemma eps_val : number eps32 /\ rval eps32 = / 8388608.
Proof. split; [split; vm_compute; reflexivity|]. change eps32 with (S754_finite false 8388608 (-46)). unfold rval. change (-46)%Z with (Z.opp (Z.of_nat 46)). rewrite p2n. simpl (2 ^ _)%Z. lra. Qed.

Lemma unit_core : forall s N, number s -> / 4194304 <= N <= 2 * B60 -> Rabs (rval s - N * N) <= 33 / 8 * u * (N * N) ->
  let L := SFsqrt prec emax s in let I := SFdiv prec emax b1 L in
  SFltb L eps32 = false /\ SFleb s b0 = false /\
  forall x, number x -> Rabs (rval x) <= N ->
    finite (SFmul prec emax x I) = true /\ Rabs (rval (SFmul prec emax x I) - rval x / N) <= 6 * u * (Rabs (rval x) / N) + eta.
Proof.
  intros s N Ns [N1 N2] H L I. assert (N0 : 0 < N) by lra. destruct (sqrt_near _ _ N0 H) as [Q S0].
  assert (U : 0 < u <= 1 / 1000000) by (unfold u; lra).
  destruct (sqrt_rnd s Ns) as [FL VL]; [lra|]. fold L in FL, VL.
  assert (NL : number L) by (split; auto; apply sqrt_valid; apply Ns).
  set (q := sqrt (rval s) / N) in *. assert (Sq : sqrt (rval s) = N * q) by (unfold q; field; lra).
  assert (q1 : 99 / 100 <= q <= 101 / 100) by (apply Rabs_le_inv in Q; lra).
  destruct (err_rel (sqrt (rval s))) as (d1 & D1 & E1).
  { rewrite Sq, Rabs_pos_eq by nra. pose proof small_le. nra. }
  rewrite E1, Sq in VL. set (p := q * (1 + d1)) in *.
  assert (P : Rabs (p - 1) <= 13 / 4 * u) by (unfold p; apply (prod_near q (1 + d1) (17 / 8 * u) u); try lra; auto using one_d; nra).
  replace (N * q * (1 + d1)) with (N * p) in VL by (unfold p; ring).
  assert (p1 : 99 / 100 <= p <= 101 / 100) by (apply Rabs_le_inv in P; lra).
  assert (L0 : 0 < rval L) by (rewrite VL; nra).
  assert (LB : 99 / 100 * / 4194304 <= rval L <= 3 * B60) by (rewrite VL; unfold B60 in *; split; nra).
  destruct (div_rnd b1 L num_b1 NL) as [VI FI]; [lra|]. rewrite value_b1 in *. fold I in VI, FI.
  assert (IB : / (3 * B60) <= 1 / rval L <= 5000000).
  { unfold B60 in *. split; apply (Rmult_le_reg_r (rval L)); auto; replace (1 / rval L * rval L) with 1 by (field; lra); lra. }
  destruct (err_rel (1 / rval L)) as (d2 & D2 & E2).
  { rewrite Rabs_pos_eq; [|unfold B60 in *; lra]. eapply Rle_trans; [|apply IB]. rewrite small_num. unfold B60. lra. }
  assert (D2' := D2). apply Rabs_le_inv in D2'.
  assert (FI' : finite I = true).
  { apply FI. rewrite E2, Rabs_pos_eq; unfold B60 in *; [rewrite big_num|]; nra. }
  specialize (VI FI'). rewrite E2, VL in VI.
  assert (NI : number I) by (split; auto; apply div_valid; [apply num_b1|apply NL]).
  split; [|split].
  - destruct (SFltb L eps32) eqn:E; auto. exfalso. apply lt_value in E; [|auto|apply eps_val]. rewrite (proj2 eps_val) in E. lra.
  - destruct (SFleb s b0) eqn:E; auto. exfalso. apply le_value in E; [|auto|split; reflexivity]. change (rval b0) with 0 in E. lra.
  - intros x Nx B. destruct (mul_rnd x I Nx NI) as [VR FR].
    destruct (err_any (rval x * rval I)) as (d3 & e3 & D3 & H3 & _ & E3). rewrite E3 in VR, FR.
    set (w := (1 + d2) * (1 + d3)).
    assert (W : Rabs (w - 1) <= 17 / 8 * u) by (unfold w; apply (prod_near (1 + d2) (1 + d3) u u); try lra; auto using one_d; nra).
    pose proof (quot_near w p W P) as K.
    assert (R : rval x * rval I * (1 + d3) + e3 = rval x / N * (w / p) + e3).
    { rewrite VI. unfold w. field. split; lra. }
    rewrite R in VR, FR. set (y := rval x / N) in *.
    assert (Y : Rabs y = Rabs (rval x) / N) by (unfold y, Rdiv; rewrite Rabs_mult, (Rabs_pos_eq (/ N)); auto; left; apply Rinv_0_lt_compat; auto).
    assert (A : Rabs (y * (w / p) + e3 - y) <= 6 * u * (Rabs (rval x) / N) + eta).
    { replace (y * (w / p) + e3 - y) with (y * (w / p - 1) + e3) by ring. eapply Rle_trans; [apply Rabs_triang|]. apply Rplus_le_compat; auto.
      rewrite Rabs_mult, Y, Rmult_comm. apply Rmult_le_compat_r; auto. rewrite <- Y. apply Rabs_pos. }
    assert (y1 : Rabs (rval x) / N <= 1) by (apply (Rmult_le_reg_r N); auto; unfold Rdiv; rewrite Rmult_assoc, Rinv_l; lra).
    assert (F : finite (SFmul prec emax x I) = true).
    { apply FR. rewrite big_num. replace (y * (w / p) + e3) with ((y * (w / p) + e3 - y) + y) by ring. eapply Rle_lt_trans; [apply Rabs_triang|]. rewrite Y. pose proof eta_1.
      pose proof (Rabs_pos y). rewrite Y in *. nra. }
    split; auto. rewrite VR; auto.
Qed.

(** the squares of the results add up to nearly 1 *)
Lemma sq_near : forall y z, Rabs y <= 1 -> Rabs (z - y) <= 6 * u * Rabs y + tiny -> Rabs (z * z - y * y) <= 49 / 4 * u * (y * y) + 4 * tiny.
Proof.
  intros y z Y H. assert (U : 0 < u <= 1 / 1000000) by (unfold u; lra). pose proof eta_pos. pose proof eta_le as E. pose proof tiny_eta as TE.
  assert (T : 0 < tiny <= 1 / 1000000) by (assert (/ IZR (2 ^ 150) <= 1 / 2000000) by (simpl (2 ^ 150)%Z; lra); lra).
  replace (z * z - y * y) with ((z - y) * (z - y + 2 * y)) by ring. rewrite Rabs_mult.
  assert (A : Rabs (z - y + 2 * y) <= (2 + 6 * u) * Rabs y + tiny).
  { eapply Rle_trans; [apply Rabs_triang|]. rewrite Rabs_mult, (Rabs_pos_eq 2) by lra. lra. }
  eapply Rle_trans; [apply Rmult_le_compat; [apply Rabs_pos|apply Rabs_pos|exact H|exact A]|].
  replace (y * y) with (Rabs y * Rabs y) by (rewrite <- Rabs_mult; apply Rabs_pos_eq; nra). pose proof (Rabs_pos y). set (a := Rabs y) in *.
  replace ((6 * u * a + tiny) * ((2 + 6 * u) * a + tiny)) with (6 * u * (2 + 6 * u) * (a * a) + tiny * (6 * u * a + (2 + 6 * u) * a + tiny)) by ring.
  apply Rplus_le_compat; [apply Rmult_le_compat_r; nra|]. rewrite (Rmult_comm 4). apply Rmult_le_compat_l; nra.
Qed.
Lemma tiny_le : 0 < tiny <= u * u.
Proof.
  pose proof eta_pos. pose proof eta_le. pose proof tiny_eta. split; [lra|]. assert (/ IZR (2 ^ 150) <= u * u / 2) by (unfold u; simpl (2 ^ 150)%Z; lra). lra.
Qed.
Lemma norm_near : forall x, 0 <= x -> Rabs (x - 1) <= 16 * u -> Rabs (sqrt x - 1) <= 16 * u.
Proof.
  intros x P H. assert (U : 0 < u <= 1 / 1000000) by (unfold u; lra). pose proof (sqrt_pos x). pose proof (sqrt_sqrt x P) as Q. rewrite <- Q in H.
  apply Rabs_le_inv in H. apply Rabs_le. split; nra.
Qed.
Lemma dot_bound : forall n e N, allnum e -> finite (bfl e) = true -> wt e = n -> (n <= 4)%nat -> und e <= INR n * tiny -> ev e = N * N -> maj e = N * N -> / 4194304 <= N ->
  number (bfl e) /\ Rabs (rval (bfl e) - N * N) <= 33 / 8 * u * (N * N).
Proof.
  intros n e N A F W L U X M P. split; [split; auto using bfl_valid|]. pose proof (poly_err e A F) as E. rewrite W, X, M in E.
  assert (K : INR n * tiny <= / 16 * u * (N * N)).
  { assert (INR n <= 4) by (replace 4 with (INR 4) by (simpl; lra); apply le_INR; auto). pose proof (pos_INR n).
    assert (tiny <= / 64 * u * (/ 4194304 * / 4194304)).
    { pose proof eta_le. pose proof tiny_eta. assert (/ IZR (2 ^ 150) <= / 128 * u * (/ 4194304 * / 4194304)) by (unfold u; simpl (2 ^ 150)%Z; lra). lra. }
    pose proof tiny_le. assert (/ 4194304 * / 4194304 <= N * N) by (apply Rmult_le_compat; lra). assert (0 < u) by (unfold u; lra). nra. }
  assert (G : (1 + u) ^ n - 1 <= 65 / 16 * u).
  { pose proof (pow_mono n 4 L). assert ((1 + u) ^ 4 - 1 <= 65 / 16 * u) by (unfold u; simpl; lra). lra. }
  assert (0 <= N * N) by nra. nra.
Qed.
Lemma norm_sq : forall x, 0 <= x -> sqrt x * sqrt x = x.
Proof. intros. apply sqrt_sqrt. auto. Qed.
Lemma comp_le : forall x N, x * x <= N * N -> 0 <= N -> Rabs x <= N.
Proof. intros. apply Rsqr_le_abs_0 in H. rewrite (Rabs_pos_eq N) in H; auto. Qed.
Lemma scaled_sq : forall x z N, 0 < N -> Rabs x <= N -> Rabs (z - x / N) <= 6 * u * (Rabs x / N) + tiny ->
  Rabs (z * z - x * x / (N * N)) <= 49 / 4 * u * (x * x / (N * N)) + 4 * tiny.
Proof.
  intros x z N P B H. replace (x * x / (N * N)) with (x / N * (x / N)) by (field; lra).
  assert (Y : Rabs (x / N) = Rabs x / N) by (unfold Rdiv; rewrite Rabs_mult, (Rabs_pos_eq (/ N)); auto; left; apply Rinv_0_lt_compat; auto).
  apply sq_near; rewrite Y; auto. apply (Rmult_le_reg_r N); auto. unfold Rdiv. rewrite Rmult_assoc, Rinv_l; lra.
Qed.

Lemma rnorm2 : forall a b, norm [a; b] = sqrt (a * a + b * b).
Proof. intros. unfold norm, norm2. lcbv. reflexivity. Qed.
Lemma rnorm3 : forall a b c, norm [a; b; c] = sqrt (a * a + b * b + c * c).
Proof. intros. unfold norm, norm2. lcbv. reflexivity. Qed.
Lemma rnorm4 : forall a b c d, norm [a; b; c; d] = sqrt (a * a + b * b + c * c + d * d).
Proof. intros. unfold norm, norm2. lcbv. reflexivity. Qed.

Lemma p22 : powerRZ 2 (-22) = / 4194304. Proof. exact (p2n 22). Qed.
Lemma p20 : powerRZ 2 (-20) = 16 * u. Proof. unfold u. rewrite (p2n 20 : powerRZ 2 (-20) = _). simpl (2 ^ _)%Z. lra. Qed.
Ltac capgo := cbn [capped]; repeat split; try (eapply Rle_trans; [eassumption|lra]); cbn [cap]; rewrite big_num; pose proof eta_pos; pose proof eta_1; unfold u, B60; lra.
Ltac sqs C4 nv N0 := repeat match goal with H : number ?x |- _ => match goal with B : Rabs (rval x) <= nv |- _ => 
  let K := fresh "K" in pose proof (scaled_sq _ _ nv N0 B (proj2 (C4 x H B))) as K; clear H; apply Rabs_le_inv in K end end.
Lemma unit2 : forall x0 x1, number x0 -> number x1 -> powerRZ 2 (-22) <= norm (map rval [x0; x1]) <= powerRZ 2 60 ->
  let S := (SFadd prec emax (SFmul prec emax x0 x0) (SFmul prec emax x1 x1)) in let I := SFdiv prec emax b1 (SFsqrt prec emax S) in
  SFltb (SFsqrt prec emax S) eps32 = false /\ SFleb S b0 = false /\
  scaled_near (norm (map rval [x0; x1])) [x0; x1] [SFmul prec emax x0 I; SFmul prec emax x1 I] /\
  Rabs (norm (map rval [SFmul prec emax x0 I; SFmul prec emax x1 I]) - 1) <= powerRZ 2 (-20).
Proof.
  cbv zeta. intros. match goal with H : powerRZ 2 (-22) <= ?t <= _ |- _ => rewrite p22, b60 in H; assert (NN : t * t = ev (PAdd (PMul (PV x0) (PV x0)) (PMul (PV x1) (PV x1)))) by (cbn [ev map]; rewrite rnorm2, norm_sq; [ring|nra]); set (nv := t) in * end.
  match goal with H : / 4194304 <= nv <= B60 |- _ => destruct H as [Nlo Nhi] end.
  assert (N0 : 0 < nv) by lra.
  cbn [ev] in NN.
  repeat match goal with H : number ?x |- _ => lazymatch goal with B : Rabs (rval x) <= nv |- _ => fail | _ => assert (Rabs (rval x) <= nv) by (apply comp_le; [rewrite NN; nra|lra]) end end.
  assert (An : allnum (PAdd (PMul (PV x0) (PV x0)) (PMul (PV x1) (PV x1)))) by numgo.
  assert (Fi : finite (bfl (PAdd (PMul (PV x0) (PV x0)) (PMul (PV x1) (PV x1)))) = true) by (apply (poly_fin B60 (PAdd (PMul (PV x0) (PV x0)) (PMul (PV x1) (PV x1))) An); capgo).
  assert (Db : number (bfl (PAdd (PMul (PV x0) (PV x0)) (PMul (PV x1) (PV x1)))) /\ Rabs (rval (bfl (PAdd (PMul (PV x0) (PV x0)) (PMul (PV x1) (PV x1)))) - nv * nv) <= 33 / 8 * u * (nv * nv)) by
    (apply (dot_bound 2%nat (PAdd (PMul (PV x0) (PV x0)) (PMul (PV x1) (PV x1))) nv An Fi); [reflexivity|lia|undgo|cbn [ev]; lra| |auto]; cbn [maj]; unfold rabs; rewrite NN;
     rewrite <- ?Rabs_mult, ?Rabs_pos_eq by nra; ring).
  destruct Db as [Ns Sb].
  assert (Nr : / 4194304 <= nv <= 2 * B60) by (unfold B60 in *; lra).
  match goal with Ns : number (bfl (PAdd (PMul (PV x0) (PV x0)) (PMul (PV x1) (PV x1)))), Sb : Rabs (rval (bfl (PAdd (PMul (PV x0) (PV x0)) (PMul (PV x1) (PV x1)))) - nv * nv) <= _ |- _ => destruct (unit_core (bfl (PAdd (PMul (PV x0) (PV x0)) (PMul (PV x1) (PV x1)))) nv Ns Nr Sb) as (C1 & C2 & C3) end.
  split; [exact C1|split; [exact C2|]].
  assert (C4 : forall x, number x -> Rabs (rval x) <= nv -> finite (SFmul prec emax x (SFdiv prec emax b1 (SFsqrt prec emax (bfl (PAdd (PMul (PV x0) (PV x0)) (PMul (PV x1) (PV x1))))))) = true /\
     Rabs (rval (SFmul prec emax x (SFdiv prec emax b1 (SFsqrt prec emax (bfl (PAdd (PMul (PV x0) (PV x0)) (PMul (PV x1) (PV x1))))))) - rval x / nv) <= 6 * u * (Rabs (rval x) / nv) + tiny) by
     (intros x Nx Bx; destruct (C3 x Nx Bx) as [? ?]; split; auto; rewrite tiny_eta; pose proof eta_pos; lra).
  clear C1 C2 C3; cbn [bfl] in *.
  split; [repeat (apply Forall2_cons; [apply C4; assumption|]); apply Forall2_nil|].
  cbn [map]. rewrite rnorm2, p20. pose proof tiny_le.
  assert (X : rval x0 * rval x0 / (nv * nv) + rval x1 * rval x1 / (nv * nv) = 1) by (rewrite NN; field; rewrite <- NN; nra).
  assert (XU : u * (rval x0 * rval x0 / (nv * nv) + rval x1 * rval x1 / (nv * nv)) = u) by (rewrite X; ring).
  sqs C4 nv N0. apply norm_near; [nra|]. assert (0 < u <= 1 / 1000000) by (unfold u; lra). assert (tiny <= 1 / 1000000 * u) by nra. apply Rabs_le. split; lra.
Qed.
Lemma unit3 : forall x0 x1 x2, number x0 -> number x1 -> number x2 -> powerRZ 2 (-22) <= norm (map rval [x0; x1; x2]) <= powerRZ 2 60 ->
  let S := (SFadd prec emax (SFadd prec emax (SFmul prec emax x0 x0) (SFmul prec emax x1 x1)) (SFmul prec emax x2 x2)) in let I := SFdiv prec emax b1 (SFsqrt prec emax S) in
  SFltb (SFsqrt prec emax S) eps32 = false /\ SFleb S b0 = false /\
  scaled_near (norm (map rval [x0; x1; x2])) [x0; x1; x2] [SFmul prec emax x0 I; SFmul prec emax x1 I; SFmul prec emax x2 I] /\
  Rabs (norm (map rval [SFmul prec emax x0 I; SFmul prec emax x1 I; SFmul prec emax x2 I]) - 1) <= powerRZ 2 (-20).
Proof.
  cbv zeta. intros. match goal with H : powerRZ 2 (-22) <= ?t <= _ |- _ => rewrite p22, b60 in H; assert (NN : t * t = ev (PAdd (PAdd (PMul (PV x0) (PV x0)) (PMul (PV x1) (PV x1))) (PMul (PV x2) (PV x2)))) by (cbn [ev map]; rewrite rnorm3, norm_sq; [ring|nra]); set (nv := t) in * end.
  match goal with H : / 4194304 <= nv <= B60 |- _ => destruct H as [Nlo Nhi] end.
  assert (N0 : 0 < nv) by lra.
  cbn [ev] in NN.
  repeat match goal with H : number ?x |- _ => lazymatch goal with B : Rabs (rval x) <= nv |- _ => fail | _ => assert (Rabs (rval x) <= nv) by (apply comp_le; [rewrite NN; nra|lra]) end end.
  assert (An : allnum (PAdd (PAdd (PMul (PV x0) (PV x0)) (PMul (PV x1) (PV x1))) (PMul (PV x2) (PV x2)))) by numgo.
  assert (Fi : finite (bfl (PAdd (PAdd (PMul (PV x0) (PV x0)) (PMul (PV x1) (PV x1))) (PMul (PV x2) (PV x2)))) = true) by (apply (poly_fin B60 (PAdd (PAdd (PMul (PV x0) (PV x0)) (PMul (PV x1) (PV x1))) (PMul (PV x2) (PV x2))) An); capgo).
  assert (Db : number (bfl (PAdd (PAdd (PMul (PV x0) (PV x0)) (PMul (PV x1) (PV x1))) (PMul (PV x2) (PV x2)))) /\ Rabs (rval (bfl (PAdd (PAdd (PMul (PV x0) (PV x0)) (PMul (PV x1) (PV x1))) (PMul (PV x2) (PV x2)))) - nv * nv) <= 33 / 8 * u * (nv * nv)) by
    (apply (dot_bound 3%nat (PAdd (PAdd (PMul (PV x0) (PV x0)) (PMul (PV x1) (PV x1))) (PMul (PV x2) (PV x2))) nv An Fi); [reflexivity|lia|undgo|cbn [ev]; lra| |auto]; cbn [maj]; unfold rabs; rewrite NN;
     rewrite <- ?Rabs_mult, ?Rabs_pos_eq by nra; ring).
  destruct Db as [Ns Sb].
  assert (Nr : / 4194304 <= nv <= 2 * B60) by (unfold B60 in *; lra).
  match goal with Ns : number (bfl (PAdd (PAdd (PMul (PV x0) (PV x0)) (PMul (PV x1) (PV x1))) (PMul (PV x2) (PV x2)))), Sb : Rabs (rval (bfl (PAdd (PAdd (PMul (PV x0) (PV x0)) (PMul (PV x1) (PV x1))) (PMul (PV x2) (PV x2)))) - nv * nv) <= _ |- _ => destruct (unit_core (bfl (PAdd (PAdd (PMul (PV x0) (PV x0)) (PMul (PV x1) (PV x1))) (PMul (PV x2) (PV x2)))) nv Ns Nr Sb) as (C1 & C2 & C3) end.
  split; [exact C1|split; [exact C2|]].
  assert (C4 : forall x, number x -> Rabs (rval x) <= nv -> finite (SFmul prec emax x (SFdiv prec emax b1 (SFsqrt prec emax (bfl (PAdd (PAdd (PMul (PV x0) (PV x0)) (PMul (PV x1) (PV x1))) (PMul (PV x2) (PV x2))))))) = true /\
     Rabs (rval (SFmul prec emax x (SFdiv prec emax b1 (SFsqrt prec emax (bfl (PAdd (PAdd (PMul (PV x0) (PV x0)) (PMul (PV x1) (PV x1))) (PMul (PV x2) (PV x2))))))) - rval x / nv) <= 6 * u * (Rabs (rval x) / nv) + tiny) by
     (intros x Nx Bx; destruct (C3 x Nx Bx) as [? ?]; split; auto; rewrite tiny_eta; pose proof eta_pos; lra).
  clear C1 C2 C3; cbn [bfl] in *.
  split; [repeat (apply Forall2_cons; [apply C4; assumption|]); apply Forall2_nil|].
  cbn [map]. rewrite rnorm3, p20. pose proof tiny_le.
  assert (X : rval x0 * rval x0 / (nv * nv) + rval x1 * rval x1 / (nv * nv) + rval x2 * rval x2 / (nv * nv) = 1) by (rewrite NN; field; rewrite <- NN; nra).
  assert (XU : u * (rval x0 * rval x0 / (nv * nv) + rval x1 * rval x1 / (nv * nv) + rval x2 * rval x2 / (nv * nv)) = u) by (rewrite X; ring).
  sqs C4 nv N0. apply norm_near; [nra|]. assert (0 < u <= 1 / 1000000) by (unfold u; lra). assert (tiny <= 1 / 1000000 * u) by nra. apply Rabs_le. split; lra.
Qed.
Lemma unit4 : forall x0 x1 x2 x3, number x0 -> number x1 -> number x2 -> number x3 -> powerRZ 2 (-22) <= norm (map rval [x0; x1; x2; x3]) <= powerRZ 2 60 ->
  let S := (SFadd prec emax (SFadd prec emax (SFadd prec emax (SFmul prec emax x0 x0) (SFmul prec emax x1 x1)) (SFmul prec emax x2 x2)) (SFmul prec emax x3 x3)) in let I := SFdiv prec emax b1 (SFsqrt prec emax S) in
  SFltb (SFsqrt prec emax S) eps32 = false /\ SFleb S b0 = false /\
  scaled_near (norm (map rval [x0; x1; x2; x3])) [x0; x1; x2; x3] [SFmul prec emax x0 I; SFmul prec emax x1 I; SFmul prec emax x2 I; SFmul prec emax x3 I] /\
  Rabs (norm (map rval [SFmul prec emax x0 I; SFmul prec emax x1 I; SFmul prec emax x2 I; SFmul prec emax x3 I]) - 1) <= powerRZ 2 (-20).
Proof.
  cbv zeta. intros. match goal with H : powerRZ 2 (-22) <= ?t <= _ |- _ => rewrite p22, b60 in H; assert (NN : t * t = ev (PAdd (PAdd (PAdd (PMul (PV x0) (PV x0)) (PMul (PV x1) (PV x1))) (PMul (PV x2) (PV x2))) (PMul (PV x3) (PV x3)))) by (cbn [ev map]; rewrite rnorm4, norm_sq; [ring|nra]); set (nv := t) in * end.
  match goal with H : / 4194304 <= nv <= B60 |- _ => destruct H as [Nlo Nhi] end.
  assert (N0 : 0 < nv) by lra.
  cbn [ev] in NN.
  repeat match goal with H : number ?x |- _ => lazymatch goal with B : Rabs (rval x) <= nv |- _ => fail | _ => assert (Rabs (rval x) <= nv) by (apply comp_le; [rewrite NN; nra|lra]) end end.
  assert (An : allnum (PAdd (PAdd (PAdd (PMul (PV x0) (PV x0)) (PMul (PV x1) (PV x1))) (PMul (PV x2) (PV x2))) (PMul (PV x3) (PV x3)))) by numgo.
  assert (Fi : finite (bfl (PAdd (PAdd (PAdd (PMul (PV x0) (PV x0)) (PMul (PV x1) (PV x1))) (PMul (PV x2) (PV x2))) (PMul (PV x3) (PV x3)))) = true) by (apply (poly_fin B60 (PAdd (PAdd (PAdd (PMul (PV x0) (PV x0)) (PMul (PV x1) (PV x1))) (PMul (PV x2) (PV x2))) (PMul (PV x3) (PV x3))) An); capgo).
  assert (Db : number (bfl (PAdd (PAdd (PAdd (PMul (PV x0) (PV x0)) (PMul (PV x1) (PV x1))) (PMul (PV x2) (PV x2))) (PMul (PV x3) (PV x3)))) /\ Rabs (rval (bfl (PAdd (PAdd (PAdd (PMul (PV x0) (PV x0)) (PMul (PV x1) (PV x1))) (PMul (PV x2) (PV x2))) (PMul (PV x3) (PV x3)))) - nv * nv) <= 33 / 8 * u * (nv * nv)) by
    (apply (dot_bound 4%nat (PAdd (PAdd (PAdd (PMul (PV x0) (PV x0)) (PMul (PV x1) (PV x1))) (PMul (PV x2) (PV x2))) (PMul (PV x3) (PV x3))) nv An Fi); [reflexivity|lia|undgo|cbn [ev]; lra| |auto]; cbn [maj]; unfold rabs; rewrite NN;
     rewrite <- ?Rabs_mult, ?Rabs_pos_eq by nra; ring).
  destruct Db as [Ns Sb].
  assert (Nr : / 4194304 <= nv <= 2 * B60) by (unfold B60 in *; lra).
  match goal with Ns : number (bfl (PAdd (PAdd (PAdd (PMul (PV x0) (PV x0)) (PMul (PV x1) (PV x1))) (PMul (PV x2) (PV x2))) (PMul (PV x3) (PV x3)))), Sb : Rabs (rval (bfl (PAdd (PAdd (PAdd (PMul (PV x0) (PV x0)) (PMul (PV x1) (PV x1))) (PMul (PV x2) (PV x2))) (PMul (PV x3) (PV x3)))) - nv * nv) <= _ |- _ => destruct (unit_core (bfl (PAdd (PAdd (PAdd (PMul (PV x0) (PV x0)) (PMul (PV x1) (PV x1))) (PMul (PV x2) (PV x2))) (PMul (PV x3) (PV x3)))) nv Ns Nr Sb) as (C1 & C2 & C3) end.
  split; [exact C1|split; [exact C2|]].
  assert (C4 : forall x, number x -> Rabs (rval x) <= nv -> finite (SFmul prec emax x (SFdiv prec emax b1 (SFsqrt prec emax (bfl (PAdd (PAdd (PAdd (PMul (PV x0) (PV x0)) (PMul (PV x1) (PV x1))) (PMul (PV x2) (PV x2))) (PMul (PV x3) (PV x3))))))) = true /\
     Rabs (rval (SFmul prec emax x (SFdiv prec emax b1 (SFsqrt prec emax (bfl (PAdd (PAdd (PAdd (PMul (PV x0) (PV x0)) (PMul (PV x1) (PV x1))) (PMul (PV x2) (PV x2))) (PMul (PV x3) (PV x3))))))) - rval x / nv) <= 6 * u * (Rabs (rval x) / nv) + tiny) by
     (intros x Nx Bx; destruct (C3 x Nx Bx) as [? ?]; split; auto; rewrite tiny_eta; pose proof eta_pos; lra).
  clear C1 C2 C3; cbn [bfl] in *.
  split; [repeat (apply Forall2_cons; [apply C4; assumption|]); apply Forall2_nil|].
  cbn [map]. rewrite rnorm4, p20. pose proof tiny_le.
  assert (X : rval x0 * rval x0 / (nv * nv) + rval x1 * rval x1 / (nv * nv) + rval x2 * rval x2 / (nv * nv) + rval x3 * rval x3 / (nv * nv) = 1) by (rewrite NN; field; rewrite <- NN; nra).
  assert (XU : u * (rval x0 * rval x0 / (nv * nv) + rval x1 * rval x1 / (nv * nv) + rval x2 * rval x2 / (nv * nv) + rval x3 * rval x3 / (nv * nv)) = u) by (rewrite X; ring).
  sqs C4 nv N0. apply norm_near; [nra|]. assert (0 < u <= 1 / 1000000) by (unfold u; lra). assert (tiny <= 1 / 1000000 * u) by nra. apply Rabs_le. split; lra.
Qed.

Ltac uset := change (b_lit 1 8388608) with eps32; change (b_lit 1 1) with b1; change (b_lit 0 1) with b0.
Ltac ufin := let E1 := fresh in let E2 := fresh in let E3 := fresh in intros (E1 & E2 & E3); cbv zeta in E1, E2, E3; rewrite ?E1, ?E2; exact E3.
Ltac ugo n := intros; unlists; nums; exl n; split; [brun|]; cbv beta; uset;
  match goal with
  | A : number ?a, B : number ?b, H : _ <= norm (map rval [?a; ?b]) <= _ |- _ => generalize (unit2 a b A B H); ufin
  | A : number ?a, B : number ?b, C : number ?c, H : _ <= norm (map rval [?a; ?b; ?c]) <= _ |- _ => generalize (unit3 a b c A B C H); ufin
  | A : number ?a, B : number ?b, C : number ?c, D : number ?d, H : _ <= norm (map rval [?a; ?b; ?c; ?d]) <= _ |- _ => generalize (unit4 a b c d A B C D H); ufin
  end.
(** normalisation is accurate whenever the length is between 2^-22 and 2^60 *)
Lemma C64_normalize_ok : forall l,
  (forall v, length v = 2%nat -> Forall number v -> powerRZ 2 (-22) <= norm (map rval v) <= powerRZ 2 60 ->
    exists r, computes (B32 l) glm_vec2_normalize [InOut (fl v)] VVoid [fl r] /\ scaled_near (norm (map rval v)) v r /\ Rabs (norm (map rval r) - 1) <= powerRZ 2 (-20)) /\
  (forall v, length v = 2%nat -> Forall number v -> powerRZ 2 (-22) <= norm (map rval v) <= powerRZ 2 60 ->
    exists r, computes (B32 l) glm_vec2_normalize_to [InA (fl v); Out 2] VVoid [fl r] /\ scaled_near (norm (map rval v)) v r /\ Rabs (norm (map rval r) - 1) <= powerRZ 2 (-20)) /\
  (forall v, length v = 3%nat -> Forall number v -> powerRZ 2 (-22) <= norm (map rval v) <= powerRZ 2 60 ->
    exists r, computes (B32 l) glm_vec3_normalize [InOut (fl v)] VVoid [fl r] /\ scaled_near (norm (map rval v)) v r /\ Rabs (norm (map rval r) - 1) <= powerRZ 2 (-20)) /\
  (forall v, length v = 3%nat -> Forall number v -> powerRZ 2 (-22) <= norm (map rval v) <= powerRZ 2 60 ->
    exists r, computes (B32 l) glm_vec3_normalize_to [InA (fl v); Out 3] VVoid [fl r] /\ scaled_near (norm (map rval v)) v r /\ Rabs (norm (map rval r) - 1) <= powerRZ 2 (-20)) /\
  (forall v, length v = 4%nat -> Forall number v -> powerRZ 2 (-22) <= norm (map rval v) <= powerRZ 2 60 ->
    exists r, computes (B32 l) glm_vec4_normalize [InOut (fl v)] VVoid [fl r] /\ scaled_near (norm (map rval v)) v r /\ Rabs (norm (map rval r) - 1) <= powerRZ 2 (-20)) /\
  (forall v, length v = 4%nat -> Forall number v -> powerRZ 2 (-22) <= norm (map rval v) <= powerRZ 2 60 ->
    exists r, computes (B32 l) glm_vec4_normalize_to [InA (fl v); Out 4] VVoid [fl r] /\ scaled_near (norm (map rval v)) v r /\ Rabs (norm (map rval r) - 1) <= powerRZ 2 (-20)) /\
  (forall v, length v = 4%nat -> Forall number v -> powerRZ 2 (-22) <= norm (map rval v) <= powerRZ 2 60 ->
    exists r, computes (B32 l) glm_quat_normalize [InOut (fl v)] VVoid [fl r] /\ scaled_near (norm (map rval v)) v r /\ Rabs (norm (map rval r) - 1) <= powerRZ 2 (-20)) /\
  (forall v, length v = 4%nat -> Forall number v -> powerRZ 2 (-22) <= norm (map rval v) <= powerRZ 2 60 ->
    exists r, computes (B32 l) glm_quat_normalize_to [InA (fl v); Out 4] VVoid [fl r] /\ scaled_near (norm (map rval v)) v r /\ Rabs (norm (map rval r) - 1) <= powerRZ 2 (-20)).
Proof. idall; [ugo 2%nat|ugo 2%nat|ugo 3%nat|ugo 3%nat|ugo 4%nat|ugo 4%nat|ugo 4%nat|ugo 4%nat].  Qed.
Lemma C64_normalize_ex : let v := [S754_finite false 12582912 (-22); S754_finite false 8388608 (-21); b0] in
  Forall number v /\ norm (map rval v) = 5 /\ powerRZ 2 (-22) <= norm (map rval v) <= powerRZ 2 60.
Proof.
  cbv zeta. split; [repeat constructor|].
  assert (E : norm (map rval [S754_finite false 12582912 (-22); S754_finite false 8388608 (-21); b0]) = 5).
  { cbn [map]. rewrite rnorm3. unfold rval, b0. rewrite (p2n 22 : powerRZ 2 (-22) = _), (p2n 21 : powerRZ 2 (-21) = _). simpl (2 ^ _)%Z.
    apply sqrt_lem_1; lra. }
  rewrite E, p22, b60. unfold B60. split; [auto|lra].
Qed.
