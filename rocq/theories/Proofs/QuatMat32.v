(** * Quaternions to matrices in single precision (C83) *)

From Coq Require Import String List ZArith Bool Reals Lra Lia Psatz Floats.SpecFloat.
From Flocq Require Import Core.
From Verif Require Import MiniC Sym SymSound Contract SymCall SymTac Tac Cglm B32 RScalar.
From Verif.Spec Require Import Float32 Linear Geometry Affine Quaternion Approx Inverse32.
From Verif.Proofs Require Import Flo FloErr Ieee IeeeId IeeeErr IeeeNorm ExactSound ApproxSound Layout RTac RExact Ranges View32 Rot32.
From Verif.Proofs Require Tests32.
Import ListNotations.
(* props: From Coq Require Import Reals Floats.SpecFloat. *)
(* props: From Verif Require Import B32. *)
(* props: From Verif.Spec Require Import Float32 Linear Geometry Affine Quaternion Approx Inverse32. *)
Local Open Scope R_scope.

Lemma sum4_near : forall a0 a1 a2 a3 N, number a0 -> number a1 -> number a2 -> number a3 -> N * N = rval a0 * rval a0 + rval a1 * rval a1 + rval a2 * rval a2 + rval a3 * rval a3 -> / 2 <= N * N <= 2 ->
  number (fadd (fadd (fadd (fmul a0 a0) (fmul a1 a1)) (fmul a2 a2)) (fmul a3 a3)) /\ Rabs (rval (fadd (fadd (fadd (fmul a0 a0) (fmul a1 a1)) (fmul a2 a2)) (fmul a3 a3)) - N * N) <= 41 / 10 * u * (N * N).
Proof.
  intros a0 a1 a2 a3 N N0 N1 N2 N3 HN HB. pose proof u_small as U. pose proof eta_u. pose proof eta_pos. pose proof B60_1.
  assert (M : forall x, number x -> rval x * rval x <= N * N -> number (fmul x x) /\ Rabs (rval (fmul x x) - rval x * rval x) <= u * (rval x * rval x) + eta).
  { intros x Nx Hx. assert (Q : Rabs (rval x) * Rabs (rval x) = rval x * rval x) by (rewrite <- Rabs_mult; apply Rabs_pos_eq; nra).
    destruct (mul_near x x (Rabs (rval x)) (Rabs (rval x)) Nx Nx) as [A B]; auto; try lra. rewrite Q in B. auto. }
  pose proof (Rle_0_sqr (rval a0)) as P0. pose proof (Rle_0_sqr (rval a1)) as P1. pose proof (Rle_0_sqr (rval a2)) as P2. pose proof (Rle_0_sqr (rval a3)) as P3. unfold Rsqr in *.
  destruct (M a0 N0 ltac:(lra)) as [M0 D0]. destruct (M a1 N1 ltac:(lra)) as [M1 D1]. destruct (M a2 N2 ltac:(lra)) as [M2 D2]. destruct (M a3 N3 ltac:(lra)) as [M3 D3]. clear M.
  set (x0 := rval a0 * rval a0) in *. set (x1 := rval a1 * rval a1) in *. set (x2 := rval a2 * rval a2) in *. set (x3 := rval a3 * rval a3) in *. set (W := N * N) in *. clearbody x0 x1 x2 x3 W.
  apply Rabs_le_inv in D0, D1, D2, D3.
  assert (UW : 0 < u * W) by nra. assert (EW : eta <= u * W / 500) by nra. assert (V0 : 0 <= u * x0) by nra. assert (V1 : 0 <= u * x1) by nra. assert (V2 : 0 <= u * x2) by nra. assert (V3 : 0 <= u * x3) by nra.
  assert (VW : u * x0 + u * x1 + u * x2 + u * x3 = u * W) by (rewrite HN; ring). assert (US : u * W <= W / 10000000) by nra.
  destruct (add_near (fmul a0 a0) (fmul a1 a1) (1001 / 1000 * W)) as [A1 B1]; auto; [apply Rabs_le; lra|lra|]. apply Rabs_le_inv in B1.
  destruct (add_near (fadd (fmul a0 a0) (fmul a1 a1)) (fmul a2 a2) (1001 / 1000 * W)) as [A2 B2]; auto; [apply Rabs_le; lra|lra|]. apply Rabs_le_inv in B2.
  destruct (add_near (fadd (fadd (fmul a0 a0) (fmul a1 a1)) (fmul a2 a2)) (fmul a3 a3) (1001 / 1000 * W)) as [A3 B3]; auto; [apply Rabs_le; lra|lra|]. apply Rabs_le_inv in B3.
  split; auto. apply Rabs_le. lra.
Qed.
(** the factor 2 / norm, for a quaternion of length within [t] units of 1 *)
Lemma factor_near : forall a0 a1 a2 a3 t, Forall number [a0; a1; a2; a3] -> 0 <= t <= 16 -> Rabs (norm (map rval [a0; a1; a2; a3]) - 1) <= t * u -> let N := norm (map rval [a0; a1; a2; a3]) in
  let n := fsqrt (fadd (fadd (fadd (fmul a0 a0) (fmul a1 a1)) (fmul a2 a2)) (fmul a3 a3)) in
  SFltb b0 n = true /\ nb 2 (201 / 100 * t + 9) (fdiv (b_lit 2 1) n) 2 /\
  nb 1 t a0 (rval a0 / N) /\ nb 1 t a1 (rval a1 / N) /\ nb 1 t a2 (rval a2 / N) /\ nb 1 t a3 (rval a3 / N) /\
  qnormalized (map rval [a0; a1; a2; a3]) = [rval a0 / N; rval a1 / N; rval a2 / N; rval a3 / N] /\
  rval a0 / N * (rval a0 / N) + rval a1 / N * (rval a1 / N) + rval a2 / N * (rval a2 / N) + rval a3 / N * (rval a3 / N) = 1.
Proof.
  intros a0 a1 a2 a3 t F Ht HN N n. fold N in HN.
  inversion_clear F as [|? ? N0 F']. inversion_clear F' as [|? ? N1 F]. inversion_clear F as [|? ? N2 F']. inversion_clear F' as [|? ? N3 _].
  assert (NN : N * N = rval a0 * rval a0 + rval a1 * rval a1 + rval a2 * rval a2 + rval a3 * rval a3) by (unfold N; cbn [map]; rewrite rnorm4, sqrt_sqrt; nra).
  pose proof HN as HN1. apply Rabs_le_inv in HN1. pose proof u_small as U. assert (TU : 0 <= t * u <= / 500000) by (unfold u in *; nra). pose proof eta_u. pose proof eta_pos. pose proof B60_1.
  assert (W1 : Rabs (N * N - 1) <= 2001 / 1000 * (t * u)). { replace (N * N - 1) with ((N - 1) * (N + 1)) by ring. rewrite Rabs_mult, Rmult_comm, (Rabs_pos_eq (N + 1)) by lra. apply Rmult_le_compat; auto using Rabs_pos; lra. }
  apply Rabs_le_inv in W1. destruct (sum4_near a0 a1 a2 a3 N N0 N1 N2 N3 NN ltac:(lra)) as [NS DS]. unfold n. set (S := fadd _ _) in *.
  apply Rabs_le_inv in DS. assert (S1 : Rabs (rval S - 1) <= 2001 / 1000 * (t * u) + 411 / 100 * u) by (apply Rabs_le; unfold u in *; nra).
  assert (S2 : Rabs (rval S - 1) <= / 200000) by (unfold u in *; lra). pose proof (Rabs_le_inv _ _ S2) as S3.
  destruct (sqrt_rnd S NS ltac:(lra)) as [Fn Vn]. fold n in Fn, Vn. assert (Nn : number (fsqrt S)) by (split; auto; apply sqrt_valid; apply NS).
  set (y := sqrt (rval S)) in *. assert (Y0 : 0 <= y) by apply sqrt_pos. assert (YY : y * y = rval S) by (apply sqrt_sqrt; lra).
  assert (Y1 : 999 / 1000 <= y <= 1001 / 1000) by (split; apply Rnot_lt_le; intros G; nra).
  assert (Y2 : Rabs (y - 1) <= 1001 / 1999 * (2001 / 1000 * (t * u) + 411 / 100 * u)).
  { apply (Rmult_le_reg_r (y + 1)); [lra|]. rewrite <- (Rabs_pos_eq (y + 1)) at 1 by lra. rewrite <- Rabs_mult. replace ((y - 1) * (y + 1)) with (rval S - 1) by (rewrite <- YY; ring). 
    eapply Rle_trans; [exact S1|]. set (K := 2001 / 1000 * (t * u) + 411 / 100 * u). assert (0 <= K) by (unfold K; nra). nra. }
  destruct (near_rnd (fsqrt S) y (1001 / 1000)) as (_ & D & _); [apply Nn|intros; exact Vn|intros; exact Fn|rewrite Rabs_pos_eq; lra|]. apply Rabs_le_inv in D. apply Rabs_le_inv in Y2.
  set (m := rval (fsqrt S)) in *. assert (M1 : Rabs (m - 1) <= 1003 / 1000 * (t * u) + 31 / 10 * u) by (apply Rabs_le; lra).
  pose proof (Rabs_le_inv _ _ M1) as M2. assert (M3 : 999 / 1000 <= m <= 1001 / 1000) by (unfold u in *; lra).
  assert (V2 : number (b_lit 2 1) /\ rval (b_lit 2 1) = 2) by (split; [split; reflexivity|]; match goal with |- rval ?x = _ => let v := eval vm_compute in x in change x with v end; cbn [rval]; simpl (powerRZ _ _); lra).
  destruct (div_rnd (b_lit 2 1) (fsqrt S) (proj1 V2) Nn) as [G1 G2]; [fold m; lra|]. fold m in G1, G2. rewrite (proj2 V2) in G1, G2.
  assert (Q1 : Rabs (2 / m - 2) <= 2004 / 1000 * (1003 / 1000 * (t * u) + 31 / 10 * u)).
  { replace (2 / m - 2) with (2 / m * (1 - m)) by (field; lra). rewrite Rabs_mult, (Rabs_minus_sym 1 m). apply Rmult_le_compat; auto using Rabs_pos. rewrite Rabs_pos_eq; [|left; apply Rdiv_lt_0_compat; lra]. apply (Rmult_le_reg_r m); [lra|]. unfold Rdiv. rewrite Rmult_assoc, Rinv_l by lra. nra. }
  apply Rabs_le_inv in Q1. destruct (near_rnd (fdiv (b_lit 2 1) (fsqrt S)) (2 / m) (2001 / 1000)) as (Nd & Dd & _); auto; [apply div_valid; [reflexivity|apply Nn]|split; [apply Rabs_le; unfold u in *; lra|lra]|].
  apply Rabs_le_inv in Dd.
  split. { apply lt_value; [split; reflexivity|exact Nn|]. fold m. change (rval b0) with 0. lra. }
  split. { split; auto. split; [rewrite Rabs_pos_eq; lra|]. apply Rabs_le. unfold u in *. lra. }
  assert (P : 0 < N) by lra.
  assert (C : forall x, number x -> rval x * rval x <= N * N -> nb 1 t x (rval x / N)).
  { intros x Nx Hx. assert (Bx : Rabs (rval x) <= N) by (apply comp_le; lra). assert (R1 : Rabs (rval x / N) <= 1). { unfold Rdiv. rewrite Rabs_mult, Rabs_inv, (Rabs_pos_eq N) by lra. apply (Rmult_le_reg_r N); [lra|]. rewrite Rmult_assoc, Rinv_l; lra. }
    split; auto. split; auto. replace (rval x - rval x / N) with (rval x / N * (N - 1)) by (field; lra). rewrite Rabs_mult. rewrite <- (Rmult_1_l (t * u)). apply Rmult_le_compat; auto using Rabs_pos. }
  split; [apply C; auto; nra|]. split; [apply C; auto; nra|]. split; [apply C; auto; nra|]. split; [apply C; auto; nra|]. split.
  - unfold qnormalized. destruct (Req_EM_T _ _) as [E|E].
    + exfalso. unfold N, norm in P. cbn [map] in P, E. rewrite E, sqrt_0 in P. lra.
    + fold N. cbn [map vscale]. unfold vscale. cbn [map]. unfold Rdiv. repeat match goal with |- (_ :: _) = (_ :: _) => f_equal end; ring.
  - apply (Rmult_eq_reg_r (N * N)); [|nra]. transitivity (rval a0 * rval a0 + rval a1 * rval a1 + rval a2 * rval a2 + rval a3 * rval a3); [field; lra|lra].
Qed.
Ltac qcell := match goal with N' : ?r * ?r = _ |- _ => eapply nb_cell; [nbp|try ring [N']|pose proof u_small; unfold u; lra] end.
Ltac qfin := cbv beta; change (b_lit 1 1) with b1; change (b_lit 0 1) with b0;
  match goal with C : SFltb b0 ?n = true, K : nb _ _ ?f 2, N' : ?r3 * ?r3 = _ |- _ => rewrite ?C; set (s := f) in *; clearbody s;
    cbv [qmat qrot qmul qconj quat im re transp build flat_map seq ent aff vsub vadd vscale vcross rdot total fold_left firstn skipn at_ nth map combine fst snd List.app Nat.mul Nat.add];
    unfold within_all; repeat apply Forall2_cons; try apply Forall2_nil end.
Lemma mats_near : forall l a0 a1 a2 a3 r0 r1 r2 r3 ec es, 0 <= ec <= 20 -> 0 <= es <= 50 -> let n := fsqrt (fadd (fadd (fadd (fmul a0 a0) (fmul a1 a1)) (fmul a2 a2)) (fmul a3 a3)) in
  SFltb b0 n = true -> nb 2 es (fdiv (b_lit 2 1) n) 2 -> nb 1 ec a0 r0 -> nb 1 ec a1 r1 -> nb 1 ec a2 r2 -> nb 1 ec a3 r3 -> r0 * r0 + r1 * r1 + r2 * r2 + r3 * r3 = 1 ->
  let R := qmat [r0; r1; r2; r3] in let e := (8 * ec + 2 * es + 17) * u in
  (exists F, computes (B32 l) glm_quat_mat3 [In (fl [a0; a1; a2; a3]); Out 9] VVoid [fl F] /\ within_all e F R) /\
  (exists F, computes (B32 l) glm_quat_mat3t [In (fl [a0; a1; a2; a3]); Out 9] VVoid [fl F] /\ within_all e F (transp 3 3 R)) /\
  (exists F, computes (B32 l) glm_quat_mat4 [In (fl [a0; a1; a2; a3]); Out 16] VVoid [fl F] /\ within_all e F (aff R [0; 0; 0])) /\
  (exists F, computes (B32 l) glm_quat_mat4t [In (fl [a0; a1; a2; a3]); Out 16] VVoid [fl F] /\ within_all e F (aff (transp 3 3 R) [0; 0; 0])).
Proof.
  intros l a0 a1 a2 a3 r0 r1 r2 r3 ec es Hc Hs n C K K0 K1 K2 K3 QQ R e. unfold R, e. unfold n in C, K. clear R e n.
  assert (N' : r3 * r3 = 1 - r0 * r0 - r1 * r1 - r2 * r2) by lra. clear QQ.
  split; [|split; [|split]]; [eexists [_;_;_;_;_;_;_;_;_]|eexists [_;_;_;_;_;_;_;_;_]|eexists [_;_;_;_;_;_;_;_;_;_;_;_;_;_;_;_]|eexists [_;_;_;_;_;_;_;_;_;_;_;_;_;_;_;_]]; (split; [brun|qfin]).
  all: qcell.
Qed.
Lemma within_mono : forall e e' F B, e <= e' -> within_all e F B -> within_all e' F B.
Proof. intros e e' F B H. unfold within_all. induction 1 as [|x r F B [A D] _ IH]; constructor; auto. split; auto. lra. Qed.
Ltac four_mono M := destruct M as ((F1 & A1 & B1) & (F2 & A2 & B2) & (F3 & A3 & B3) & (F4 & A4 & B4));
  split; [exists F1; split; [exact A1|eapply within_mono; [|exact B1]]|]; [|split; [exists F2; split; [exact A2|eapply within_mono; [|exact B2]]|]]; [| |split; [exists F3; split; [exact A3|eapply within_mono; [|exact B3]]|exists F4; split; [exact A4|eapply within_mono; [|exact B4]]]].
(** all four conversions of a quaternion whose length is within [t] units of 1 *)
Lemma C83_matrices_ok : forall l q t, length q = 4%nat -> Forall number q -> 0 <= t <= 16 -> Rabs (norm (map rval q) - 1) <= t * u -> let R := qmat (qnormalized (map rval q)) in let e := (121 / 10 * t + 35) * u in
  (exists F, computes (B32 l) glm_quat_mat3 [In (fl q); Out 9] VVoid [fl F] /\ within_all e F R) /\
  (exists F, computes (B32 l) glm_quat_mat3t [In (fl q); Out 9] VVoid [fl F] /\ within_all e F (transp 3 3 R)) /\
  (exists F, computes (B32 l) glm_quat_mat4 [In (fl q); Out 16] VVoid [fl F] /\ within_all e F (aff R [0; 0; 0])) /\
  (exists F, computes (B32 l) glm_quat_mat4t [In (fl q); Out 16] VVoid [fl F] /\ within_all e F (aff (transp 3 3 R) [0; 0; 0])).
Proof.
  intros l q t LQ NQ Ht HN R e. destruct q as [|a0 [|a1 [|a2 [|a3 [|]]]]]; try discriminate LQ.
  destruct (factor_near a0 a1 a2 a3 t NQ Ht HN) as (C & K & K0 & K1 & K2 & K3 & NN & QQ). cbv zeta in C, K, K0, K1, K2, K3, NN. unfold R, e. rewrite NN.
  pose proof (mats_near l a0 a1 a2 a3 _ _ _ _ t (201 / 100 * t + 9) ltac:(lra) ltac:(lra) C K K0 K1 K2 K3 QQ) as M. cbv zeta in M. pose proof u_small. four_mono M; apply Rmult_le_compat_r; lra.
Qed.
(** normalising first: the conversions applied to the rounded unit quaternion, against the exact rotation of the original one *)
Lemma C83_normalized_ok : forall l q, length q = 4%nat -> Forall number q -> powerRZ 2 (-22) <= norm (map rval q) <= powerRZ 2 60 -> let R := qmat (qnormalized (map rval q)) in let e := 150 * u in
  exists p, computes (B32 l) glm_quat_normalize_to [In (fl q); Out 4] VVoid [fl p] /\ computes (B32 l) glm_quat_normalize [InOut (fl q)] VVoid [fl p] /\
  (exists F, computes (B32 l) glm_quat_mat3 [In (fl p); Out 9] VVoid [fl F] /\ within_all e F R) /\
  (exists F, computes (B32 l) glm_quat_mat3t [In (fl p); Out 9] VVoid [fl F] /\ within_all e F (transp 3 3 R)) /\
  (exists F, computes (B32 l) glm_quat_mat4 [In (fl p); Out 16] VVoid [fl F] /\ within_all e F (aff R [0; 0; 0])) /\
  (exists F, computes (B32 l) glm_quat_mat4t [In (fl p); Out 16] VVoid [fl F] /\ within_all e F (aff (transp 3 3 R) [0; 0; 0])).
Proof.
  intros l q LQ NQ HN R e. destruct q as [|a0 [|a1 [|a2 [|a3 [|]]]]]; try discriminate LQ.
  assert (H1 : exists I, let p := [fmul a0 I; fmul a1 I; fmul a2 I; fmul a3 I] in computes (B32 l) glm_quat_normalize_to [In (fl [a0; a1; a2; a3]); Out 4] VVoid [fl p] /\ computes (B32 l) glm_quat_normalize [InOut (fl [a0; a1; a2; a3])] VVoid [fl p] /\
    Rabs (norm (map rval p) - 1) <= 16 * u /\ nb 1 (61 / 10) (fmul a0 I) (rval a0 / norm (map rval [a0; a1; a2; a3])) /\ nb 1 (61 / 10) (fmul a1 I) (rval a1 / norm (map rval [a0; a1; a2; a3])) /\ nb 1 (61 / 10) (fmul a2 I) (rval a2 / norm (map rval [a0; a1; a2; a3])) /\ nb 1 (61 / 10) (fmul a3 I) (rval a3 / norm (map rval [a0; a1; a2; a3]))).
  { eexists. cbv zeta. destruct (nb_unit4 a0 a1 a2 a3 NQ HN) as (C & K0 & K1 & K2 & K3 & NN). cbv zeta in C, K0, K1, K2, K3, NN.
    inversion_clear NQ as [|? ? N0 F']. inversion_clear F' as [|? ? N1 F]. inversion_clear F as [|? ? N2 F']. inversion_clear F' as [|? ? N3 _].
    destruct (unit4 a0 a1 a2 a3 N0 N1 N2 N3 HN) as (_ & _ & _ & L). cbv zeta in L.
    split; [|split; [|split; [|split; [exact K0|split; [exact K1|split; [exact K2|exact K3]]]]]].
    - brun. change (b_lit 0 1) with b0. rewrite ?C. reflexivity.
    - brun. change (b_lit 0 1) with b0. rewrite ?C. reflexivity.
    - eapply Rle_trans; [exact L|]. right. unfold u. simpl (powerRZ _ _). lra. }
  destruct H1 as (I & P1 & P2 & L & K0 & K1 & K2 & K3). exists [fmul a0 I; fmul a1 I; fmul a2 I; fmul a3 I]. split; [exact P1|]. split; [exact P2|].
  assert (F : Forall number [fmul a0 I; fmul a1 I; fmul a2 I; fmul a3 I]) by (repeat apply Forall_cons; try apply Forall_nil; first [apply K0|apply K1|apply K2|apply K3]).
  destruct (factor_near _ _ _ _ 16 F ltac:(lra) L) as (C & K & _). cbv zeta in C, K. destruct (nb_unit4 a0 a1 a2 a3 NQ HN) as (_ & _ & _ & _ & _ & NN). cbv zeta in NN. unfold R, e. rewrite NN.
  assert (QQ : rval a0 / norm (map rval [a0; a1; a2; a3]) * (rval a0 / norm (map rval [a0; a1; a2; a3])) + rval a1 / norm (map rval [a0; a1; a2; a3]) * (rval a1 / norm (map rval [a0; a1; a2; a3])) + rval a2 / norm (map rval [a0; a1; a2; a3]) * (rval a2 / norm (map rval [a0; a1; a2; a3])) + rval a3 / norm (map rval [a0; a1; a2; a3]) * (rval a3 / norm (map rval [a0; a1; a2; a3])) = 1).
  { rewrite p22 in HN. assert (NQ2 : norm (map rval [a0; a1; a2; a3]) * norm (map rval [a0; a1; a2; a3]) = rval a0 * rval a0 + rval a1 * rval a1 + rval a2 * rval a2 + rval a3 * rval a3) by (cbn [map]; rewrite rnorm4, sqrt_sqrt; nra).
    set (N := norm _) in *. clearbody N. apply (Rmult_eq_reg_r (N * N)); [|nra]. transitivity (rval a0 * rval a0 + rval a1 * rval a1 + rval a2 * rval a2 + rval a3 * rval a3); [field; lra|lra]. }
  pose proof (mats_near l _ _ _ _ _ _ _ _ (61 / 10) (201 / 100 * 16 + 9) ltac:(lra) ltac:(lra) C K K0 K1 K2 K3 QQ) as M. cbv zeta in M. pose proof u_small. four_mono M; apply Rmult_le_compat_r; lra.
Qed.
(** the same rules for larger errors, one factor being exact *)
Lemma nb_addw : forall M e N f x y r s, nb M e x r -> nb N f y s -> 0 <= e <= 900 -> 0 <= f <= 900 -> 0 <= M <= 16 -> 0 <= N <= 16 -> nb (M + N) (f + e + (M + N) + 1 / 100) (fadd x y) (r + s).
Proof.
  intros M e N f x y r s X Y He Hf HM HN. pose proof (nb_le _ _ _ _ X) as X1. pose proof (nb_le _ _ _ _ Y) as Y1. destruct X as (Nx & Xr & Xe), Y as (Ny & Yr & Ye).
  pose proof u_small as U. pose proof eta_u. pose proof eta_pos. pose proof B60_1. assert (eu : 0 <= e * u <= / 10000) by nra. assert (fu : 0 <= f * u <= / 10000) by nra.
  assert (L : Rabs (rval x + rval y) <= M + N + / 200) by (eapply Rle_trans; [apply Rabs_triang|]; lra).
  destruct (add_near x y _ Nx Ny L) as [Z E]; [lra|]. split; auto. split; [eapply Rle_trans; [apply Rabs_triang|]; lra|].
  replace (rval (fadd x y) - (r + s)) with ((rval (fadd x y) - (rval x + rval y)) + (rval x - r) + (rval y - s)) by ring.
  eapply Rle_trans; [apply Rabs_triang|]. pose proof (Rabs_triang (rval (fadd x y) - (rval x + rval y)) (rval x - r)). lra.
Qed.
Lemma nb_mulw : forall M e N f x y r s, nb M e x r -> nb N f y s -> 0 <= e <= 900 -> 0 <= f <= 1 / 100 -> 0 <= M <= 16 -> 0 <= N <= 16 -> nb (M * N) (M * f + N * e + M * N + 1 / 50) (fmul x y) (r * s).
Proof.
  intros M e N f x y r s X Y He Hf HM HN. pose proof (nb_le _ _ _ _ X) as X1. pose proof (nb_le _ _ _ _ Y) as Y1. destruct X as (Nx & Xr & Xe), Y as (Ny & Yr & Ye).
  pose proof u_small as U. pose proof eta_u. pose proof eta_pos. pose proof B60_1. assert (eu : 0 <= e * u <= / 10000) by nra. assert (fu : 0 <= f * u <= / 10000) by nra.
  assert (ET : eta <= u * / 1000) by lra.
  assert (MN : 0 <= M * N <= 256) by nra.
  assert (P : (M + e * u) * (N + f * u) <= M * N + / 200).
  { replace ((M + e * u) * (N + f * u)) with (M * N + M * (f * u) + (e * u) * N + (e * u) * (f * u)) by ring.
    assert (M * (f * u) <= 16 * / 10000) by (apply Rmult_le_compat; lra). assert (e * u * N <= / 10000 * 16) by (apply Rmult_le_compat; lra). assert (e * u * (f * u) <= / 10000 * / 10000) by (apply Rmult_le_compat; lra). lra. }
  destruct (mul_near x y (M + e * u) (N + f * u) Nx Ny X1 Y1) as [Z E]; [lra|]. split; auto. split; [rewrite Rabs_mult; apply Rmult_le_compat; auto using Rabs_pos|].
  assert (D : Rabs (rval x * rval y - r * s) <= (M + e * u) * (f * u) + N * (e * u)).
  { replace (rval x * rval y - r * s) with (rval x * (rval y - s) + s * (rval x - r)) by ring. eapply Rle_trans; [apply Rabs_triang|]. rewrite !Rabs_mult. apply Rplus_le_compat; apply Rmult_le_compat; auto using Rabs_pos. }
  assert (u * ((M + e * u) * (N + f * u)) <= u * (M * N + / 200)) by (apply Rmult_le_compat_l; lra).
  assert (Q : e * u * (f * u) <= / 250 * u). { replace (e * u * (f * u)) with (e * u * f * u) by ring. apply Rmult_le_compat_r; [lra|]. apply Rle_trans with (/ 10000 * (1 / 100)); [apply Rmult_le_compat; lra|lra]. }
  replace (rval (fmul x y) - r * s) with ((rval (fmul x y) - rval x * rval y) + (rval x * rval y - r * s)) by ring. eapply Rle_trans; [apply Rabs_triang|]. lra.
Qed.
Lemma nb_mulw2 : forall M e N f x y r s, nb M e x r -> nb N f y s -> 0 <= e <= 1 / 100 -> 0 <= f <= 900 -> 0 <= M <= 16 -> 0 <= N <= 16 -> nb (M * N) (M * f + N * e + M * N + 1 / 50) (fmul x y) (r * s).
Proof.
  intros M e N f x y r s X Y He Hf HM HN. pose proof (nb_le _ _ _ _ X) as X1. pose proof (nb_le _ _ _ _ Y) as Y1. destruct X as (Nx & Xr & Xe), Y as (Ny & Yr & Ye).
  pose proof u_small as U. pose proof eta_u. pose proof eta_pos. pose proof B60_1. assert (eu : 0 <= e * u <= / 10000) by nra. assert (fu : 0 <= f * u <= / 10000) by nra.
  assert (ET : eta <= u * / 1000) by lra.
  assert (MN : 0 <= M * N <= 256) by nra.
  assert (P : (M + e * u) * (N + f * u) <= M * N + / 200).
  { replace ((M + e * u) * (N + f * u)) with (M * N + M * (f * u) + (e * u) * N + (e * u) * (f * u)) by ring.
    assert (M * (f * u) <= 16 * / 10000) by (apply Rmult_le_compat; lra). assert (e * u * N <= / 10000 * 16) by (apply Rmult_le_compat; lra). assert (e * u * (f * u) <= / 10000 * / 10000) by (apply Rmult_le_compat; lra). lra. }
  destruct (mul_near x y (M + e * u) (N + f * u) Nx Ny X1 Y1) as [Z E]; [lra|]. split; auto. split; [rewrite Rabs_mult; apply Rmult_le_compat; auto using Rabs_pos|].
  assert (D : Rabs (rval x * rval y - r * s) <= (M + e * u) * (f * u) + N * (e * u)).
  { replace (rval x * rval y - r * s) with (rval x * (rval y - s) + s * (rval x - r)) by ring. eapply Rle_trans; [apply Rabs_triang|]. rewrite !Rabs_mult. apply Rplus_le_compat; apply Rmult_le_compat; auto using Rabs_pos. }
  assert (u * ((M + e * u) * (N + f * u)) <= u * (M * N + / 200)) by (apply Rmult_le_compat_l; lra).
  assert (Q : e * u * (f * u) <= / 250 * u). { replace (e * u * (f * u)) with (e * (f * u) * u) by ring. apply Rmult_le_compat_r; [lra|]. apply Rle_trans with (1 / 100 * / 10000); [apply Rmult_le_compat; lra|lra]. }
  replace (rval (fmul x y) - r * s) with ((rval (fmul x y) - rval x * rval y) + (rval x * rval y - r * s)) by ring. eapply Rle_trans; [apply Rabs_triang|]. lra.
Qed.
Ltac nbpw := lazymatch goal with
  | H : nb _ _ ?x _ |- nb _ _ ?x _ => exact H
  | |- nb _ _ (fmul (fmul _ _) _) _ => nbp
  | |- nb _ _ (fmul _ _) _ => first [eapply nb_mulw; [nbpw|nbpw|nbs|nbs|nbs|nbs]|eapply nb_mulw2; [nbpw|nbpw|nbs|nbs|nbs|nbs]|nbp]
  | |- nb _ _ (fadd _ _) _ => eapply nb_addw; [nbpw|nbpw|nbs|nbs|nbs|nbs]
  | |- nb _ _ (SFopp _) _ => apply nb_opp; nbpw
  | _ => nbp
  end.
Ltac qcellw := match goal with N' : ?r * ?r = _ |- _ => eapply nb_cell; [nbpw|try ring [N']|pose proof u_small; unfold u; lra] end.
Ltac qfin2 := cbv beta; change (b_lit 1 1) with b1; change (b_lit 0 1) with b0;
  match goal with C : SFltb b0 ?n = true, K : nb _ _ ?f 2, N' : ?r3 * ?r3 = _ |- _ => rewrite ?C; set (s := f) in *; clearbody s;
    cbv [qmat qrot qmul qconj quat im re transp mvec mmul mulg Rsum neg build flat_map seq ent aff vsub vadd vscale vcross rdot total fold_left firstn skipn at_ nth map combine fst snd List.app Nat.mul Nat.add];
    unfold within_all; repeat apply Forall2_cons; try apply Forall2_nil end.
(** [glm_quat_look]: the view matrix of a viewer at [eye] with orientation [q] *)
Lemma C83_look_ok : forall l q eye t, length q = 4%nat -> Forall number q -> 0 <= t <= 16 -> Rabs (norm (map rval q) - 1) <= t * u -> length eye = 3%nat -> entries_upto_1 eye -> let R := transp 3 3 (qmat (qnormalized (map rval q))) in
  exists F, computes (B32 l) glm_quat_look [In (fl eye); In (fl q); Out 16] VVoid [fl F] /\ within_all ((37 * t + 150) * u) F (aff R (neg (mvec 3 3 R (map rval eye)))).
Proof.
  intros l q v t LQ NQ Ht HN LV HV R. destruct q as [|a0 [|a1 [|a2 [|a3 [|]]]]]; try discriminate LQ. destruct v as [|v0 [|v1 [|v2 [|]]]]; try discriminate LV. unfold entries_upto_1 in HV.
  destruct (factor_near a0 a1 a2 a3 t NQ Ht HN) as (C & K & K0 & K1 & K2 & K3 & NN & QQ). cbv zeta in C, K, K0, K1, K2, K3, NN. unfold R. rewrite NN. clear NN R HN NQ. fall3.
  pose proof (nb_in v0 1 ltac:(auto) ltac:(auto)) as V0. pose proof (nb_in v1 1 ltac:(auto) ltac:(auto)) as V1. pose proof (nb_in v2 1 ltac:(auto) ltac:(auto)) as V2.
  set (r0 := rval a0 / _) in *. set (r1 := rval a1 / _) in *. set (r2 := rval a2 / _) in *. set (r3 := rval a3 / _) in *. clearbody r0 r1 r2 r3.
  assert (N' : r3 * r3 = 1 - r0 * r0 - r1 * r1 - r2 * r2) by lra. clear QQ.
  eexists [_;_;_;_;_;_;_;_;_;_;_;_;_;_;_;_]; split; [brun|]. qfin2. all: qcellw.
Qed.

(** [glm_quat_rotate]: a transform composed with the rotation *)
Lemma C83_rotate_ok : forall l q m t, length q = 4%nat -> Forall number q -> 0 <= t <= 16 -> Rabs (norm (map rval q) - 1) <= t * u -> length m = 16%nat -> entries_upto_1 m ->
  exists F, computes (B32 l) glm_quat_rotate [InA (fl m); In (fl q); Out 16] VVoid [fl F] /\ within_all ((37 * t + 150) * u) F (mmul 4 (map rval m) (aff (qmat (qnormalized (map rval q))) [0; 0; 0])).
Proof.
  intros l q v t LQ NQ Ht HN LV HV. destruct q as [|a0 [|a1 [|a2 [|a3 [|]]]]]; try discriminate LQ.
  destruct v as [|v0 [|v1 [|v2 [|v3 [|v4 [|v5 [|v6 [|v7 [|v8 [|v9 [|v10 [|v11 [|v12 [|v13 [|v14 [|v15 [|]]]]]]]]]]]]]]]]]; try discriminate LV. unfold entries_upto_1 in HV.
  destruct (factor_near a0 a1 a2 a3 t NQ Ht HN) as (C & K & K0 & K1 & K2 & K3 & NN & QQ). cbv zeta in C, K, K0, K1, K2, K3, NN. rewrite NN. clear NN HN NQ.
  repeat match goal with H : Forall _ (?x :: _) |- _ => let A := fresh "A" in let B := fresh "B" in pose proof (Forall_inv H) as A; apply Forall_inv_tail in H; destruct A as [A B]; pose proof (nb_in x 1 A B); clear A B end. clear HV LV LQ.
  set (r0 := rval a0 / _) in *. set (r1 := rval a1 / _) in *. set (r2 := rval a2 / _) in *. set (r3 := rval a3 / _) in *. clearbody r0 r1 r2 r3.
  assert (N' : r3 * r3 = 1 - r0 * r0 - r1 * r1 - r2 * r2) by lra. clear QQ.
  eexists [_;_;_;_;_;_;_;_;_;_;_;_;_;_;_;_]; split; [brun|]. qfin2. all: qcellw.
Qed.
Lemma C83_matrices_ex : let q := map (fun k => b_lit k 2) [1; 1; -1; 1]%Z in length q = 4%nat /\ Forall number q /\ Rabs (norm (map rval q) - 1) <= 0 * u /\ qmat (qnormalized (map rval q)) = [0; 0; -1; 1; 0; 0; 0; -1; 0].
Proof.
  cbv zeta. split; [reflexivity|]. split; [cbn [map]; repeat apply Forall_cons; try apply Forall_nil; split; reflexivity|]. cbn [map]. rewrite v_h.
  assert (Vm : rval (b_lit (-1) 2) = - (1 / 2)) by (match goal with |- rval ?x = _ => let v := eval vm_compute in x in change x with v end; cbn [rval]; simpl (powerRZ _ _); lra). rewrite Vm.
  assert (N1 : norm [1 / 2; 1 / 2; - (1 / 2); 1 / 2] = 1) by (rewrite rnorm4; match goal with |- sqrt ?x = 1 => replace x with 1 by field end; apply sqrt_1).
  split; [rewrite N1; replace (1 - 1) with 0 by ring; rewrite Rabs_R0; lra|]. unfold qnormalized. destruct (Req_EM_T _ _) as [E|E].
  - exfalso. unfold norm in N1. rewrite E, sqrt_0 in N1. lra.
  - rewrite N1. cbv [qmat qrot qmul qconj quat im re vsub vadd vscale vcross rdot total fold_left firstn skipn at_ nth map combine fst snd List.app].
    repeat match goal with |- (_ :: _) = (_ :: _) => f_equal end; lra.
Qed.
Lemma C83_normalized_ex : let q := map (fun k => b_lit k 1) [1; 1; -1; 1]%Z in Forall number q /\ norm (map rval q) = 2 /\ powerRZ 2 (-22) <= 2 <= powerRZ 2 60 /\ qnormalized (map rval q) = [1 / 2; 1 / 2; - (1 / 2); 1 / 2].
Proof. exact C81_rotatev_ex. Qed.
Lemma C83_look_ex : let q := map (fun k => b_lit k 2) [1; 1; -1; 1]%Z in let eye := map (fun k => b_lit k 1) [0; 1; -1]%Z in Forall number q /\ Rabs (norm (map rval q) - 1) <= 0 * u /\ entries_upto_1 eye /\
  neg (mvec 3 3 (transp 3 3 (qmat (qnormalized (map rval q)))) (map rval eye)) = [-1; 0; 1].
Proof.
  destruct C83_matrices_ex as (_ & A & B & C). cbv zeta in A, B, C. cbv zeta. split; [exact A|]. split; [exact B|]. rewrite C. destruct Proofs.Tests32.v_ints as (V0 & V1 & Vm & _). split.
  - unfold entries_upto_1. cbn [map]. repeat apply Forall_cons; try apply Forall_nil; (split; [split; reflexivity|rewrite ?V0, ?V1, ?Vm; apply Rabs_le; lra]).
  - cbn [map]. rewrite V0, V1, Vm. cbv [transp mvec Rsum neg build flat_map seq ent total fold_right fold_left at_ nth map List.app Nat.mul Nat.add]. repeat match goal with |- (_ :: _) = (_ :: _) => f_equal end; lra.
Qed.
Lemma C83_rotate_ex : let q := map (fun k => b_lit k 2) [1; 1; -1; 1]%Z in let m := map (fun k => b_lit k 1) [0; 1; 0; 0;  -1; 0; 0; 0;  0; 0; 1; 0;  1; -1; 0; 1]%Z in Forall number q /\ Rabs (norm (map rval q) - 1) <= 0 * u /\ length m = 16%nat /\ entries_upto_1 m /\
  mmul 4 (map rval m) (aff (qmat (qnormalized (map rval q))) [0; 0; 0]) = [0; 0; -1; 0;  0; 1; 0; 0;  1; 0; 0; 0;  1; -1; 0; 1].
Proof.
  destruct C83_matrices_ex as (_ & A & B & C). cbv zeta in A, B, C. cbv zeta. split; [exact A|]. split; [exact B|]. rewrite C. destruct Proofs.Tests32.v_ints as (V0 & V1 & Vm & _). split; [reflexivity|]. split.
  - unfold entries_upto_1. cbn [map]. repeat apply Forall_cons; try apply Forall_nil; (split; [split; reflexivity|rewrite ?V0, ?V1, ?Vm; apply Rabs_le; lra]).
  - cbn [map]. rewrite V0, V1, Vm. cbv [aff mmul mulg Rsum build flat_map seq ent total fold_right fold_left at_ nth map List.app Nat.mul Nat.add]. repeat match goal with |- (_ :: _) = (_ :: _) => f_equal end; lra.
Qed.
