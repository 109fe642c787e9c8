(** * Frustum culling in single precision, from the matrix to the verdict (C82) *)

From Coq Require Import String List ZArith Bool Reals Lra Lia Psatz Floats.SpecFloat.
From Flocq Require Import Core.
From Verif Require Import MiniC Sym SymSound Contract SymCall SymTac Tac Cglm B32 RScalar.
From Verif.Spec Require Import Float32 Linear Geometry Clip Box Frustum Tests32 Cull32.
From Verif.Proofs Require Import Flo FloErr Ieee IeeeId IeeeErr IeeeNorm ExactSound ApproxSound Layout RTac RExact Ranges Box Tests32 View32.
Import ListNotations.
(* props: From Coq Require Import Reals Floats.SpecFloat. *)
(* props: From Verif Require Import B32. *)
(* props: From Verif.Spec Require Import Float32 Linear Geometry Box Frustum Tests32 Cull32. *)
Local Open Scope R_scope.

Lemma eta_120 : 0 < eta <= u * / IZR (2 ^ 120). Proof. split; [apply eta_pos|]. pose proof eta_le as H. unfold u. simpl (2 ^ 120)%Z. simpl (2 ^ 150)%Z in H. lra. Qed.
Lemma rnd_pos : forall r, 0 <= r -> 0 <= rnd r. Proof. intros r H. replace 0 with (rnd 0) by apply fix_0. apply rnd_le. exact H. Qed.
Lemma square_near : forall x Q, number x -> Rabs (rval x) <= Q -> Q <= 16777216 -> number (fmul x x) /\ 0 <= rval (fmul x x) <= 2 * IZR (2 ^ 48).
Proof.
  intros x Q N H HQ. pose proof (Rabs_pos (rval x)). pose proof B60_1. destruct (mul_near x x 16777216 16777216) as [A B]; auto; try lra; [unfold B60; lra|]. split; auto.
  destruct (mul_rnd x x N N) as [F1 _]. split; [rewrite (F1 (proj2 A)); apply rnd_pos; nra|]. apply Rabs_le_inv in B. pose proof eta_u. pose proof u_small. simpl (2 ^ 48)%Z.
  assert (rval x * rval x <= 16777216 * 16777216) by (apply Rabs_le_inv in H; nra). lra.
Qed.
Lemma sum_near : forall x y Z, number x -> number y -> 0 <= rval x -> 0 <= rval y -> rval x + rval y <= Z -> 1 <= Z <= B60 -> number (fadd x y) /\ 0 <= rval (fadd x y) <= 2 * Z.
Proof.
  intros x y Z Nx Ny Px Py H K. destruct (add_near x y Z) as [A B]; auto; [rewrite Rabs_pos_eq; lra|lra|]. split; auto. destruct (add_rnd x y Nx Ny) as [F1 _].
  split; [rewrite (F1 (proj2 A)); apply rnd_pos; lra|]. apply Rabs_le_inv in B. pose proof eta_u. pose proof u_small. nra.
Qed.
(** the length and its inverse *)
Lemma length_near : forall x0 x1 x2 Q, number x0 -> number x1 -> number x2 -> Rabs (rval x0) <= Q -> Rabs (rval x1) <= Q -> Rabs (rval x2) <= Q -> Q <= 16777216 ->
  let n := fsqrt (fadd (fadd (fmul x0 x0) (fmul x1 x1)) (fmul x2 x2)) in let I := fdiv b1 n in
  SFltb n eps32 = false -> number I /\ / IZR (2 ^ 31) <= rval I <= 16777216.
Proof.
  intros x0 x1 x2 Q N0 N1 N2 H0 H1 H2 HQ n I T.
  destruct (square_near x0 Q) as [M0 P0]; auto. destruct (square_near x1 Q) as [M1 P1]; auto. destruct (square_near x2 Q) as [M2 P2]; auto.
  destruct (sum_near (fmul x0 x0) (fmul x1 x1) (4 * IZR (2 ^ 48))) as [S1 V1]; auto; try lra; [simpl (2 ^ 48)%Z; unfold B60; lra|].
  destruct (sum_near (fadd (fmul x0 x0) (fmul x1 x1)) (fmul x2 x2) (10 * IZR (2 ^ 48))) as [S2 V2]; auto; try lra; [simpl (2 ^ 48)%Z; unfold B60; lra|].
  destruct (sqrt_rnd _ S2 (proj1 V2)) as [Fn Vn]. fold n in Fn, Vn.
  assert (Nn : number n) by (split; auto; apply sqrt_valid; apply S2).
  pose proof (lt_value n eps32 Nn (proj1 eps_val)) as L. rewrite (proj2 eps_val) in L. rewrite T in L.
  assert (Ln : / 8388608 <= rval n) by (apply Rnot_lt_le; intros G; apply L in G; discriminate G). clear L.
  assert (Un : rval n <= IZR (2 ^ 30)).
  { rewrite Vn. match type of Vn with _ = rnd (sqrt ?t) => set (s := t) in * end. assert (Q1 : sqrt s <= IZR (2 ^ 29)). { rewrite <- (sqrt_square (IZR (2 ^ 29))) by (simpl; lra). apply sqrt_le_1; [lra| |]; simpl (2 ^ 29)%Z; simpl (2 ^ 48)%Z in V2; lra. }
    pose proof (sqrt_pos s). destruct (near_rnd n (sqrt s) (IZR (2 ^ 29))) as (_ & D & _); [apply Nn|intros; exact Vn|intros; exact Fn| |].
    - rewrite Rabs_pos_eq by auto. split; auto. simpl (2 ^ 29)%Z. unfold B60. lra.
    - rewrite Vn in D. apply Rabs_le_inv in D. pose proof eta_u. pose proof u_small. simpl (2 ^ 29)%Z in *. simpl (2 ^ 30)%Z. lra. }
  assert (B1 : number b1 /\ rval b1 = 1). { split; [split; vm_compute; reflexivity|]. destruct v_ints as (_ & V1' & _). exact V1'. }
  destruct (div_rnd b1 n (proj1 B1) Nn) as [G1 G2]; [lra|]. fold I in G1, G2. rewrite (proj2 B1) in G1, G2.
  assert (R : / IZR (2 ^ 30) <= 1 / rval n <= 8388608). { unfold Rdiv. rewrite Rmult_1_l. split; [apply Rinv_le_contravar; auto; lra|]. replace 8388608 with (/ / 8388608) by lra. apply Rinv_le_contravar; auto; lra. }
  assert (R0 : 0 < / IZR (2 ^ 30)) by (simpl (2 ^ 30)%Z; lra).
  destruct (near_rnd I (1 / rval n) 8388608) as (NI & _ & D); auto; [apply div_valid; [reflexivity|apply Nn]|rewrite Rabs_pos_eq by lra; unfold B60; lra|].
  split; auto. rewrite (Rabs_pos_eq (1 / rval n)) in D by lra. apply Rabs_le_inv in D. pose proof eta_120 as Et. pose proof u_small. simpl (2 ^ 30)%Z in *. simpl (2 ^ 31)%Z. simpl (2 ^ 120)%Z in Et. unfold u in *. nra.
Qed.
Lemma prod_near : forall a b x c E K, Rabs (a - b) <= E -> Rabs c <= K -> x = a * c - b * c -> Rabs x <= E * K.
Proof. intros a b x c E K H1 H2 ->. replace (a * c - b * c) with ((a - b) * c) by ring. rewrite Rabs_mult. apply Rmult_le_compat; auto using Rabs_pos. Qed.
(** a component of a normalised plane *)
Lemma comp_near : forall x I q C J, number x -> number I -> rval I = J -> / IZR (2 ^ 31) <= J <= 16777216 -> / IZR (2 ^ 40) <= C -> C <= IZR (2 ^ 30) ->
  Rabs q <= 2 * C -> Rabs (rval x - q) <= 2 * u * C + eta ->
  number (fmul x I) /\ Rabs (rval (fmul x I) - q * J) <= 401 / 100 * u * (C * J) /\ Rabs (rval (fmul x I)) <= 2001 / 1000 * (C * J) /\ eta <= u * (C * J) / 1000.
Proof.
  intros x I q C J Nx NI VJ HJ C1 C2 Hq Hx. pose proof eta_120 as Et. pose proof u_small as Us.
  assert (CJ : / IZR (2 ^ 71) <= C * J). { replace (/ IZR (2 ^ 71)) with (/ IZR (2 ^ 40) * / IZR (2 ^ 31)) by (simpl (2 ^ 71)%Z; simpl (2 ^ 40)%Z; simpl (2 ^ 31)%Z; lra). apply Rmult_le_compat; try lra; simpl; lra. }
  assert (E1 : eta <= u * (C * J) / 100000). { simpl (2 ^ 71)%Z in CJ. simpl (2 ^ 120)%Z in Et. unfold u in *. lra. }
  assert (E2 : eta <= u * C / 100000). { simpl (2 ^ 40)%Z in C1. simpl (2 ^ 120)%Z in Et. unfold u in *. lra. }
  assert (Cp : 0 < C) by (simpl (2 ^ 40)%Z in C1; lra). assert (Jp : 0 < J) by (simpl (2 ^ 31)%Z in HJ; lra).
  assert (Bx : Rabs (rval x) <= (2 + 3 * u) * C). { apply Rabs_le_inv in Hx. apply Rabs_le_inv in Hq. apply Rabs_le. split; nra. }
  assert (UB : C * J <= IZR (2 ^ 54)). { replace (IZR (2 ^ 54)) with (IZR (2 ^ 30) * 16777216) by (simpl (2 ^ 54)%Z; simpl (2 ^ 30)%Z; lra). apply Rmult_le_compat; lra. }
  simpl (2 ^ 54)%Z in UB. assert (CP : 0 < C * J) by (apply Rmult_lt_0_compat; auto).
  destruct (mul_near x I ((2 + 3 * u) * C) J Nx NI Bx) as [N D]; [rewrite VJ, Rabs_pos_eq; lra| |]. { replace ((2 + 3 * u) * C * J) with ((2 + 3 * u) * (C * J)) by ring. unfold B60, u. lra. }
  rewrite VJ in D. pose proof (prod_near _ _ _ J _ J Hx ltac:(rewrite Rabs_pos_eq; lra) eq_refl) as D2.
  assert (E3 : (2 * u * C + eta) * J <= 2001 / 1000 * u * (C * J)). { assert (eta * J <= u * C / 100000 * J) by (apply Rmult_le_compat_r; lra). replace ((2 * u * C + eta) * J) with (2 * u * (C * J) + eta * J) by ring. replace (u * C / 100000 * J) with (u * (C * J) / 100000) in * by field. nra. }
  assert (E4 : u * ((2 + 3 * u) * C * J) <= 2001 / 1000 * u * (C * J)). { replace (u * ((2 + 3 * u) * C * J)) with (u * (2 + 3 * u) * (C * J)) by ring. apply Rmult_le_compat_r; [lra|]. unfold u. lra. }
  assert (UC : 0 < u * (C * J)) by (apply Rmult_lt_0_compat; lra).
  assert (D3 : Rabs (rval (fmul x I) - q * J) <= 401 / 100 * u * (C * J)). { apply Rabs_le_inv in D. apply Rabs_le_inv in D2. apply Rabs_le. split; lra. }
  split; auto. split; auto. split; [|lra].
  assert (Rabs (q * J) <= 2 * (C * J)). { rewrite Rabs_mult, (Rabs_pos_eq J) by lra. nra. }
  replace (rval (fmul x I)) with ((rval (fmul x I) - q * J) + q * J) by ring. eapply Rle_trans; [apply Rabs_triang|]. unfold u in *. lra.
Qed.
(** the sum that is compared *)
Lemma sum3_near : forall n0 n1 n2 c0 c1 c2 a B K, number n0 -> number n1 -> number n2 -> number c0 -> number c1 -> number c2 ->
  Rabs (rval n0) <= 2001 / 1000 * a -> Rabs (rval n1) <= 2001 / 1000 * a -> Rabs (rval n2) <= 2001 / 1000 * a -> Rabs (rval c0) <= B -> Rabs (rval c1) <= B -> Rabs (rval c2) <= B ->
  a * B = K -> 0 < K <= IZR (2 ^ 54) -> eta <= u * K / 1000 ->
  number (fadd (fadd (fmul n0 c0) (fmul n1 c1)) (fmul n2 c2)) /\
  Rabs (rval (fadd (fadd (fmul n0 c0) (fmul n1 c1)) (fmul n2 c2)) - (rval n0 * rval c0 + rval n1 * rval c1 + rval n2 * rval c2)) <= 1602 / 100 * u * K.
Proof.
  intros n0 n1 n2 c0 c1 c2 a B K N0 N1 N2 C0 C1 C2 H0 H1 H2 G0 G1 G2 E [K0 K1] Et. pose proof u_small as Us. simpl (2 ^ 54)%Z in K1.
  assert (E2 : 2001 / 1000 * a * B = 2001 / 1000 * K) by (rewrite <- E; ring). assert (UK : 0 < u * K) by (apply Rmult_lt_0_compat; lra). assert (UKs : u * K <= K / 10000000) by (unfold u in *; lra).
  assert (P : forall n c, number n -> number c -> Rabs (rval n) <= 2001 / 1000 * a -> Rabs (rval c) <= B -> number (fmul n c) /\ Rabs (rval (fmul n c) - rval n * rval c) <= 2002 / 1000 * (u * K) /\ Rabs (rval n * rval c) <= 2001 / 1000 * K).
  { intros n c Nn Nc Hn Hc. destruct (mul_near n c (2001 / 1000 * a) B) as [X Y]; auto; [rewrite E2; unfold B60; lra|]. rewrite E2 in Y. split; auto. split; [lra|].
    rewrite Rabs_mult, <- E2. apply Rmult_le_compat; auto using Rabs_pos. }
  destruct (P n0 c0) as (M0 & D0 & S0); auto. destruct (P n1 c1) as (M1 & D1 & S1); auto. destruct (P n2 c2) as (M2 & D2 & S2); auto. clear P.
  apply Rabs_le_inv in D0, D1, D2, S0, S1, S2.
  destruct (add_near (fmul n0 c0) (fmul n1 c1) (4003 / 1000 * K)) as [A1 B1]; auto; [apply Rabs_le; lra|unfold B60; lra|]. apply Rabs_le_inv in B1.
  destruct (add_near (fadd (fmul n0 c0) (fmul n1 c1)) (fmul n2 c2) (6004 / 1000 * K)) as [A2 B2]; auto; [apply Rabs_le; lra|unfold B60; lra|]. apply Rabs_le_inv in B2.
  split; auto. apply Rabs_le. lra.
Qed.
Lemma plane_cull : forall A B x0 x1 x2 x3 q0 q1 q2 q3 b, / 1048576 <= A <= 1048576 -> / 1048576 <= B -> A * B <= IZR (2 ^ 30) ->
  number x0 -> number x1 -> number x2 -> number x3 -> Rabs q0 <= 2 * A -> Rabs q1 <= 2 * A -> Rabs q2 <= 2 * A -> Rabs q3 <= 2 * (A * B) ->
  Rabs (rval x0 - q0) <= 2 * u * A + eta -> Rabs (rval x1 - q1) <= 2 * u * A + eta -> Rabs (rval x2 - q2) <= 2 * u * A + eta -> Rabs (rval x3 - q3) <= 2 * u * (A * B) + eta ->
  length b = 6%nat -> bounded_by B b ->
  let n := fsqrt (fadd (fadd (fmul x0 x0) (fmul x1 x1)) (fmul x2 x2)) in let I := fdiv b1 n in let c x := if SFltb n eps32 then b0 else fmul x I in
  (forall p, length p = 3%nat -> in_aabb 3 (map rval b) p -> 33 * u * (A * B) <= rdot [q0; q1; q2] p + q3 -> reaches32 b [c x0; c x1; c x2; c x3] = true) /\
  (SFltb n eps32 = false -> proper 3 (map rval b) -> reaches32 b [c x0; c x1; c x2; c x3] = true ->
    exists p, length p = 3%nat /\ in_aabb 3 (map rval b) p /\ - (33 * u * (A * B)) <= rdot [q0; q1; q2] p + q3).
Proof.
  intros A B x0 x1 x2 x3 q0 q1 q2 q3 b HA HB HAB N0 N1 N2 N3 Q0 Q1 Q2 Q3 X0 X1 X2 X3 Lb Bb n I c.
  destruct b as [|l0 [|l1 [|l2 [|h0 [|h1 [|h2 [|]]]]]]]; try discriminate Lb. unfold bounded_by in Bb.
  assert (Bd : forall q i, (i < 3)%nat -> number (selb q (nth i [l0; l1; l2] b0) (nth i [h0; h1; h2] b0)) /\ Rabs (rval (selb q (nth i [l0; l1; l2] b0) (nth i [h0; h1; h2] b0))) <= B).
  { fall3. intros q i Hi. destruct i as [|[|[|]]]; [| | |lia]; cbn [nth]; apply (sel_case (fun v => number v /\ Rabs (rval v) <= B)); auto. }
  pose proof (fun q => Bd q 0%nat ltac:(lia)) as Bd0. pose proof (fun q => Bd q 1%nat ltac:(lia)) as Bd1. pose proof (fun q => Bd q 2%nat ltac:(lia)) as Bd2. cbn [nth] in Bd0, Bd1, Bd2. clear Bd.
  destruct (SFltb n eps32) eqn:T.
  - split; [|intros; discriminate]. intros p Lp HP HL. unfold c. unfold reaches32, dp32. cbn [nth].
    destruct (Bd0 b0) as [M0 _]. destruct (Bd1 b0) as [M1 _]. destruct (Bd2 b0) as [M2 _].
    change (SFltb (b_lit 0 1) b0) with false. cbn iota. change (selb b0 l0 h0) with l0 in M0. change (selb b0 l1 h1) with l1 in M1. change (selb b0 l2 h2) with l2 in M2.
    assert (Z : forall x, number x -> number (fmul b0 x) /\ rval (fmul b0 x) = 0).
    { intros x Nx. assert (Nb : number b0) by (split; reflexivity). destruct (mul_rnd b0 x Nb Nx) as [F1 F2]. change (rval b0) with 0 in *. rewrite Rmult_0_l in *.
      assert (R0 : rnd 0 = 0) by apply fix_0. rewrite R0, Rabs_R0 in *. pose proof big_60. pose proof B60_1. assert (F : finite (fmul b0 x) = true) by (apply F2; lra). split; [split; auto; apply mul_valid; [reflexivity|apply Nx]|auto]. }
    assert (Za : forall x y, number x -> number y -> rval x = 0 -> rval y = 0 -> number (fadd x y) /\ rval (fadd x y) = 0).
    { intros x y Nx Ny Ex Ey. destruct (add_rnd x y Nx Ny) as [F1 F2]. rewrite Ex, Ey, Rplus_0_l in *. assert (R0 : rnd 0 = 0) by apply fix_0. rewrite R0, Rabs_R0 in *. pose proof big_60. pose proof B60_1.
      assert (F : finite (fadd x y) = true) by (apply F2; lra). split; [split; auto; apply add_valid; [apply Nx|apply Ny]|auto]. }
    destruct (Z l0 M0) as [Y0 V0]. destruct (Z l1 M1) as [Y1 V1]. destruct (Z l2 M2) as [Y2 V2].
    destruct (Za _ _ Y0 Y1 V0 V1) as [Y3 V3]. destruct (Za _ _ Y3 Y2 V3 V2) as [Y4 V4].
    rewrite negb_true_iff. pose proof (lt_value _ (SFopp b0) Y4 ltac:(split; reflexivity)) as L. rewrite V4 in L. change (rval (SFopp b0)) with 0 in L.
    apply not_true_is_false. intros G. apply (Rlt_irrefl 0), L. exact G.
  - assert (Nx : forall x q, Rabs (rval x - q) <= 2 * u * A + eta -> Rabs q <= 2 * A -> Rabs (rval x) <= 16777216).
    { intros x q E1 E2. apply Rabs_le_inv in E1, E2. pose proof eta_u. pose proof u_small. apply Rabs_le. unfold u in *. lra. }
    destruct (length_near x0 x1 x2 16777216) as [NI HI]; eauto; [lra|]. fold n I in NI, HI.
    assert (A1 : / IZR (2 ^ 40) <= A) by (simpl (2 ^ 40)%Z; lra). assert (A2 : A <= IZR (2 ^ 30)) by (simpl (2 ^ 30)%Z; lra).
    assert (AB : / IZR (2 ^ 40) <= A * B). { replace (/ IZR (2 ^ 40)) with (/ 1048576 * / 1048576) by (simpl (2 ^ 40)%Z; lra). apply Rmult_le_compat; lra. }
    set (J := rval I) in *. assert (Jp : 0 < J) by (simpl (2 ^ 31)%Z in HI; lra).
    destruct (comp_near x0 I q0 A J) as (Y0 & D0 & S0 & _); auto. destruct (comp_near x1 I q1 A J) as (Y1 & D1 & S1 & _); auto. destruct (comp_near x2 I q2 A J) as (Y2 & D2 & S2 & _); auto.
    destruct (comp_near x3 I q3 (A * B) J) as (Y3 & D3 & S3 & Et); auto.
    unfold c. set (n0 := fmul x0 I) in *. set (n1 := fmul x1 I) in *. set (n2 := fmul x2 I) in *. set (n3 := fmul x3 I) in *.
    set (K := A * B * J) in *. assert (Kp : 0 < K) by (unfold K; apply Rmult_lt_0_compat; auto; simpl (2 ^ 40)%Z in AB; lra).
    assert (Ku : K <= IZR (2 ^ 54)). { unfold K. replace (IZR (2 ^ 54)) with (IZR (2 ^ 30) * 16777216) by (simpl (2 ^ 54)%Z; simpl (2 ^ 30)%Z; lra). simpl (2 ^ 40)%Z in AB. apply Rmult_le_compat; lra. }
    destruct (sum3_near n0 n1 n2 (selb n0 l0 h0) (selb n1 l1 h1) (selb n2 l2 h2) (A * J) B K) as [ND DD]; auto; try apply Bd0; try apply Bd1; try apply Bd2; [unfold K; ring|].
    change (fadd (fadd (fmul n0 (selb n0 l0 h0)) (fmul n1 (selb n1 l1 h1))) (fmul n2 (selb n2 l2 h2))) with (dp32 [l0; l1; l2; h0; h1; h2] [n0; n1; n2; n3]) in ND, DD.
    rewrite !sel_val in DD by auto. apply Rabs_le_inv in DD.
    assert (T' : reaches32 [l0; l1; l2; h0; h1; h2] [n0; n1; n2; n3] = true <-> - rval n3 <= rval (dp32 [l0; l1; l2; h0; h1; h2] [n0; n1; n2; n3])).
    { unfold reaches32. cbn [nth]. rewrite negb_true_iff. pose proof (lt_value _ _ ND (opp_number n3 Y3)) as L. rewrite opp_value in L.
      split; intros H; [apply Rnot_lt_le; intros G; apply L in G; exact (eq_true_false_abs _ G H)|]. apply not_true_is_false. intros G. apply (Rlt_not_le _ _ (proj1 L G)). exact H. }
    set (dp := rval (dp32 _ _)) in *. clear ND Bd0 Bd1 Bd2 S0 S1 S2 S3 X0 X1 X2 X3 NI HI Nx Ku Et. clearbody dp n0 n1 n2 n3. clear c. clearbody J. clear I T. clearbody n. clear n Lb.
    assert (Cx : forall m q x, Rabs (m - q * J) <= 401 / 100 * u * (A * J) -> Rabs x <= B -> Rabs (m * x - J * (q * x)) <= 401 / 100 * (u * K)).
    { intros m q x G1 G2. assert (G0 : m * x - J * (q * x) = m * x - q * J * x) by ring. pose proof (prod_near m (q * J) (m * x - J * (q * x)) x _ B G1 G2 G0) as G. replace (401 / 100 * u * (A * J) * B) with (401 / 100 * (u * K)) in G by (unfold K; ring). exact G. }
    assert (UK : u * (A * B) * J = u * K) by (unfold K; ring). assert (UKp : 0 < u * K) by (apply Rmult_lt_0_compat; [apply u_small|auto]).
    rewrite (Rmult_assoc (401 / 100) u K) in D3. rewrite (Rmult_assoc (1602 / 100) u K) in DD. apply Rabs_le_inv in D3.
    assert (In : forall lo hi x, number lo -> number hi -> Rabs (rval lo) <= B -> Rabs (rval hi) <= B -> rval lo <= x <= rval hi -> Rabs x <= B).
    { intros lo hi x _ _ F1 F2 F3. apply Rabs_le_inv in F1, F2. apply Rabs_le. lra. }
    fall3. split.
    + intros p Lp HP HL. apply T'. clear T'. un3 p x y z. rewrite in3 in HP. revert HP HL. lcbv. intros (P0 & P1 & P2) HL.
      pose proof (sel_max (rval n0) _ _ x P0). pose proof (sel_max (rval n1) _ _ y P1). pose proof (sel_max (rval n2) _ _ z P2).
      pose proof (Cx _ _ x D0 ltac:(refine (In _ _ _ _ _ _ _ P0); assumption)) as C0. pose proof (Cx _ _ y D1 ltac:(refine (In _ _ _ _ _ _ _ P1); assumption)) as C1. pose proof (Cx _ _ z D2 ltac:(refine (In _ _ _ _ _ _ _ P2); assumption)) as C2. apply Rabs_le_inv in C0, C1, C2.
      assert (HJ : 33 * (u * K) <= J * (q0 * x) + J * (q1 * y) + J * (q2 * z) + q3 * J).
      { rewrite <- UK. apply (Rmult_le_compat_r J) in HL; [|lra]. lra. }
      lra.
    + intros _ P Hr. apply T' in Hr. clear T'. rewrite proper3 in P. revert P. lcbv. intros (P0 & P1 & P2).
      pose proof (sel_in (rval n0) _ _ P0) as I0. pose proof (sel_in (rval n1) _ _ P1) as I1. pose proof (sel_in (rval n2) _ _ P2) as I2.
      exists [selr (rval n0) (rval l0) (rval h0); selr (rval n1) (rval l1) (rval h1); selr (rval n2) (rval l2) (rval h2)].
      split; [reflexivity|]. rewrite in3. lcbv. split; [tauto|].
      set (x := selr (rval n0) _ _) in *. set (y := selr (rval n1) _ _) in *. set (z := selr (rval n2) _ _) in *.
      pose proof (Cx _ _ x D0 ltac:(refine (In _ _ _ _ _ _ _ I0); assumption)) as C0. pose proof (Cx _ _ y D1 ltac:(refine (In _ _ _ _ _ _ _ I1); assumption)) as C1. pose proof (Cx _ _ z D2 ltac:(refine (In _ _ _ _ _ _ _ I2); assumption)) as C2. apply Rabs_le_inv in C0, C1, C2.
      apply (Rmult_le_reg_r J); auto. lra.
Qed.
(** the planes as computed *)
Definition raw32 (M : list b32) (j : nat) : list b32 :=
  let e c r := nth (4 * c + r) M b0 in let op x y := if Nat.even j then fadd x y else fsub x y in map (fun c => op (e c 3%nat) (e c (Nat.div2 j))) [0; 1; 2; 3]%nat.
Definition norm32 (q : list b32) : list b32 :=
  let x i := nth i q b0 in let n := fsqrt (fadd (fadd (fmul (x 0%nat) (x 0%nat)) (fmul (x 1%nat) (x 1%nat))) (fmul (x 2%nat) (x 2%nat))) in
  let c x := if SFltb n eps32 then b0 else fmul x (fdiv b1 n) in [c (x 0%nat); c (x 1%nat); c (x 2%nat); c (x 3%nat)].
Lemma planes32 : forall l M, length M = 16%nat ->
  computes (B32 l) glm_frustum_planes [In (fl M); Out 24] VVoid [fl (concat (map (fun j => norm32 (raw32 M j)) (seq 0 6)))].
Proof.
  intros l M L. unlists. cbv [raw32 norm32 concat map seq nth Nat.even Nat.div2 List.app Nat.mul Nat.add]. brun. all: reflexivity.
Qed.
Lemma raw_near : forall (f : bool) x y C, number x -> number y -> Rabs (rval x) <= C -> Rabs (rval y) <= C -> C <= IZR (2 ^ 30) ->
  number (if f then fadd x y else fsub x y) /\ Rabs (rval (if f then fadd x y else fsub x y) - (if f then rval x + rval y else rval x - rval y)) <= 2 * u * C + eta /\
  Rabs (if f then rval x + rval y else rval x - rval y) <= 2 * C.
Proof.
  intros f x y C Nx Ny Hx Hy HC. simpl (2 ^ 30)%Z in HC. apply Rabs_le_inv in Hx, Hy.
  destruct f; [destruct (add_near x y (2 * C)) as [N D]|destruct (sub_near x y (2 * C)) as [N D]]; auto; try (apply Rabs_le; lra); try (unfold B60; lra).
  all: split; auto; split; [lra|apply Rabs_le; lra].
Qed.
Ltac rawn f A A2 := match goal with HAB : A * ?B <= _ |- number (_ ?a0 ?b0) /\ number (_ ?a1 ?b1) /\ number (_ ?a2 ?b2) /\ number (_ ?a3 ?b3) /\ _ =>
  destruct (raw_near f a0 b0 A) as (? & ? & ?); [assumption..|]; destruct (raw_near f a1 b1 A) as (? & ? & ?); [assumption..|];
  destruct (raw_near f a2 b2 A) as (? & ? & ?); [assumption..|]; destruct (raw_near f a3 b3 (A * B)) as (? & ? & ?); [assumption..|]; cbn iota in *; repeat (apply conj; [assumption|]); assumption end.
Lemma side_cull : forall A B M b j, cull_sizes A B M b -> (j < 6)%nat ->
  (forall p, length p = 3%nat -> in_aabb 3 (map rval b) p -> 33 * u * (A * B) <= depth (map rval M) j p -> reaches32 b (norm32 (raw32 M j)) = true) /\
  (powerRZ 2 (-22) + 4 * u * A <= norm (firstn 3 (clip_plane (map rval M) j)) -> proper 3 (map rval b) -> reaches32 b (norm32 (raw32 M j)) = true ->
    exists p, length p = 3%nat /\ in_aabb 3 (map rval b) p /\ - (33 * u * (A * B)) <= depth (map rval M) j p).
Proof.
  intros A B M b j (LM & B1 & B2 & Lb & Bb & HA & HB & HAB) Hj.
  assert (E20 : powerRZ 2 20 = 1048576) by (change 20%Z with (Z.of_nat 20); rewrite <- pow_powerRZ; simpl; lra).
  assert (E30 : powerRZ 2 30 = IZR (2 ^ 30)) by (change 30%Z with (Z.of_nat 30) at 1; rewrite <- pow_powerRZ; simpl; lra).
  rewrite E30 in HAB. rewrite E20 in HA. rewrite p20 in HA, HB. replace (16 * u) with (/ 1048576) in HA, HB by (unfold u; lra). rewrite p22.
  assert (RQ : exists x0 x1 x2 x3 q0 q1 q2 q3, raw32 M j = [x0; x1; x2; x3] /\ clip_plane (map rval M) j = [q0; q1; q2; q3] /\
    number x0 /\ number x1 /\ number x2 /\ number x3 /\ Rabs q0 <= 2 * A /\ Rabs q1 <= 2 * A /\ Rabs q2 <= 2 * A /\ Rabs q3 <= 2 * (A * B) /\
    Rabs (rval x0 - q0) <= 2 * u * A + eta /\ Rabs (rval x1 - q1) <= 2 * u * A + eta /\ Rabs (rval x2 - q2) <= 2 * u * A + eta /\ Rabs (rval x3 - q3) <= 2 * u * (A * B) + eta).
  { do 16 (destruct M as [|? M]; [discriminate LM|]). destruct M; [|discriminate LM]. unfold bounded_by in B1, B2. cbn [firstn skipn] in B1, B2. fall3.
    assert (A2 : A <= IZR (2 ^ 30)) by (simpl (2 ^ 30)%Z; lra).
    unfold raw32, clip_plane, row4, ent, vadd, vsub. cbv zeta.
    do 6 (destruct j as [|j]; [cbv [map nth Nat.mul Nat.add Nat.even Nat.div2 combine fst snd]; do 8 eexists; split; [reflexivity|]; split; [reflexivity|];
      match goal with |- number (SFadd _ _ _ _) /\ _ => rawn true A A2 | |- number (SFsub _ _ _ _) /\ _ => rawn false A A2 end|]). lia. }
  destruct RQ as (x0 & x1 & x2 & x3 & q0 & q1 & q2 & q3 & ER & EQ & N0 & N1 & N2 & N3 & Q0 & Q1 & Q2 & Q3 & X0 & X1 & X2 & X3).
  destruct (plane_cull A B x0 x1 x2 x3 q0 q1 q2 q3 b) as [K1 K2]; auto. unfold depth. rewrite EQ, ER. cbn [firstn]. unfold at_. cbn [nth].
  split; [exact K1|]. intros HN HP HR. apply K2; auto. clear K1 K2 HR.
  pose proof (norm3_lip _ _ _ _ _ _ _ X0 X1 X2) as L. apply Rabs_le_inv in L. pose proof eta_120 as Et. pose proof u_small as Us.
  assert (E2 : eta <= u * A / 1000). { simpl (2 ^ 120)%Z in Et. unfold u in *. lra. }
  destruct (norm3_comp q0 q1 q2) as (_ & _ & _). assert (U2 : norm [rval x0; rval x1; rval x2] <= B60).
  { assert (norm [q0; q1; q2] <= 4 * A). { rewrite rnorm3. rewrite <- (sqrt_square (4 * A)) by lra. apply sqrt_le_1_alt. apply Rabs_le_inv in Q0, Q1, Q2. nra. }
    unfold B60. assert (u * A <= A) by (unfold u; lra). lra. }
  destruct (unit3 x0 x1 x2 N0 N1 N2) as (C & _); [|exact C]. cbn [map]. rewrite p22, b60. split; auto. nra.
Qed.
Lemma parts6 : forall f : nat -> list b32, (forall j, length (f j) = 4%nat) -> length (concat (map f (seq 0 6))) = 24%nat /\
  forall j, (j < 6)%nat -> firstn 4 (skipn (4 * j) (concat (map f (seq 0 6)))) = f j.
Proof.
  intros f H. cbn [map seq concat]. pose proof (H 0%nat) as H0. pose proof (H 1%nat) as H1. pose proof (H 2%nat) as H2. pose proof (H 3%nat) as H3. pose proof (H 4%nat) as H4. pose proof (H 5%nat) as H5.
  assert (G : forall j, (j < 6)%nat -> f j = nth j [f 0%nat; f 1%nat; f 2%nat; f 3%nat; f 4%nat; f 5%nat] []) by (intros j Hj; do 6 (destruct j as [|j]; [reflexivity|]); lia).
  split; [rewrite !app_length, H0, H1, H2, H3, H4, H5; reflexivity|]. intros j Hj. rewrite (G j Hj). clear G H.
  generalize dependent (f 0%nat). generalize dependent (f 1%nat). generalize dependent (f 2%nat). generalize dependent (f 3%nat). generalize dependent (f 4%nat). generalize dependent (f 5%nat). intros.
  repeat match goal with H : length ?l = 4%nat |- _ => destruct l as [|? [|? [|? [|? [|]]]]]; try discriminate H; clear H end.
  do 6 (destruct j as [|j]; [reflexivity|]). lia.
Qed.
Lemma all_seq : forall (f g : nat -> bool) n, (forall j, (j < n)%nat -> f j = g j) -> forallb f (seq 0 n) = forallb g (seq 0 n).
Proof.
  intros f g n H. assert (E : forall k m, (k + m <= n)%nat -> forallb f (seq k m) = forallb g (seq k m)); [|apply E; lia].
  intros k m. revert k. induction m as [|m IH]; intros k L; [reflexivity|]. cbn [seq forallb]. rewrite (H k ltac:(lia)), IH; [reflexivity|lia].
Qed.
Lemma verdict : forall l A B M b, cull_sizes A B M b -> exists P v, length P = 24%nat /\
  computes (B32 l) glm_frustum_planes [In (fl M); Out 24] VVoid [fl P] /\ computes (B32 l) glm_aabb_frustum [In (fl b); In (fl P)] (VB v) [] /\
  v = forallb (fun j => reaches32 b (norm32 (raw32 M j))) (seq 0 6).
Proof.
  intros l A B M b (LM & _ & _ & Lb & _). destruct (parts6 (fun j => norm32 (raw32 M j)) (fun j => eq_refl)) as [LP PP].
  pose proof (planes32 l M LM) as C1. set (P := concat (map (fun j => norm32 (raw32 M j)) (seq 0 6))) in *. clearbody P. exists P, (forallb (fun j => reaches32 b (firstn 4 (skipn (4 * j) P))) (seq 0 6)). split; [exact LP|]. split; [exact C1|].
  split; [apply (frustum32 l b P); auto|]. apply all_seq. intros j Hj. cbv beta. rewrite (PP j Hj). reflexivity.
Qed.
(** a box with a point that is visible by a margin is kept *)
Lemma C82_kept_ok : forall l A B M b p, cull_sizes A B M b -> length p = 3%nat -> in_aabb 3 (map rval b) p ->
  (forall j, (j < 6)%nat -> 33 * u * (A * B) <= depth (map rval M) j p) ->
  exists P, length P = 24%nat /\ computes (B32 l) glm_frustum_planes [In (fl M); Out 24] VVoid [fl P] /\ computes (B32 l) glm_aabb_frustum [In (fl b); In (fl P)] (VB true) [].
Proof.
  intros l A B M b p HS Lp HP HD. destruct (verdict l A B M b HS) as (P & v & LP & C1 & C2 & V). exists P. split; auto. split; auto.
  replace true with v; auto. rewrite V. apply forallb_forall. intros j Hj. apply in_seq in Hj. destruct (side_cull A B M b j HS ltac:(lia)) as [K _]. apply (K p); auto. apply HD. lia.
Qed.
(** a box that is kept is not outside any plane, by more than the margin, unless the plane has nearly no direction *)
Lemma C82_verdict_ok : forall l A B M b, cull_sizes A B M b -> proper 3 (map rval b) -> exists P v, length P = 24%nat /\
  computes (B32 l) glm_frustum_planes [In (fl M); Out 24] VVoid [fl P] /\ computes (B32 l) glm_aabb_frustum [In (fl b); In (fl P)] (VB v) [] /\
  ((forall j, (j < 6)%nat -> exists p, length p = 3%nat /\ in_aabb 3 (map rval b) p /\ 33 * u * (A * B) <= depth (map rval M) j p) -> v = true) /\
  (v = true -> forall j, (j < 6)%nat -> powerRZ 2 (-22) + 4 * u * A <= norm (firstn 3 (clip_plane (map rval M) j)) ->
     exists p, length p = 3%nat /\ in_aabb 3 (map rval b) p /\ - (33 * u * (A * B)) <= depth (map rval M) j p).
Proof.
  intros l A B M b HS HP. destruct (verdict l A B M b HS) as (P & v & LP & C1 & C2 & V). exists P, v. split; auto. split; auto. split; auto. split.
  - intros H. rewrite V. apply forallb_forall. intros j Hj. apply in_seq in Hj. destruct (H j ltac:(lia)) as (p & Lp & Ip & Dp). destruct (side_cull A B M b j HS ltac:(lia)) as [K _]. apply (K p); auto.
  - intros Hv j Hj HN. rewrite V in Hv. rewrite forallb_forall in Hv. destruct (side_cull A B M b j HS Hj) as [_ K]. apply K; auto. apply Hv. apply in_seq. lia.
Qed.
(** a box of side 5 at the origin and the identity matrix: the point (1/2, 1/2, 1/2) is visible by the margin *)
Lemma C82_verdict_ex : let M := map (fun k => b_lit k 1) [1; 0; 0; 0; 0; 1; 0; 0; 0; 0; 1; 0; 0; 0; 0; 1]%Z in let b := map (fun k => b_lit k 1) [0; 0; 0; 5; 5; 5]%Z in
  cull_sizes 1 5 M b /\ proper 3 (map rval b) /\ in_aabb 3 (map rval b) [1 / 2; 1 / 2; 1 / 2] /\
  forall j, (j < 6)%nat -> 33 * u * (1 * 5) <= depth (map rval M) j [1 / 2; 1 / 2; 1 / 2] /\ norm (firstn 3 (clip_plane (map rval M) j)) = 1.
Proof.
  destruct v_ints as (V0 & V1 & _ & V5). intros M b. unfold M, b. unfold cull_sizes, bounded_by. cbn [map firstn skipn].
  assert (NN : forall k, List.In k [0; 1; 5]%Z -> number (b_lit k 1)) by (intros k [<-|[<-|[<-|[]]]]; split; reflexivity).
  split; [|split; [|split]].
  - rewrite p20. change 20%Z with (Z.of_nat 20). change 30%Z with (Z.of_nat 30). rewrite <- !pow_powerRZ. unfold u. simpl (2 ^ 20). simpl (2 ^ 30).
    repeat split; try lra; repeat apply Forall_cons; try apply Forall_nil; (split; [apply NN; cbn; auto|rewrite ?V0, ?V1, ?V5; apply Rabs_le; lra]).
  - rewrite proper3. lcbv. rewrite V0, V5. lra.
  - rewrite in3. lcbv. rewrite V0, V5. lra.
  - intros j Hj. unfold depth. rewrite V0, V1. do 6 (destruct j as [|j]; [lcbv; cbv [clip_plane row4]; lcbv; unfold u; split; [lra|]; match goal with |- sqrt ?t = 1 => replace t with 1 by ring end; apply sqrt_1|]). lia.
Qed.
Lemma C82_kept_ex : let M := map (fun k => b_lit k 1) [1; 0; 0; 0; 0; 1; 0; 0; 0; 0; 1; 0; 0; 0; 0; 1]%Z in let b := map (fun k => b_lit k 1) [0; 0; 0; 5; 5; 5]%Z in
  cull_sizes 1 5 M b /\ in_aabb 3 (map rval b) [1 / 2; 1 / 2; 1 / 2] /\ forall j, (j < 6)%nat -> 33 * u * (1 * 5) <= depth (map rval M) j [1 / 2; 1 / 2; 1 / 2].
Proof. destruct C82_verdict_ex as (A & _ & B & C). split; [exact A|]. split; [exact B|]. intros j Hj. apply C. exact Hj. Qed.
