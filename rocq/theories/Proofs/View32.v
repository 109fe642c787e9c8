(** * Accuracy of view matrices in single precision (C80) *)

From Coq Require Import String List ZArith Bool Reals Lra Lia Psatz Floats.SpecFloat.
From Flocq Require Import Core.
From Verif Require Import MiniC Sym SymSound Contract SymCall SymTac Tac Cglm B32 RScalar.
From Verif.Spec Require Import Float32 Linear Geometry Clip Camera View32.
From Verif.Proofs Require Import Flo FloErr Ieee IeeeId IeeeErr IeeeNorm ExactSound ApproxSound Layout RTac RExact Ranges.
From Verif.Proofs Require Tests32.
Import ListNotations.
(* props: From Coq Require Import Reals Floats.SpecFloat. *)
(* props: From Verif Require Import B32. *)
(* props: From Verif.Spec Require Import Float32 Linear Geometry Clip Camera View32. *)
Local Open Scope R_scope.

Lemma big_60 : 4 * B60 < big.
Proof. unfold big, B60. rewrite bpow_powerRZ. simpl (IZR radix2). change emax with (Z.of_nat 128). rewrite <- pow_powerRZ. simpl. lra. Qed.
Lemma eta_u : eta <= u / 1000. Proof. pose proof eta_le. unfold u in *. simpl (2 ^ 150)%Z in *. lra. Qed.
Lemma u_small : 0 < u <= / 10000000. Proof. unfold u. lra. Qed.
Lemma tri : forall a b, Rabs (a - b) <= Rabs a + Rabs b.
Proof. intros a b. unfold Rminus. rewrite <- (Rabs_Ropp b). apply Rabs_triang. Qed.
(** a rounded value of size at most [Z] *)
Lemma near_rnd : forall x y Z, inb32 x = true -> (finite x = true -> rval x = rnd y) -> (Rabs (rnd y) < big -> finite x = true) -> Rabs y <= Z <= 2 * B60 ->
  number x /\ Rabs (rval x - y) <= u * Z + eta /\ Rabs (rval x - y) <= u * Rabs y + eta.
Proof.
  intros x y Z V F1 F2 [H1 H2]. destruct (err_any y) as (q & t & Hq & Ht & _ & E). pose proof eta_pos. pose proof eta_u. pose proof u_small. pose proof (Rabs_pos y). pose proof big_60.
  assert (D : Rabs (rnd y - y) <= u * Rabs y + eta).
  { rewrite E. replace (y * (1 + q) + t - y) with (y * q + t) by ring. eapply Rle_trans; [apply Rabs_triang|]. rewrite Rabs_mult, (Rmult_comm u). apply Rplus_le_compat; auto. apply Rmult_le_compat_l; auto. }
  assert (F : finite x = true).
  { apply F2. replace (rnd y) with ((rnd y - y) + y) by ring. eapply Rle_lt_trans; [apply Rabs_triang|]. assert (u * Rabs y <= / 10000000 * Rabs y) by (apply Rmult_le_compat_r; lra). assert (1 < B60) by (unfold B60; lra). lra. }
  split; [split; auto|]. rewrite (F1 F). split; auto. eapply Rle_trans; [exact D|]. apply Rplus_le_compat_r, Rmult_le_compat_l; lra.
Qed.
Lemma mul_near : forall x y X Y, number x -> number y -> Rabs (rval x) <= X -> Rabs (rval y) <= Y -> X * Y <= 2 * B60 ->
  number (fmul x y) /\ Rabs (rval (fmul x y) - rval x * rval y) <= u * (X * Y) + eta.
Proof.
  intros x y X Y Nx Ny HX HY K. destruct (mul_rnd x y Nx Ny) as [F1 F2].
  destruct (near_rnd _ _ (X * Y) (mul_valid x y (proj1 Nx) (proj1 Ny)) F1 F2) as (A & B & _); auto.
  split; auto. rewrite Rabs_mult. apply Rmult_le_compat; auto using Rabs_pos.
Qed.
Lemma add_near : forall x y Z, number x -> number y -> Rabs (rval x + rval y) <= Z -> Z <= 2 * B60 ->
  number (fadd x y) /\ Rabs (rval (fadd x y) - (rval x + rval y)) <= u * Z + eta.
Proof.
  intros x y Z Nx Ny HX K. destruct (add_rnd x y Nx Ny) as [F1 F2].
  destruct (near_rnd _ _ Z (add_valid x y (proj1 Nx) (proj1 Ny)) F1 F2) as (A & B & _); auto.
Qed.
Lemma sub_near : forall x y Z, number x -> number y -> Rabs (rval x - rval y) <= Z -> Z <= 2 * B60 ->
  number (fsub x y) /\ Rabs (rval (fsub x y) - (rval x - rval y)) <= u * Z + eta.
Proof.
  intros x y Z Nx Ny HX K. destruct (sub_rnd x y Nx Ny) as [F1 F2].
  destruct (near_rnd _ _ Z (sub_valid x y (proj1 Nx) (proj1 Ny)) F1 F2) as (A & B & _); auto.
Qed.
(** [x] is within [e] of [r], which is at most 1 *)
Definition nr (e : R) (x : b32) (r : R) : Prop := number x /\ Rabs r <= 1 /\ Rabs (rval x - r) <= e.
Lemma nr_le : forall e x r, nr e x r -> Rabs (rval x) <= 1 + e.
Proof. intros e x r (_ & A & B). replace (rval x) with ((rval x - r) + r) by ring. eapply Rle_trans; [apply Rabs_triang|]. lra. Qed.
Lemma B60_1 : 1000000 < B60. Proof. unfold B60. lra. Qed.
Lemma nr_prod : forall a b x y r s, 0 <= a <= 1 / 8 -> 0 <= b <= 1 / 8 -> nr a x r -> nr b y s ->
  Rabs (rval x * rval y) <= 81 / 64 /\ number (fmul x y) /\ Rabs (rval (fmul x y) - rval x * rval y) <= u * (81 / 64) + eta /\ Rabs (rval x * rval y - r * s) <= 9 / 8 * (a + b).
Proof.
  intros a b x y r s Ha Hb X Y. pose proof (nr_le _ _ _ X) as X1. pose proof (nr_le _ _ _ Y) as Y1. pose proof B60_1. destruct X as (Nx & Xr & Xe), Y as (Ny & Yr & Ye).
  pose proof (Rabs_pos (rval x)). pose proof (Rabs_pos (rval y)). pose proof (Rabs_pos r). pose proof (Rabs_pos s).
  assert (P : Rabs (rval x * rval y) <= 81 / 64). { rewrite Rabs_mult. replace (81 / 64) with (9 / 8 * (9 / 8)) by lra. apply Rmult_le_compat; lra. }
  split; auto. destruct (mul_near x y (9 / 8) (9 / 8) Nx Ny) as [N E]; try lra. split; auto. replace (9 / 8 * (9 / 8)) with (81 / 64) in E by lra. split; auto.
  replace (rval x * rval y - r * s) with (rval x * (rval y - s) + s * (rval x - r)) by ring. eapply Rle_trans; [apply Rabs_triang|]. rewrite !Rabs_mult.
  assert (Rabs (rval x) * Rabs (rval y - s) <= 9 / 8 * b) by (apply Rmult_le_compat; auto using Rabs_pos; lra).
  assert (Rabs s * Rabs (rval x - r) <= 1 * a) by (apply Rmult_le_compat; auto using Rabs_pos; lra). lra.
Qed.
Lemma cross_near : forall a b x1 y2 x2 y1 r1 s2 r2 s1, 0 <= a <= 1 / 8 -> 0 <= b <= 1 / 8 -> nr a x1 r1 -> nr b y2 s2 -> nr a x2 r2 -> nr b y1 s1 ->
  number (fsub (fmul x1 y2) (fmul x2 y1)) /\ Rabs (rval (fsub (fmul x1 y2) (fmul x2 y1)) - (r1 * s2 - r2 * s1)) <= 9 / 4 * (a + b) + 21 / 4 * u.
Proof.
  intros a b x1 y2 x2 y1 r1 s2 r2 s1 Ha Hb X1 Y2 X2 Y1. pose proof eta_u. pose proof eta_pos. pose proof u_small. pose proof B60_1.
  destruct (nr_prod a b _ _ _ _ Ha Hb X1 Y2) as (P1 & N1 & E1 & D1). destruct (nr_prod a b _ _ _ _ Ha Hb X2 Y1) as (P2 & N2 & E2 & D2).
  apply Rabs_le_inv in P1, E1, D1, P2, E2, D2. destruct (sub_near _ _ (82 / 32) N1 N2) as [N E]; [apply Rabs_le; lra|lra|]. split; auto. apply Rabs_le_inv in E. apply Rabs_le. lra.
Qed.
(** a dot product with a vector of size at most [B] *)
Lemma dot_near : forall a x0 x1 x2 r0 r1 r2 y0 y1 y2 B, 0 <= a <= 1 / 8 -> nr a x0 r0 -> nr a x1 r1 -> nr a x2 r2 -> number y0 -> number y1 -> number y2 ->
  1 <= B <= powerRZ 2 40 -> Rabs (rval y0) <= B -> Rabs (rval y1) <= B -> Rabs (rval y2) <= B ->
  let D := fadd (fadd (fmul x0 y0) (fmul x1 y1)) (fmul x2 y2) in
  number D /\ Rabs (rval D - (r0 * rval y0 + r1 * rval y1 + r2 * rval y2)) <= (3 * a + 10 * u) * B.
Proof.
  intros a x0 x1 x2 r0 r1 r2 y0 y1 y2 B Ha X0 X1 X2 N0 N1 N2 HB H0 H1 H2 D. pose proof eta_u. pose proof eta_pos. pose proof u_small.
  assert (B40 : 4 * B <= B60). { replace (powerRZ 2 40) with (IZR (2 ^ 40)) in HB by (rewrite p2Z by lia; reflexivity). simpl in HB. unfold B60. lra. }
  assert (eta <= u * B / 1000) by nra.
  assert (G : forall x r y, nr a x r -> number y -> Rabs (rval y) <= B -> Rabs (rval x * rval y) <= 9 / 8 * B /\ number (fmul x y) /\ Rabs (rval (fmul x y) - rval x * rval y) <= u * (9 / 8 * B) + eta /\ Rabs (rval x * rval y - r * rval y) <= a * B).
  { intros x r y X Ny Hy. pose proof (nr_le _ _ _ X) as Xl. destruct X as (Nx & Xr & Xe). pose proof (Rabs_pos (rval x)). pose proof (Rabs_pos (rval y)).
    split; [rewrite Rabs_mult; apply Rmult_le_compat; lra|]. destruct (mul_near x y (9 / 8) B Nx Ny) as [N E]; try lra. split; auto. split; auto.
    replace (rval x * rval y - r * rval y) with ((rval x - r) * rval y) by ring. rewrite Rabs_mult. apply Rmult_le_compat; auto using Rabs_pos. }
  destruct (G _ _ _ X0 N0 H0) as (A0 & M0 & C0 & D0). destruct (G _ _ _ X1 N1 H1) as (A1 & M1 & C1 & D1). destruct (G _ _ _ X2 N2 H2) as (A2 & M2 & C2 & D2).
  assert (u * B <= / 10000000 * B) by (apply Rmult_le_compat_r; lra).
  apply Rabs_le_inv in A0, C0, D0, A1, C1, D1, A2, C2, D2.
  destruct (add_near _ _ (37 / 16 * B) M0 M1) as [M3 E3]; [apply Rabs_le; lra|lra|]. apply Rabs_le_inv in E3.
  destruct (add_near _ _ (56 / 16 * B) M3 M2) as [M4 E4]; [apply Rabs_le; lra|lra|]. apply Rabs_le_inv in E4. split; auto. unfold D. apply Rabs_le. lra.
Qed.
(** ** Unit vectors of nearby vectors *)
Lemma norm3_pos : forall a b c, 0 <= norm [a; b; c]. Proof. intros. apply sqrt_pos. Qed.
Lemma norm3_sq : forall a b c, norm [a; b; c] * norm [a; b; c] = a * a + b * b + c * c. Proof. intros. rewrite rnorm3, sqrt_sqrt; nra. Qed.
Lemma norm3_comp : forall a b c, Rabs a <= norm [a; b; c] /\ Rabs b <= norm [a; b; c] /\ Rabs c <= norm [a; b; c].
Proof. intros. pose proof (norm3_pos a b c). pose proof (norm3_sq a b c). repeat split; apply comp_le; nra. Qed.
Lemma norm3_lip1 : forall a b c x y z e, Rabs (x - a) <= e -> Rabs (y - b) <= e -> Rabs (z - c) <= e -> norm [x; y; z] <= norm [a; b; c] + 7 / 4 * e.
Proof.
  intros a b c x y z e H1 H2 H3. pose proof (norm3_pos a b c) as P. pose proof (norm3_sq a b c) as Q. pose proof (norm3_pos x y z) as P'. pose proof (norm3_sq x y z) as Q'.
  assert (E : 0 <= e) by (pose proof (Rabs_pos (x - a)); lra). apply Rnot_lt_le. intro L. set (n := norm [a; b; c]) in *. set (m := norm [x; y; z]) in *.
  assert (K : (n + 7 / 4 * e) * (n + 7 / 4 * e) < m * m) by nra. rewrite Q' in K.
  replace x with (a + (x - a)) in K by ring. replace y with (b + (y - b)) in K by ring. replace z with (c + (z - c)) in K by ring.
  apply Rabs_le_inv in H1, H2, H3. set (h := x - a) in *. set (i := y - b) in *. set (j := z - c) in *.
  assert (S : h * h + i * i + j * j <= 3 * (e * e)) by nra.
  assert (S' : Rabs a + Rabs b + Rabs c <= 7 / 4 * n).
  { apply Rnot_lt_le. intro L'. pose proof (Rabs_pos a). pose proof (Rabs_pos b). pose proof (Rabs_pos c).
    assert (a * a = Rabs a * Rabs a) by (rewrite <- Rabs_mult, Rabs_pos_eq; nra). assert (b * b = Rabs b * Rabs b) by (rewrite <- Rabs_mult, Rabs_pos_eq; nra). assert (c * c = Rabs c * Rabs c) by (rewrite <- Rabs_mult, Rabs_pos_eq; nra).
    set (a' := Rabs a) in *. set (b' := Rabs b) in *. set (c' := Rabs c) in *. assert (7 / 4 * n * (7 / 4 * n) < (a' + b' + c') * (a' + b' + c')) by (apply Rmult_le_0_lt_compat; lra).
    pose proof (Rle_0_sqr (a' - b')). pose proof (Rle_0_sqr (b' - c')). pose proof (Rle_0_sqr (a' - c')). unfold Rsqr in *. pose proof (Rle_0_sqr n). unfold Rsqr in *. lra. }
  assert (T : forall p q, Rabs q <= e -> p * q <= Rabs p * e). { intros p q Hq. eapply Rle_trans; [apply Rle_abs|]. rewrite Rabs_mult. apply Rmult_le_compat_l; auto using Rabs_pos. }
  assert (a * h <= Rabs a * e) by (apply T, Rabs_le; lra). assert (b * i <= Rabs b * e) by (apply T, Rabs_le; lra). assert (c * j <= Rabs c * e) by (apply T, Rabs_le; lra).
  assert (e * (Rabs a + Rabs b + Rabs c) <= e * (7 / 4 * n)) by (apply Rmult_le_compat_l; auto). nra.
Qed.
Lemma norm3_lip : forall a b c x y z e, Rabs (x - a) <= e -> Rabs (y - b) <= e -> Rabs (z - c) <= e -> Rabs (norm [x; y; z] - norm [a; b; c]) <= 7 / 4 * e.
Proof.
  intros a b c x y z e H1 H2 H3. pose proof (norm3_lip1 a b c x y z e H1 H2 H3). rewrite Rabs_minus_sym in H1, H2, H3. pose proof (norm3_lip1 x y z a b c e H1 H2 H3). apply Rabs_le. lra.
Qed.
Lemma quot_near : forall x a N M e, 0 < N -> 0 < M -> Rabs x <= M -> Rabs (x - a) <= e -> Rabs (M - N) <= 7 / 4 * e -> Rabs (x / M - a / N) <= 11 / 4 * e / N.
Proof.
  intros x a N M e HN HM B H K. replace (x / M - a / N) with ((x - a) * / N + x / M * ((N - M) * / N)) by (field; lra).
  assert (I : 0 < / N) by (apply Rinv_0_lt_compat; auto). eapply Rle_trans; [apply Rabs_triang|]. rewrite !Rabs_mult, (Rabs_pos_eq (/ N)) by lra. rewrite (Rabs_minus_sym N).
  assert (Rabs (x / M) <= 1). { unfold Rdiv. rewrite Rabs_mult, Rabs_inv, (Rabs_pos_eq M) by lra. apply (Rmult_le_reg_r M); auto. rewrite Rmult_assoc, Rinv_l; lra. }
  assert (Rabs (x - a) * / N <= e * / N) by (apply Rmult_le_compat_r; lra). assert (Rabs (M - N) * / N <= 7 / 4 * e * / N) by (apply Rmult_le_compat_r; lra).
  assert (0 <= Rabs (M - N) * / N) by (apply Rmult_le_pos; [apply Rabs_pos|lra]).
  assert (Rabs (x / M) * (Rabs (M - N) * / N) <= 1 * (Rabs (M - N) * / N)) by (apply Rmult_le_compat_r; auto). unfold Rdiv. lra.
Qed.
(** the rounded unit vector of floats near a real vector *)
Lemma unit_near : forall x0 x1 x2 a0 a1 a2 e, number x0 -> number x1 -> number x2 -> 0 <= e ->
  Rabs (rval x0 - a0) <= e -> Rabs (rval x1 - a1) <= e -> Rabs (rval x2 - a2) <= e -> 2 * / 4194304 <= norm [a0; a1; a2] <= B60 / 2 -> 4 * e <= norm [a0; a1; a2] ->
  let n := fsqrt (fadd (fadd (fmul x0 x0) (fmul x1 x1)) (fmul x2 x2)) in let I := fdiv b1 n in let N := norm [a0; a1; a2] in
  SFltb n eps32 = false /\ nr (61 / 10 * u + 11 / 4 * e / N) (fmul x0 I) (a0 / N) /\ nr (61 / 10 * u + 11 / 4 * e / N) (fmul x1 I) (a1 / N) /\ nr (61 / 10 * u + 11 / 4 * e / N) (fmul x2 I) (a2 / N).
Proof.
  intros x0 x1 x2 a0 a1 a2 e N0 N1 N2 E H0 H1 H2 HN HE n I N. pose proof (norm3_lip _ _ _ _ _ _ e H0 H1 H2) as L. fold N in HN, HE, L.
  set (M := norm [rval x0; rval x1; rval x2]) in *. pose proof (Rabs_le_inv _ _ L) as L'.
  destruct (unit3 x0 x1 x2 N0 N1 N2) as (C & _ & S & _); [cbn [map]; fold M; rewrite p22, b60; lra|].
  cbv zeta in C, S. split; [exact C|]. inversion S as [|? ? ? ? S0 T]; subst. inversion T as [|? ? ? ? S1 T']; subst. inversion T' as [|? ? ? ? S2 _]; subst. clear T T' S. cbn [map] in S0, S1, S2. fold M in S0, S1, S2.
  destruct (norm3_comp (rval x0) (rval x1) (rval x2)) as (B0 & B1 & B2). fold M in B0, B1, B2. destruct (norm3_comp a0 a1 a2) as (A0 & A1 & A2). fold N in A0, A1, A2.
  assert (V : inb32 I = true). { unfold I, n. apply div_valid; [reflexivity|]. apply sqrt_valid. apply add_valid; [apply add_valid|]; apply mul_valid; first [apply N0|apply N1|apply N2]. }
  assert (G : forall x a, number x -> Rabs (rval x) <= M -> Rabs a <= N -> Rabs (rval x - a) <= e ->
     finite (fmul x I) = true /\ Rabs (rval (fmul x I) - rval x / M) <= 6 * u * (rabs x / M) + tiny -> nr (61 / 10 * u + 11 / 4 * e / N) (fmul x I) (a / N)).
  { intros x a Nx Bx Ba He [F D]. split; [split; auto; apply mul_valid; [apply Nx|auto]|]. split.
    - unfold Rdiv. rewrite Rabs_mult, Rabs_inv, (Rabs_pos_eq N) by lra. apply (Rmult_le_reg_r N); [lra|]. rewrite Rmult_assoc, Rinv_l; lra.
    - pose proof (quot_near (rval x) a N M e ltac:(lra) ltac:(lra) Bx He L) as Q. replace (rval (fmul x I) - a / N) with ((rval (fmul x I) - rval x / M) + (rval x / M - a / N)) by ring.
      eapply Rle_trans; [apply Rabs_triang|]. apply Rplus_le_compat; auto. eapply Rle_trans; [exact D|]. unfold rabs.
      assert (Rabs (rval x) / M <= 1). { apply (Rmult_le_reg_r M); [lra|]. unfold Rdiv. rewrite Rmult_assoc, Rinv_l; lra. }
      pose proof tiny_le. pose proof u_small. nra. }
  split; [|split]; apply G; auto.
Qed.
Lemma nr_mono : forall e e' x r, nr e x r -> e <= e' -> nr e' x r. Proof. intros e e' x r (A & B & C) L. split; auto. split; auto. lra. Qed.
Lemma normalized3 : forall a b c, / 4194304 <= norm [a; b; c] -> normalized [a; b; c] = [a / norm [a; b; c]; b / norm [a; b; c]; c / norm [a; b; c]].
Proof. intros a b c H. unfold normalized. destruct (Rlt_dec _ _) as [L|]; [unfold eps in L; lra|]. reflexivity. Qed.
Lemma unit_sq : forall a b c, 0 < norm [a; b; c] -> let N := norm [a; b; c] in a / N * (a / N) + b / N * (b / N) + c / N * (c / N) = 1.
Proof.
  intros a b c H N. pose proof (norm3_sq a b c) as Q. fold N in Q, H. replace (a / N * (a / N) + b / N * (b / N) + c / N * (c / N)) with ((a * a + b * b + c * c) / (N * N)) by (field; lra). rewrite <- Q. field. lra.
Qed.
Lemma cross_1 : forall a b c x y z, a * a + b * b + c * c = 1 -> x * x + y * y + z * z = 1 -> Rabs (b * z - c * y) <= 1 /\ Rabs (c * x - a * z) <= 1 /\ Rabs (a * y - b * x) <= 1.
Proof.
  assert (G : forall a b c d, a * a + b * b <= 1 -> c * c + d * d <= 1 -> Rabs (a * d - b * c) <= 1).
  { intros a b c d H K. pose proof (Rle_0_sqr (a - d)). pose proof (Rle_0_sqr (a + d)). pose proof (Rle_0_sqr (b - c)). pose proof (Rle_0_sqr (b + c)). unfold Rsqr in *. apply Rabs_le. split; lra. }
  intros a b c x y z H K. pose proof (Rle_0_sqr a). pose proof (Rle_0_sqr b). pose proof (Rle_0_sqr c). pose proof (Rle_0_sqr x). pose proof (Rle_0_sqr y). pose proof (Rle_0_sqr z). unfold Rsqr in *.
  split; [|split]; apply G; lra.
Qed.
(** the direction of view *)
Lemma forward_near : forall e0 e1 e2 c0 c1 c2, number e0 -> number e1 -> number e2 -> number c0 -> number c1 -> number c2 ->
  let a0 := rval c0 - rval e0 in let a1 := rval c1 - rval e1 in let a2 := rval c2 - rval e2 in let N := norm [a0; a1; a2] in
  powerRZ 2 (-20) <= N <= powerRZ 2 58 ->
  let x0 := fsub c0 e0 in let x1 := fsub c1 e1 in let x2 := fsub c2 e2 in
  let n := fsqrt (fadd (fadd (fmul x0 x0) (fmul x1 x1)) (fmul x2 x2)) in let I := fdiv b1 n in
  SFltb n eps32 = false /\ nr (9 * u) (fmul x0 I) (a0 / N) /\ nr (9 * u) (fmul x1 I) (a1 / N) /\ nr (9 * u) (fmul x2 I) (a2 / N).
Proof.
  intros e0 e1 e2 c0 c1 c2 E0 E1 E2 C0 C1 C2 a0 a1 a2 N HN x0 x1 x2 n I. rewrite p20 in HN.
  assert (H58 : powerRZ 2 58 <= B60 / 2). { rewrite p2Z by lia. simpl (2 ^ 58)%Z. unfold B60. lra. } pose proof eta_le as He. pose proof eta_pos. simpl (2 ^ 150)%Z in He. pose proof u_small.
  assert (NU : eta <= / 1000 * u * N). { assert (/ 1000 * u * (16 * u) <= / 1000 * u * N) by (apply Rmult_le_compat_l; lra). unfold u in *. lra. }
  destruct (norm3_comp a0 a1 a2) as (A0 & A1 & A2). fold N in A0, A1, A2.
  assert (G : forall c e, number c -> number e -> Rabs (rval c - rval e) <= N -> number (fsub c e) /\ Rabs (rval (fsub c e) - (rval c - rval e)) <= 1001 / 1000 * u * N).
  { intros c e Nc Ne H1. destruct (sub_near c e N Nc Ne H1) as [G1 G2]; [lra|]. split; auto. lra. }
  destruct (G _ _ C0 E0 A0) as [X0 D0]. destruct (G _ _ C1 E1 A1) as [X1 D1]. destruct (G _ _ C2 E2 A2) as [X2 D2].
  assert (N0 : 0 < N) by (unfold u in *; lra). assert (u * N <= / 10000000 * N) by (apply Rmult_le_compat_r; lra).
  destruct (unit_near x0 x1 x2 a0 a1 a2 (1001 / 1000 * u * N) X0 X1 X2) as (K1 & K2 & K3 & K4); auto; fold N; [|unfold u in *; lra|lra|].
  { apply Rmult_le_pos; lra. }
  cbv zeta in K1, K2, K3, K4. fold N in K2, K3, K4. assert (Z : 61 / 10 * u + 11 / 4 * (1001 / 1000 * u * N) / N <= 9 * u) by (replace (11 / 4 * (1001 / 1000 * u * N) / N) with (11 / 4 * (1001 / 1000) * u) by (field; lra); lra).
  split; [exact K1|]. split; [|split]; (eapply nr_mono; [eassumption|exact Z]).
Qed.
(** the direction of a rounded cross product *)
Lemma side_near : forall a b x0 x1 x2 y0 y1 y2 r0 r1 r2 s0 s1 s2 d, nr a x0 r0 -> nr a x1 r1 -> nr a x2 r2 -> nr b y0 s0 -> nr b y1 s1 -> nr b y2 s2 -> 0 <= a -> 0 <= b -> a + b <= 9 * u ->
  let v0 := r1 * s2 - r2 * s1 in let v1 := r2 * s0 - r0 * s2 in let v2 := r0 * s1 - r1 * s0 in let N := norm [v0; v1; v2] in / 4096 <= d <= 1 -> d <= N ->
  let z0 := fsub (fmul x1 y2) (fmul x2 y1) in let z1 := fsub (fmul x2 y0) (fmul x0 y2) in let z2 := fsub (fmul x0 y1) (fmul x1 y0) in
  let n := fsqrt (fadd (fadd (fmul z0 z0) (fmul z1 z1)) (fmul z2 z2)) in let I := fdiv b1 n in
  SFltb n eps32 = false /\ nr (77 * u / d) (fmul z0 I) (v0 / N) /\ nr (77 * u / d) (fmul z1 I) (v1 / N) /\ nr (77 * u / d) (fmul z2 I) (v2 / N).
Proof.
  intros a b x0 x1 x2 y0 y1 y2 r0 r1 r2 s0 s1 s2 d X0 X1 X2 Y0 Y1 Y2 Ha Hb Hab v0 v1 v2 N Hd HN z0 z1 z2 n I. pose proof u_small.
  assert (Ra : 0 <= a <= 1 / 8) by lra. assert (Rb : 0 <= b <= 1 / 8) by lra.
  destruct (cross_near a b x1 y2 x2 y1 _ _ _ _ Ra Rb X1 Y2 X2 Y1) as [Z0 E0]. destruct (cross_near a b x2 y0 x0 y2 _ _ _ _ Ra Rb X2 Y0 X0 Y2) as [Z1 E1]. destruct (cross_near a b x0 y1 x1 y0 _ _ _ _ Ra Rb X0 Y1 X1 Y0) as [Z2 E2].
  fold z0 in Z0, E0. fold z1 in Z1, E1. fold z2 in Z2, E2. fold v0 in E0. fold v1 in E1. fold v2 in E2.
  assert (W : 9 / 4 * (a + b) + 21 / 4 * u <= 51 / 2 * u) by lra.
  assert (Up : N <= 7 / 4 * 2).
  { assert (V : forall p q r s, Rabs p <= 1 -> Rabs q <= 1 -> Rabs r <= 1 -> Rabs s <= 1 -> Rabs (p * q - r * s - 0) <= 2).
    { intros p q r s P Q R S. rewrite Rminus_0_r. eapply Rle_trans; [apply tri|]. rewrite !Rabs_mult. pose proof (Rabs_pos p). pose proof (Rabs_pos q). pose proof (Rabs_pos r). pose proof (Rabs_pos s). nra. }
    pose proof (norm3_lip1 0 0 0 v0 v1 v2 2) as L. assert (Z : norm [0; 0; 0] = 0) by (rewrite rnorm3; replace (0 * 0 + 0 * 0 + 0 * 0) with 0 by ring; apply sqrt_0). rewrite Z in L. unfold N.
    assert (norm [v0; v1; v2] <= 0 + 7 / 4 * 2) by (apply L; apply V; first [apply X0|apply X1|apply X2|apply Y0|apply Y1|apply Y2]). lra. }
  pose proof B60_1.
  destruct (unit_near z0 z1 z2 v0 v1 v2 (51 / 2 * u) Z0 Z1 Z2) as (K1 & K2 & K3 & K4); fold N; try lra.
  cbv zeta in K1, K2, K3, K4. fold N in K2, K3, K4.
  assert (D : 61 / 10 * u + 11 / 4 * (51 / 2 * u) / N <= 77 * u / d).
  { assert (I1 : / N <= / d) by (apply Rinv_le_contravar; lra). assert (I2 : 1 <= / d) by (rewrite <- Rinv_1; apply Rinv_le_contravar; lra). unfold Rdiv. assert (u * / N <= u * / d) by (apply Rmult_le_compat_l; lra). assert (u * 1 <= u * / d) by (apply Rmult_le_compat_l; lra). lra. }
  split; [exact K1|]. split; [|split]; (eapply nr_mono; [eassumption|exact D]).
Qed.
Lemma view_final : forall (lh : bool) x0 x1 x2 s0 s1 s2 u0 u1 u2 f0 f1 f2 S0 S1 S2 U0 U1 U2 F0 F1 F2 a b c B,
  0 <= a <= 1 / 8 -> 0 <= b <= 1 / 8 -> 0 <= c <= 1 / 8 -> nr a s0 S0 -> nr a s1 S1 -> nr a s2 S2 -> nr b u0 U0 -> nr b u1 U1 -> nr b u2 U2 -> nr c f0 F0 -> nr c f1 F1 -> nr c f2 F2 ->
  number x0 -> number x1 -> number x2 -> 1 <= B <= powerRZ 2 40 -> Rabs (rval x0) <= B -> Rabs (rval x1) <= B -> Rabs (rval x2) <= B ->
  let D := fun p q r => fadd (fadd (fmul p x0) (fmul q x1)) (fmul r x2) in let g := fun x => if lh then x else SFopp x in
  view_within [a; b; c] B [[S0; S1; S2]; [U0; U1; U2]; vscale (if lh then 1 else -1) [F0; F1; F2]] [rval x0; rval x1; rval x2]
    [s0; u0; g f0; b_lit 0 1; s1; u1; g f1; b_lit 0 1; s2; u2; g f2; b_lit 0 1; SFopp (D s0 s1 s2); SFopp (D u0 u1 u2); (if lh then SFopp (D f0 f1 f2) else D f0 f1 f2); b_lit 1 1].
Proof.
  intros lh x0 x1 x2 s0 s1 s2 u0 u1 u2 f0 f1 f2 S0 S1 S2 U0 U1 U2 F0 F1 F2 a b c B Ha Hb Hc s0' s1' s2' u0' u1' u2' f0' f1' f2' X0 X1 X2 HB B0 B1 B2 D g.
  destruct (dot_near a s0 s1 s2 S0 S1 S2 x0 x1 x2 B Ha s0' s1' s2' X0 X1 X2 HB B0 B1 B2) as [Ds Es].
  destruct (dot_near b u0 u1 u2 U0 U1 U2 x0 x1 x2 B Hb u0' u1' u2' X0 X1 X2 HB B0 B1 B2) as [Du Eu].
  destruct (dot_near c f0 f1 f2 F0 F1 F2 x0 x1 x2 B Hc f0' f1' f2' X0 X1 X2 HB B0 B1 B2) as [Df Ef].
  fold (D s0 s1 s2) in Ds, Es. fold (D u0 u1 u2) in Du, Eu. fold (D f0 f1 f2) in Df, Ef. set (ds := D s0 s1 s2) in *. set (du := D u0 u1 u2) in *. set (df := D f0 f1 f2) in *.
  destruct Proofs.Tests32.v_ints as (V0 & V1 & _).
  assert (N0 : number (b_lit 0 1)) by (split; reflexivity). assert (N1 : number (b_lit 1 1)) by (split; reflexivity).
  assert (G : forall x X, nr c x X -> number (g x) /\ Rabs (rval (g x) - (if lh then 1 else -1) * X) <= c).
  { intros x X (P & _ & Q). unfold g. destruct lh.
    - split; auto. rewrite Rmult_1_l. auto.
    - split; [apply Proofs.Tests32.opp_number; auto|]. rewrite Proofs.Tests32.opp_value. replace (- rval x - -1 * X) with (- (rval x - X)) by ring. rewrite Rabs_Ropp. auto. }
  assert (O : forall x r e, number x -> Rabs (rval x - r) <= e -> number (SFopp x) /\ Rabs (rval (SFopp x) + r) <= e).
  { intros x r e P Q. split; [apply Proofs.Tests32.opp_number; auto|]. rewrite Proofs.Tests32.opp_value. replace (- rval x + r) with (- (rval x - r)) by ring. rewrite Rabs_Ropp. auto. }
  destruct (G _ _ f0') as [G0 G0']. destruct (G _ _ f1') as [G1 G1']. destruct (G _ _ f2') as [G2 G2']. destruct (O _ _ _ Ds Es) as [Os Os']. destruct (O _ _ _ Du Eu) as [Ou Ou']. destruct (O _ _ _ Df Ef) as [Of Of'].
  assert (T : number (if lh then SFopp df else df) /\ Rabs (rval (if lh then SFopp df else df) + rdot (vscale (if lh then 1 else -1) [F0; F1; F2]) [rval x0; rval x1; rval x2]) <= (3 * c + 10 * u) * B).
  { destruct lh; (split; [assumption|]); cbv [rdot vscale map combine fst snd total fold_right fold_left].
    - match goal with |- Rabs (_ + ?t) <= _ => replace t with (F0 * rval x0 + F1 * rval x1 + F2 * rval x2) by ring end. auto.
    - match goal with |- Rabs (_ + ?t) <= _ => replace t with (- (F0 * rval x0 + F1 * rval x1 + F2 * rval x2)) by ring end. auto. }
  destruct T as [T T']. unfold nr in *.
  split; [reflexivity|]. split.
  { intros i Hi. do 16 (destruct i as [|i]; [cbn [nth]; tauto|]). lia. }
  split.
  { intros i j Hi Hj. do 3 (destruct i as [|i]; [do 3 (destruct j as [|j]; [cbn [nth Nat.mul Nat.add at_ vscale map]; unfold at_; cbn [nth]; tauto|]); lia|]). lia. }
  split.
  { intros i Hi. do 3 (destruct i as [|i]; [cbn [nth Nat.add]; unfold at_; cbn [nth]; first [exact T'|cbv [rdot map combine fst snd total fold_right fold_left];
      match goal with H : Rabs (rval ?x + ?r) <= ?e |- Rabs (rval ?x + ?t) <= ?e => replace t with r by ring; exact H end]|]). lia. }
  split; [|exact V1]. intros j Hj. do 3 (destruct j as [|j]; [exact V0|]). lia.
Qed.
Ltac fall3 := repeat match goal with H : Forall _ (_ :: _) |- _ => inversion_clear H | H : Forall _ [] |- _ => clear H | H : number _ /\ _ |- _ => destruct H end.
Lemma nr_0 : forall x, number x -> Rabs (rval x) <= 1 -> nr 0 x (rval x).
Proof. intros x N H. split; auto. split; auto. rewrite Rminus_diag_eq, Rabs_R0 by auto. lra. Qed.
(** the third axis *)
Lemma top_near : forall a b x0 x1 x2 y0 y1 y2 r0 r1 r2 s0 s1 s2 e, nr a x0 r0 -> nr a x1 r1 -> nr a x2 r2 -> nr b y0 s0 -> nr b y1 s1 -> nr b y2 s2 ->
  0 <= a <= 1 / 8 -> 0 <= b <= 1 / 8 -> r0 * r0 + r1 * r1 + r2 * r2 = 1 -> s0 * s0 + s1 * s1 + s2 * s2 = 1 -> 9 / 4 * (a + b) + 21 / 4 * u <= e ->
  nr e (fsub (fmul x1 y2) (fmul x2 y1)) (r1 * s2 - r2 * s1) /\ nr e (fsub (fmul x2 y0) (fmul x0 y2)) (r2 * s0 - r0 * s2) /\ nr e (fsub (fmul x0 y1) (fmul x1 y0)) (r0 * s1 - r1 * s0).
Proof.
  intros a b x0 x1 x2 y0 y1 y2 r0 r1 r2 s0 s1 s2 e X0 X1 X2 Y0 Y1 Y2 Ra Rb R S E. destruct (cross_1 r0 r1 r2 s0 s1 s2 R S) as (C0 & C1 & C2).
  destruct (cross_near a b x1 y2 x2 y1 _ _ _ _ Ra Rb X1 Y2 X2 Y1) as [Z0 E0]. destruct (cross_near a b x2 y0 x0 y2 _ _ _ _ Ra Rb X2 Y0 X0 Y2) as [Z1 E1]. destruct (cross_near a b x0 y1 x1 y0 _ _ _ _ Ra Rb X0 Y1 X1 Y0) as [Z2 E2].
  split; [|split]; (split; [auto|split; [auto|lra]]).
Qed.
Lemma C80_lookat_ok : forall l lh eye center up d B, length eye = 3%nat -> length center = 3%nat -> length up = 3%nat ->
  Forall (fun x => number x /\ Rabs (rval x) <= B) eye -> Forall number center -> Forall (fun x => number x /\ Rabs (rval x) <= 1) up -> 1 <= B <= powerRZ 2 40 ->
  powerRZ 2 (-20) <= norm (vsub (map rval center) (map rval eye)) <= powerRZ 2 58 ->
  / 4096 <= d <= 1 -> d <= norm (vcross (forward (map rval eye) (map rval center)) (map rval up)) ->
  exists F, computes (B32 l) (lookat_fn lh) [In (fl eye); In (fl center); In (fl up); Out 16] VVoid [fl F] /\
    view_within [77 * u / d; 199 * u / d; 9 * u] B (view_axes lh (map rval eye) (map rval center) (map rval up)) (map rval eye) F.
Proof.
  intros l lh eye center up d B L1 L2 L3 HE HC HU HB HN Hd HS.
  destruct eye as [|e0 [|e1 [|e2 [|]]]]; try discriminate L1. destruct center as [|c0 [|c1 [|c2 [|]]]]; try discriminate L2. destruct up as [|u0 [|u1 [|u2 [|]]]]; try discriminate L3.
  fall3. unfold view_axes, upward, rightward. unfold forward in *. unfold vsub in *. cbn [map combine fst snd] in *.
  destruct (forward_near e0 e1 e2 c0 c1 c2) as (C1 & F0 & F1 & F2); auto. cbv zeta in C1, F0, F1, F2.
  assert (FP : 2 * / 4194304 <= norm [rval c0 - rval e0; rval c1 - rval e1; rval c2 - rval e2]) by (rewrite p20 in HN; unfold u in HN; lra).
  pose proof (unit_sq (rval c0 - rval e0) (rval c1 - rval e1) (rval c2 - rval e2) ltac:(lra)) as FQ. cbv zeta in FQ.
  rewrite normalized3 in * by lra.
  set (R0 := (rval c0 - rval e0) / _) in *. set (R1 := (rval c1 - rval e1) / _) in *. set (R2 := (rval c2 - rval e2) / _) in *.
  pose proof (nr_0 u0 ltac:(auto) ltac:(auto)) as U0. pose proof (nr_0 u1 ltac:(auto) ltac:(auto)) as U1. pose proof (nr_0 u2 ltac:(auto) ltac:(auto)) as U2.
  pose proof u_small as Us. assert (I2 : 1 <= / d <= 4096) by (split; [rewrite <- Rinv_1|replace 4096 with (/ / 4096) by lra]; apply Rinv_le_contravar; lra).
  assert (DU : u <= u * / d <= 4096 * u) by (split; nra). 
  assert (R77 : 0 <= 77 * u / d <= 1 / 8) by (unfold Rdiv, u in *; lra). assert (R199 : 0 <= 199 * u / d <= 1 / 8) by (unfold Rdiv, u in *; lra). assert (R9 : 0 <= 9 * u <= 1 / 8) by lra.
  assert (TE : 9 / 4 * (77 * u / d + 9 * u) + 21 / 4 * u <= 199 * u / d) by (unfold Rdiv; lra). assert (TE' : 9 / 4 * (9 * u + 77 * u / d) + 21 / 4 * u <= 199 * u / d) by lra.
  unfold vcross in *. unfold at_ in *. cbn [nth] in *.
  assert (SW : norm [rval u1 * R2 - rval u2 * R1; rval u2 * R0 - rval u0 * R2; rval u0 * R1 - rval u1 * R0] = norm [R1 * rval u2 - R2 * rval u1; R2 * rval u0 - R0 * rval u2; R0 * rval u1 - R1 * rval u0]) by (rewrite !rnorm3; f_equal; ring).
  destruct lh.
  - destruct (side_near 0 (9 * u) _ _ _ _ _ _ _ _ _ _ _ _ d U0 U1 U2 F0 F1 F2) as (C2 & S0 & S1 & S2); try lra. cbv zeta in C2, S0, S1, S2.
    rewrite normalized3 by lra. pose proof (unit_sq (rval u1 * R2 - rval u2 * R1) (rval u2 * R0 - rval u0 * R2) (rval u0 * R1 - rval u1 * R0) ltac:(lra)) as SQ. cbv zeta in SQ.
    destruct (top_near _ _ _ _ _ _ _ _ _ _ _ _ _ _ _ F0 F1 F2 S0 S1 S2 R9 R77 FQ SQ TE') as (T0 & T1 & T2).
    eexists [_;_;_;_;_;_;_;_;_;_;_;_;_;_;_;_]. split; [brun|]. cbv beta. uset. rewrite ?C1. rewrite ?C2. cbn [nth].
    apply (view_final true); auto.
  - destruct (side_near (9 * u) 0 _ _ _ _ _ _ _ _ _ _ _ _ d F0 F1 F2 U0 U1 U2) as (C2 & S0 & S1 & S2); try lra. cbv zeta in C2, S0, S1, S2.
    rewrite normalized3 by lra. pose proof (unit_sq (R1 * rval u2 - R2 * rval u1) (R2 * rval u0 - R0 * rval u2) (R0 * rval u1 - R1 * rval u0) ltac:(lra)) as SQ. cbv zeta in SQ.
    destruct (top_near _ _ _ _ _ _ _ _ _ _ _ _ _ _ _ S0 S1 S2 F0 F1 F2 R77 R9 SQ FQ TE) as (T0 & T1 & T2).
    eexists [_;_;_;_;_;_;_;_;_;_;_;_;_;_;_;_]. split; [brun|]. cbv beta. uset. rewrite ?C1. rewrite ?C2. cbn [nth].
    apply (view_final false); auto.
Qed.
(** an eye at the origin looking along the x axis *)
Lemma C80_lookat_ex : let eye := map (fun k => b_lit k 1) [0; 0; 0]%Z in let center := map (fun k => b_lit k 1) [2; 0; 0]%Z in let up := map (fun k => b_lit k 1) [0; 1; 0]%Z in
  Forall (fun x => number x /\ Rabs (rval x) <= 1) eye /\ Forall number center /\ Forall (fun x => number x /\ Rabs (rval x) <= 1) up /\
  norm (vsub (map rval center) (map rval eye)) = 2 /\ norm (vcross (forward (map rval eye) (map rval center)) (map rval up)) = 1.
Proof.
  destruct Proofs.Tests32.v_ints as (V0 & V1 & _). assert (V2 : rval (b_lit 2 1) = 2) by (match goal with |- rval ?x = _ => let v := eval vm_compute in x in change x with v end; cbn [rval]; simpl (powerRZ _ _); lra).
  cbv zeta. cbn [map]. assert (N2 : norm [2 - 0; 0 - 0; 0 - 0] = 2) by (rewrite rnorm3; replace ((2 - 0) * (2 - 0) + (0 - 0) * (0 - 0) + (0 - 0) * (0 - 0)) with (2 * 2) by ring; apply sqrt_square; lra).
  repeat split; try (repeat apply Forall_cons; try apply Forall_nil; split; try (split; reflexivity); try reflexivity; rewrite ?V0, ?V1; apply Rabs_le; lra); try (repeat apply Forall_cons; try apply Forall_nil; split; reflexivity); rewrite ?V0, ?V1, ?V2.
  - exact N2.
  - unfold forward. unfold vsub. cbn [map combine fst snd]. rewrite normalized3; rewrite N2; [|lra]. unfold vcross, at_. cbn [nth]. rewrite rnorm3.
    match goal with |- sqrt ?t = 1 => replace t with 1 by field end. apply sqrt_1.
Qed.
