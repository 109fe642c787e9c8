(** * Long products of rotations drift slowly *)

From Coq Require Import String List ZArith Bool Lia Reals Lra Psatz Floats.SpecFloat.
From Flocq Require Import Core.Raux.
From Verif Require Import MiniC Contract RScalar B32 Cglm Tac.
From Verif.Gen Require Import struct_mat4.
From Verif.Spec Require Import Float32 Types Linear Arrays Affine Euler Exact Approx Drift.
From Verif.Proofs Require Import RTac Flo Chain AffTac Euler ExactSound ApproxSound ExactAll ApproxAll ApproxEx.
Import ListNotations.
(* props: From Coq Require Import ZArith Reals Floats.SpecFloat. *)
(* props: From Verif Require Import B32. *)
(* props: From Verif.Gen Require Import struct_mat4. *)
(* props: From Verif.Spec Require Import Linear Arrays Float32 Affine Euler Exact Approx Drift. *)
Local Open Scope R_scope.

(** ** Rows *)

Definition n2 (a b c d : R) : R := a * a + b * b + c * c + d * d.
Lemma n2_pos : forall a b c d, 0 <= n2 a b c d.
Proof. intros. unfold n2. nra. Qed.
Lemma cs4 : forall a b c d x y z w, (a * x + b * y + c * z + d * w) * (a * x + b * y + c * z + d * w) <= n2 a b c d * n2 x y z w.
Proof.
  intros. unfold n2. pose proof (Rle_0_sqr (a * y - b * x)). pose proof (Rle_0_sqr (a * z - c * x)). pose proof (Rle_0_sqr (a * w - d * x)).
  pose proof (Rle_0_sqr (b * z - c * y)). pose proof (Rle_0_sqr (b * w - d * y)). pose proof (Rle_0_sqr (c * w - d * z)). unfold Rsqr in *. lra.
Qed.
Lemma sqle : forall x y, 0 <= y -> x * x <= y * y -> x <= y.
Proof. intros. destruct (Rle_dec x y); auto. nra. Qed.
(** the triangle inequality, with bounds in place of roots *)
Lemma tri : forall a b c d x y z w s t, 0 <= s -> 0 <= t -> n2 a b c d <= s * s -> n2 x y z w <= t * t -> n2 (a + x) (b + y) (c + z) (d + w) <= (s + t) * (s + t).
Proof.
  intros a b c d x y z w s t S T H K. pose proof (cs4 a b c d x y z w) as C. set (p := a * x + b * y + c * z + d * w) in *.
  assert (P : p <= s * t). { apply sqle; [nra|]. pose proof (n2_pos a b c d). pose proof (n2_pos x y z w). nra. }
  unfold n2 in *. unfold p in P. nra.
Qed.
Lemma dot_rows : forall p0 p1 p2 p3 q0 q1 q2 q3 a0 a1 a2 a3 a4 a5 a6 a7 a8 a9 a10 a11 a12 a13 a14 a15,
  a0 * a0 + a4 * a4 + a8 * a8 + a12 * a12 = 1 -> a1 * a1 + a5 * a5 + a9 * a9 + a13 * a13 = 1 ->
  a2 * a2 + a6 * a6 + a10 * a10 + a14 * a14 = 1 -> a3 * a3 + a7 * a7 + a11 * a11 + a15 * a15 = 1 ->
  a0 * a1 + a4 * a5 + a8 * a9 + a12 * a13 = 0 -> a0 * a2 + a4 * a6 + a8 * a10 + a12 * a14 = 0 -> a0 * a3 + a4 * a7 + a8 * a11 + a12 * a15 = 0 ->
  a1 * a2 + a5 * a6 + a9 * a10 + a13 * a14 = 0 -> a1 * a3 + a5 * a7 + a9 * a11 + a13 * a15 = 0 -> a2 * a3 + a6 * a7 + a10 * a11 + a14 * a15 = 0 ->
  (p0 * a0 + p1 * a1 + p2 * a2 + p3 * a3) * (q0 * a0 + q1 * a1 + q2 * a2 + q3 * a3) +
  (p0 * a4 + p1 * a5 + p2 * a6 + p3 * a7) * (q0 * a4 + q1 * a5 + q2 * a6 + q3 * a7) +
  (p0 * a8 + p1 * a9 + p2 * a10 + p3 * a11) * (q0 * a8 + q1 * a9 + q2 * a10 + q3 * a11) +
  (p0 * a12 + p1 * a13 + p2 * a14 + p3 * a15) * (q0 * a12 + q1 * a13 + q2 * a14 + q3 * a15) = p0 * q0 + p1 * q1 + p2 * q2 + p3 * q3.
Proof.
  intros p0 p1 p2 p3 q0 q1 q2 q3 a0 a1 a2 a3 a4 a5 a6 a7 a8 a9 a10 a11 a12 a13 a14 a15 G0 G1 G2 G3 H1 H2 H3 H4 H5 H6.
  transitivity (p0 * q0 * (a0 * a0 + a4 * a4 + a8 * a8 + a12 * a12) + p1 * q1 * (a1 * a1 + a5 * a5 + a9 * a9 + a13 * a13) +
    p2 * q2 * (a2 * a2 + a6 * a6 + a10 * a10 + a14 * a14) + p3 * q3 * (a3 * a3 + a7 * a7 + a11 * a11 + a15 * a15) +
    (p0 * q1 + p1 * q0) * (a0 * a1 + a4 * a5 + a8 * a9 + a12 * a13) + (p0 * q2 + p2 * q0) * (a0 * a2 + a4 * a6 + a8 * a10 + a12 * a14) +
    (p0 * q3 + p3 * q0) * (a0 * a3 + a4 * a7 + a8 * a11 + a12 * a15) + (p1 * q2 + p2 * q1) * (a1 * a2 + a5 * a6 + a9 * a10 + a13 * a14) +
    (p1 * q3 + p3 * q1) * (a1 * a3 + a5 * a7 + a9 * a11 + a13 * a15) + (p2 * q3 + p3 * q2) * (a2 * a3 + a6 * a7 + a10 * a11 + a14 * a15)); [ring|].
  rewrite G0, G1, G2, G3, H1, H2, H3, H4, H5, H6. ring.
Qed.
Lemma abs_sum : forall a b c d s, 0 <= s -> n2 a b c d <= s * s -> Rabs a + Rabs b + Rabs c + Rabs d <= 2 * s.
Proof.
  intros a b c d s S H. apply sqle; [lra|]. pose proof (cs4 (Rabs a) (Rabs b) (Rabs c) (Rabs d) 1 1 1 1) as C.
  replace (n2 (Rabs a) (Rabs b) (Rabs c) (Rabs d)) with (n2 a b c d) in C.
  2:{ unfold n2. rewrite <- !Rabs_mult. rewrite !Rabs_pos_eq by nra. reflexivity. }
  unfold n2 in *. nra.
Qed.
Lemma one_le : forall a b c d s, 0 <= s -> n2 a b c d <= s * s -> Rabs a <= s /\ Rabs b <= s /\ Rabs c <= s /\ Rabs d <= s.
Proof. intros a b c d s S H. unfold n2 in H. repeat split; apply sqle; auto; rewrite <- Rabs_mult, Rabs_pos_eq; nra. Qed.
Lemma unit_row : forall a b c d, a * a + b * b + c * c + d * d = 1 -> Rabs a <= 1 /\ Rabs b <= 1 /\ Rabs c <= 1 /\ Rabs d <= 1.
Proof. intros. apply one_le; [lra|]. unfold n2. lra. Qed.
Lemma four : forall a b c d s, 0 <= s -> Rabs a <= s -> Rabs b <= s -> Rabs c <= s -> Rabs d <= s -> n2 a b c d <= (2 * s) * (2 * s).
Proof.
  intros a b c d s S A B C D. assert (X : forall x, Rabs x <= s -> x * x <= s * s). { intros x L. apply Rabs_le_inv in L. nra. }
  apply X in A, B, C, D. unfold n2. lra.
Qed.
Lemma lin4 : forall f0 f1 f2 f3 x0 x1 x2 x3 d, Rabs f0 + Rabs f1 + Rabs f2 + Rabs f3 <= 5 / 2 -> 0 <= d ->
  Rabs x0 <= d -> Rabs x1 <= d -> Rabs x2 <= d -> Rabs x3 <= d -> Rabs (f0 * x0 + f1 * x1 + f2 * x2 + f3 * x3) <= 5 / 2 * d.
Proof.
  intros. apply Rle_trans with (Rabs f0 * Rabs x0 + Rabs f1 * Rabs x1 + Rabs f2 * Rabs x2 + Rabs f3 * Rabs x3).
  - rewrite <- !Rabs_mult. eapply Rle_trans; [apply Rabs_triang|]. apply Rplus_le_compat_r. eapply Rle_trans; [apply Rabs_triang|]. apply Rplus_le_compat_r. apply Rabs_triang.
  - pose proof (Rabs_pos f0). pose proof (Rabs_pos f1). pose proof (Rabs_pos f2). pose proof (Rabs_pos f3). nra.
Qed.
(** one row of one product: [p] exact row, [f] float row, [a] orthogonal matrix, [m] the floats near it, [g] the rounded product *)
Lemma row : forall s d e p0 p1 p2 p3 f0 f1 f2 f3 g0 g1 g2 g3 a0 a1 a2 a3 a4 a5 a6 a7 a8 a9 a10 a11 a12 a13 a14 a15
  m0 m1 m2 m3 m4 m5 m6 m7 m8 m9 m10 m11 m12 m13 m14 m15,
  0 <= s -> s <= 1 / 4 -> 0 <= d -> 0 <= e ->
  p0 * p0 + p1 * p1 + p2 * p2 + p3 * p3 <= 1 -> n2 (f0 - p0) (f1 - p1) (f2 - p2) (f3 - p3) <= s * s ->
  a0 * a0 + a4 * a4 + a8 * a8 + a12 * a12 = 1 -> a1 * a1 + a5 * a5 + a9 * a9 + a13 * a13 = 1 ->
  a2 * a2 + a6 * a6 + a10 * a10 + a14 * a14 = 1 -> a3 * a3 + a7 * a7 + a11 * a11 + a15 * a15 = 1 ->
  a0 * a1 + a4 * a5 + a8 * a9 + a12 * a13 = 0 -> a0 * a2 + a4 * a6 + a8 * a10 + a12 * a14 = 0 -> a0 * a3 + a4 * a7 + a8 * a11 + a12 * a15 = 0 ->
  a1 * a2 + a5 * a6 + a9 * a10 + a13 * a14 = 0 -> a1 * a3 + a5 * a7 + a9 * a11 + a13 * a15 = 0 -> a2 * a3 + a6 * a7 + a10 * a11 + a14 * a15 = 0 ->
  Rabs (m0 - a0) <= d -> Rabs (m1 - a1) <= d -> Rabs (m2 - a2) <= d -> Rabs (m3 - a3) <= d ->
  Rabs (m4 - a4) <= d -> Rabs (m5 - a5) <= d -> Rabs (m6 - a6) <= d -> Rabs (m7 - a7) <= d ->
  Rabs (m8 - a8) <= d -> Rabs (m9 - a9) <= d -> Rabs (m10 - a10) <= d -> Rabs (m11 - a11) <= d ->
  Rabs (m12 - a12) <= d -> Rabs (m13 - a13) <= d -> Rabs (m14 - a14) <= d -> Rabs (m15 - a15) <= d ->
  Rabs (g0 - (f0 * m0 + f1 * m1 + f2 * m2 + f3 * m3)) <= e -> Rabs (g1 - (f0 * m4 + f1 * m5 + f2 * m6 + f3 * m7)) <= e ->
  Rabs (g2 - (f0 * m8 + f1 * m9 + f2 * m10 + f3 * m11)) <= e -> Rabs (g3 - (f0 * m12 + f1 * m13 + f2 * m14 + f3 * m15)) <= e ->
  n2 (g0 - (p0 * a0 + p1 * a1 + p2 * a2 + p3 * a3)) (g1 - (p0 * a4 + p1 * a5 + p2 * a6 + p3 * a7))
     (g2 - (p0 * a8 + p1 * a9 + p2 * a10 + p3 * a11)) (g3 - (p0 * a12 + p1 * a13 + p2 * a14 + p3 * a15)) <= (s + (5 * d + 2 * e)) * (s + (5 * d + 2 * e)).
Proof.
  intros s d e p0 p1 p2 p3 f0 f1 f2 f3 g0 g1 g2 g3 a0 a1 a2 a3 a4 a5 a6 a7 a8 a9 a10 a11 a12 a13 a14 a15
    m0 m1 m2 m3 m4 m5 m6 m7 m8 m9 m10 m11 m12 m13 m14 m15 S0 S4 D0 E0 P E.
  intros G0 G1 G2 G3 H1 H2 H3 H4 H5 H6 M0 M1 M2 M3 M4 M5 M6 M7 M8 M9 M10 M11 M12 M13 M14 M15 K0 K1 K2 K3.
  assert (SF : Rabs f0 + Rabs f1 + Rabs f2 + Rabs f3 <= 5 / 2).
  { pose proof (abs_sum _ _ _ _ _ S0 E) as X. pose proof (abs_sum p0 p1 p2 p3 1 ltac:(lra) ltac:(unfold n2; lra)) as Y.
    assert (Z : forall x y, Rabs x <= Rabs y + Rabs (x - y)). { intros x y. replace x with (y + (x - y)) at 1 by ring. apply Rabs_triang. }
    pose proof (Z f0 p0). pose proof (Z f1 p1). pose proof (Z f2 p2). pose proof (Z f3 p3). lra. }
  assert (N1 := dot_rows (f0 - p0) (f1 - p1) (f2 - p2) (f3 - p3) (f0 - p0) (f1 - p1) (f2 - p2) (f3 - p3) _ _ _ _ _ _ _ _ _ _ _ _ _ _ _ _ G0 G1 G2 G3 H1 H2 H3 H4 H5 H6).
  assert (N2 := four _ _ _ _ (5 / 2 * d) ltac:(lra) (lin4 f0 f1 f2 f3 _ _ _ _ d SF D0 M0 M1 M2 M3) (lin4 f0 f1 f2 f3 _ _ _ _ d SF D0 M4 M5 M6 M7)
    (lin4 f0 f1 f2 f3 _ _ _ _ d SF D0 M8 M9 M10 M11) (lin4 f0 f1 f2 f3 _ _ _ _ d SF D0 M12 M13 M14 M15)).
  assert (N3 := four _ _ _ _ e E0 K0 K1 K2 K3).
  replace (2 * (5 / 2 * d)) with (5 * d) in N2 by field.
  assert (N4 := tri _ _ _ _ _ _ _ _ (5 * d) (2 * e) ltac:(lra) ltac:(lra) N2 N3).
  fold (n2 (f0 - p0) (f1 - p1) (f2 - p2) (f3 - p3)) in N1. rewrite <- N1 in E.
  assert (N5 := tri _ _ _ _ _ _ _ _ s (5 * d + 2 * e) S0 ltac:(lra) E N4).
  eapply Rle_trans; [|exact N5]. right. unfold n2. ring.
Qed.
Lemma rows : forall A, orthogonal A -> length A = 16%nat /\ forall r q, (r < 4)%nat -> (q < 4)%nat ->
  nth r A 0 * nth q A 0 + nth (4 + r) A 0 * nth (4 + q) A 0 + nth (8 + r) A 0 * nth (8 + q) A 0 + nth (12 + r) A 0 * nth (12 + q) A 0 = if Nat.eqb r q then 1 else 0.
Proof.
  intros A [L H]. split; auto. unlists.
  cbv [mmul mulg transp mid build flat_map seq map app ent nth Nat.mul Nat.add Nat.eqb Rsum total fold_left] in H. injection H as H0 H1 H2 H3 H4 H5 H6 H7 H8 H9 H10 H11 H12 H13 H14 H15.
  intros r q R4 Q4. destruct r as [|[|[|[|r]]]]; try lia; destruct q as [|[|[|[|q]]]]; try lia; cbv [nth Nat.add Nat.eqb]; lra.
Qed.
Lemma rows_ok : forall A, length A = 16%nat -> (forall r q, (r < 4)%nat -> (q < 4)%nat ->
  nth r A 0 * nth q A 0 + nth (4 + r) A 0 * nth (4 + q) A 0 + nth (8 + r) A 0 * nth (8 + q) A 0 + nth (12 + r) A 0 * nth (12 + q) A 0 = if Nat.eqb r q then 1 else 0) -> orthogonal A.
Proof.
  intros A L H. split; auto. unlists.
  cbv [mmul mulg transp mid build flat_map seq map app ent nth Nat.mul Nat.add Nat.eqb Rsum total fold_left].
  repeat match goal with |- cons _ _ = cons _ _ => apply f_equal2 end; try reflexivity.
  all: [> specialize (H 0 0)%nat | specialize (H 1 0)%nat | specialize (H 2 0)%nat | specialize (H 3 0)%nat
        | specialize (H 0 1)%nat | specialize (H 1 1)%nat | specialize (H 2 1)%nat | specialize (H 3 1)%nat
        | specialize (H 0 2)%nat | specialize (H 1 2)%nat | specialize (H 2 2)%nat | specialize (H 3 2)%nat
        | specialize (H 0 3)%nat | specialize (H 1 3)%nat | specialize (H 2 3)%nat | specialize (H 3 3)%nat ];
    specialize (H ltac:(lia) ltac:(lia)); cbv [nth Nat.add Nat.eqb] in H; exact H.
Qed.
Lemma orthogonal_mul : forall P A, orthogonal P -> orthogonal A -> orthogonal (mmul 4 P A).
Proof.
  intros P A HP HA. apply rows in HP, HA. destruct HP as [LP HP], HA as [LA HA]. apply rows_ok; [reflexivity|].
  intros r q R4 Q4. rewrite <- (HP r q R4 Q4).
  assert (G := fun i j Hi Hj => HA i j Hi Hj).
  pose proof (G 0 0 ltac:(lia) ltac:(lia))%nat as G0. pose proof (G 1 1 ltac:(lia) ltac:(lia))%nat as G1. pose proof (G 2 2 ltac:(lia) ltac:(lia))%nat as G2. pose proof (G 3 3 ltac:(lia) ltac:(lia))%nat as G3.
  pose proof (G 0 1 ltac:(lia) ltac:(lia))%nat as H1. pose proof (G 0 2 ltac:(lia) ltac:(lia))%nat as H2. pose proof (G 0 3 ltac:(lia) ltac:(lia))%nat as H3.
  pose proof (G 1 2 ltac:(lia) ltac:(lia))%nat as H4. pose proof (G 1 3 ltac:(lia) ltac:(lia))%nat as H5. pose proof (G 2 3 ltac:(lia) ltac:(lia))%nat as H6.
  clear G HA HP. cbn [Nat.add Nat.eqb] in *.
  pose proof (dot_rows (nth r P 0) (nth (4 + r) P 0) (nth (8 + r) P 0) (nth (12 + r) P 0) (nth q P 0) (nth (4 + q) P 0) (nth (8 + q) P 0) (nth (12 + q) P 0)
    _ _ _ _ _ _ _ _ _ _ _ _ _ _ _ _ G0 G1 G2 G3 H1 H2 H3 H4 H5 H6) as D.
  unlists. destruct r as [|[|[|[|r]]]]; try lia; destruct q as [|[|[|[|q]]]]; try lia;
    cbv [mmul mulg build flat_map seq map app ent nth Nat.mul Nat.add Rsum total fold_left] in D |- *; exact D.
Qed.

(** ** Products *)

Definition rclose (s : R) (F P : list R) : Prop := forall r, (r < 4)%nat ->
  n2 (nth r F 0 - nth r P 0) (nth (4 + r) F 0 - nth (4 + r) P 0) (nth (8 + r) F 0 - nth (8 + r) P 0) (nth (12 + r) F 0 - nth (12 + r) P 0) <= s * s.
Lemma round_mul : forall l A B, length A = 16%nat -> length B = 16%nat -> Forall number A -> Forall number B ->
  Forall (fun r => Rabs r <= 5 / 4) (map rval A) -> Forall (fun r => Rabs r <= 5 / 4) (map rval B) ->
  Forall2 (within (powerRZ 2 (-20))) (fmul4 (B32 l) A B) (mmul 4 (map rval A) (map rval B)).
Proof.
  intros l A B LA LB NA NB UA UB.
  assert (W : forall X, Forall number X -> Forall2 (within 0) X (map rval X)).
  { induction 1; cbn [map]; constructor; auto. split; auto. rewrite Rminus_diag_eq, Rabs_R0; auto; lra. }
  apply (mat_near (5 / 4) 0 (powerRZ 2 (-20)) (EK (5 * 2 ^ 28) 0) (2 ^ 10)); [ | | |auto..].
  - intros x y N M E. split; auto. cbn [mg er]. split; [|lra]. eapply Rle_trans; [exact M|]. right.
    replace (IZR (5 * 2 ^ 28)) with (5 / 4 * IZR unit) by (change (5 * 2 ^ 28)%Z with 1342177280%Z; change unit with 1073741824%Z; lra). rewrite Rmult_assoc, sc_unit. lra.
  - rewrite d20. lra.
  - vm_cast_no_check (eq_refl true).
Qed.
Lemma F2both : forall A B (P : A -> B -> Prop) x y a b, Forall2 P (x :: a) (y :: b) -> P x y /\ Forall2 P a b.
Proof. intros. inversion H. auto. Qed.
Lemma p19 : powerRZ 2 (-19) = 2 * powerRZ 2 (-20).
Proof. replace 2 with (powerRZ 2 1) at 2 by (rewrite powerRZ_1; reflexivity). rewrite <- p2plus. reflexivity. Qed.
Lemma step : forall l s d F P M A, 0 <= s -> s <= 1 / 4 -> 0 <= d -> d <= 1 / 4 -> orthogonal P -> orthogonal A -> length F = 16%nat -> Forall number F ->
  rclose s (map rval F) P -> Forall2 (within d) M A ->
  length (fmul4 (B32 l) F M) = 16%nat /\ Forall number (fmul4 (B32 l) F M) /\ rclose (s + (5 * d + powerRZ 2 (-19))) (map rval (fmul4 (B32 l) F M)) (mmul 4 P A).
Proof.
  intros l s d F P M A S0 S4 D0 D4 HP HA LF NF HC HM. apply rows in HP, HA. destruct HP as [LP HP], HA as [LA HA].
  assert (LM : length M = 16%nat) by (rewrite <- LA; clear - HM; induction HM; simpl; auto).
  assert (NM : Forall number M) by (clear - HM; induction HM as [|x y M A [N _]]; constructor; auto).
  pose proof (fun r H => HP r r H H) as HQ. 
  pose proof (HA 0 0 ltac:(lia) ltac:(lia))%nat as G. pose proof (HA 1 1 ltac:(lia) ltac:(lia))%nat as G1. pose proof (HA 2 2 ltac:(lia) ltac:(lia))%nat as G2. pose proof (HA 3 3 ltac:(lia) ltac:(lia))%nat as G3.
  pose proof (HA 0 1 ltac:(lia) ltac:(lia))%nat as H1. pose proof (HA 0 2 ltac:(lia) ltac:(lia))%nat as H2. pose proof (HA 0 3 ltac:(lia) ltac:(lia))%nat as H3.
  pose proof (HA 1 2 ltac:(lia) ltac:(lia))%nat as H4. pose proof (HA 1 3 ltac:(lia) ltac:(lia))%nat as H5. pose proof (HA 2 3 ltac:(lia) ltac:(lia))%nat as H6.
  clear HA HP. cbn [Nat.eqb] in *.
  assert (UF : Forall (fun r => Rabs r <= 5 / 4) (map rval F)).
  { assert (Z : forall x y, Rabs y <= 1 -> Rabs (x - y) <= s -> Rabs x <= 5 / 4).
    { intros x y Y1 Y2. replace x with (y + (x - y)) by ring. eapply Rle_trans; [apply Rabs_triang|]. lra. }
    assert (K : forall r, (r < 4)%nat -> Rabs (nth r (map rval F) 0) <= 5 / 4 /\ Rabs (nth (4 + r) (map rval F) 0) <= 5 / 4 /\ Rabs (nth (8 + r) (map rval F) 0) <= 5 / 4 /\ Rabs (nth (12 + r) (map rval F) 0) <= 5 / 4).
    { intros r Hr. pose proof (one_le _ _ _ _ s S0 (HC r Hr)) as (E0 & E1 & E2 & E3).
      specialize (HQ r Hr). rewrite Nat.eqb_refl in HQ.
      destruct (one_le (nth r P 0) (nth (4 + r) P 0) (nth (8 + r) P 0) (nth (12 + r) P 0) 1 ltac:(lra)) as (Q0 & Q1 & Q2 & Q3); [unfold n2; lra|].
      split; [exact (Z _ _ Q0 E0)|split; [exact (Z _ _ Q1 E1)|split; [exact (Z _ _ Q2 E2)|exact (Z _ _ Q3 E3)]]]. }
    pose proof (K 0 ltac:(lia))%nat. pose proof (K 1 ltac:(lia))%nat. pose proof (K 2 ltac:(lia))%nat. pose proof (K 3 ltac:(lia))%nat.
    clear - LF H H0 H7 H8. unlists. cbn [map nth Nat.add] in *. repeat apply Forall_cons; try apply Forall_nil; tauto. }
  assert (UA : Forall (fun r => Rabs r <= 1) A).
  { pose proof (unit_row _ _ _ _ G).
    pose proof (unit_row _ _ _ _ G1).
    pose proof (unit_row _ _ _ _ G2).
    pose proof (unit_row _ _ _ _ G3).
    clear - LA H H0 H7 H8. unlists. cbn [nth Nat.add] in *. repeat apply Forall_cons; try apply Forall_nil; tauto. }
  assert (UM : Forall (fun r => Rabs r <= 5 / 4) (map rval M)).
  { clear - HM UA D4. induction HM as [|x y M A [N E] HM IH]; cbn [map]; constructor; inversion UA; subst; auto.
    replace (rval x) with (y + (rval x - y)) by ring. eapply Rle_trans; [apply Rabs_triang|]. lra. }
  pose proof (round_mul l F M LF LM NF NM UF UM) as RM.
  assert (LG : length (fmul4 (B32 l) F M) = 16%nat) by reflexivity.
  set (G4 := fmul4 (B32 l) F M) in *. clearbody G4. split; auto. split.
  { clear - RM. induction RM as [|x y M0 A0 [N _]]; constructor; auto. }
  rewrite p19.
  pose proof (p2pos (-20)) as E0. set (e := powerRZ 2 (-20)) in *. clearbody e.
  intros r Hr. specialize (HQ r Hr). specialize (HC r Hr). rewrite Nat.eqb_refl in HQ.
  unlists. repeat match goal with H : Forall2 _ (_ :: _) _ |- _ => apply F2both in H; let a := fresh "W" in destruct H as [a H] end.
  cbv [mmul mulg build flat_map seq map app ent nth Nat.mul Nat.add Rsum total fold_left] in *.
  destruct r as [|[|[|[|r]]]]; try lia.
  all: unfold within in *; eapply (row s d e); [lra|lra|lra|lra|apply Req_le; exact HQ|exact HC|exact G|exact G1|exact G2|exact G3|exact H1|exact H2|exact H3|exact H4|exact H5|exact H6|match goal with W : _ /\ Rabs (_ - ?y) <= ?d |- Rabs (_ - ?y) <= ?d => exact (proj2 W) end..].
Qed.
Lemma many : forall l d Ms As, 0 <= d -> d <= 1 / 4 -> Forall orthogonal As -> Forall2 (Forall2 (within d)) Ms As ->
  forall s F P, 0 <= s -> s + INR (length Ms) * (5 * d + powerRZ 2 (-19)) <= 1 / 4 -> orthogonal P -> length F = 16%nat -> Forall number F -> rclose s (map rval F) P ->
  let Q := fold_left (fmul4 (B32 l)) Ms F in let C := fold_left (mmul 4) As P in
  length Q = 16%nat /\ Forall number Q /\ orthogonal C /\ rclose (s + INR (length Ms) * (5 * d + powerRZ 2 (-19))) (map rval Q) C.
Proof.
  intros l d Ms As D0 D4 HO H. induction H as [|M A Ms As HM H IH]; intros s F P S0 S4 HP LF NF HC; cbn [fold_left].
  - split; [exact LF|split; [exact NF|split; [exact HP|]]]. change (INR (length (@nil (list b32)))) with 0. rewrite Rmult_0_l, Rplus_0_r. exact HC.
  - inversion HO as [|? ? OA OAs]; subst. pose proof (p2pos (-19)) as P19. cbn [length] in *. rewrite S_INR in *. pose proof (pos_INR (length Ms)) as PI.
    assert (C0 : 0 < 5 * d + powerRZ 2 (-19)) by lra. set (c := 5 * d + powerRZ 2 (-19)) in *.
    assert (PC : 0 <= INR (length Ms) * c) by (apply Rmult_le_pos; lra).
    assert (S4' : s <= 1 / 4) by lra.
    destruct (step l s d F P M A S0 S4' D0 D4 HP OA LF NF HC HM) as (L1 & N1 & R1). fold c in R1.
    destruct (IH OAs (s + c) _ _ ltac:(lra) ltac:(lra) (orthogonal_mul _ _ HP OA) L1 N1 R1) as (L2 & N2 & O2 & R2).
    split; [exact L2|split; [exact N2|split; [exact O2|]]].
    replace (s + (INR (length Ms) + 1) * c) with (s + c + INR (length Ms) * c) by ring. exact R2.
Qed.
Lemma close_within : forall s Q C, 0 <= s -> length Q = 16%nat -> Forall number Q -> length C = 16%nat -> rclose s (map rval Q) C -> Forall2 (within s) Q C.
Proof.
  intros s Q C S0 LQ NQ LC H.
  pose proof (one_le _ _ _ _ s S0 (H 0 ltac:(lia))%nat). pose proof (one_le _ _ _ _ s S0 (H 1 ltac:(lia))%nat).
  pose proof (one_le _ _ _ _ s S0 (H 2 ltac:(lia))%nat). pose proof (one_le _ _ _ _ s S0 (H 3 ltac:(lia))%nat).
  clear H. unlists. repeat match goal with H : Forall _ (_ :: _) |- _ => inversion H; clear H; subst end. cbn [map nth Nat.add] in *.
  repeat apply Forall2_cons; try apply Forall2_nil; split; tauto.
Qed.
Lemma within_rclose : forall d M A, 0 <= d -> length A = 16%nat -> Forall2 (within d) M A -> length M = 16%nat /\ Forall number M /\ rclose (2 * d) (map rval M) A.
Proof.
  intros d M A D0 LA H. assert (LM : length M = 16%nat) by (rewrite <- LA; clear - H; induction H; simpl; auto).
  split; auto. split; [clear - H; induction H as [|x y M0 A0 [N _]]; constructor; auto|].
  unlists. repeat match goal with H : Forall2 _ (_ :: _) _ |- _ => apply F2both in H; let a := fresh "W" in destruct H as [[_ a] H] end.
  intros r Hr. destruct r as [|[|[|[|r]]]]; try lia; cbn [map nth Nat.add]; apply four; auto.
Qed.
Lemma within_mono : forall d e, d <= e -> forall x y, Forall2 (within d) x y -> Forall2 (within e) x y.
Proof. intros d e L x y H. induction H as [|a b x y [N E] H IH]; constructor; auto. split; auto. lra. Qed.
(** glm_mat4_mulN of [n] matrices within [d] of orthogonal ones is within n(5d + 2^-19) of the
    product of the orthogonal ones, as long as this is at most 1/4 *)
Lemma C74_mulN_ok : forall l (m : mem b32) pa ps Ms dest As d, (2 <= length ps)%nat -> holds m pa (pointers ps) -> matrices m ps Ms -> valid m dest 16 ->
  apart dest 16 pa (length ps) -> (forall i p, nth_error ps i = Some p -> apart dest 16 p 16 \/ (i < 2)%nat /\ p = dest) ->
  Forall orthogonal As -> Forall2 (Forall2 (within d)) Ms As -> 0 <= d -> INR (length ps) * (5 * d + powerRZ 2 (-19)) <= 1 / 4 ->
  exists Q, call (B32 l) glm_mat4_mulN [VP (fst pa) (snd pa); VI (Z.of_nat (length ps)); VP (fst dest) (snd dest)] m = Ok (VVoid, upd m dest (fl Q)) /\
    Forall2 (within (INR (length ps) * (5 * d + powerRZ 2 (-19)))) Q (chain As) /\ orthogonal (chain As).
Proof.
  intros l m pa ps Ms dest As d L Hp HM Vd A1 A2 HO HN D0 HB.
  assert (LM : length ps = length Ms) by (clear - HM; unfold matrices in HM; induction HM; simpl; auto).
  destruct Ms as [|M0 Ms]; [rewrite LM in L; simpl in L; lia|]. inversion HN as [|? A0 ? As' N0 N1]; subst. inversion HO as [|? ? O0 O1]; subst.
  rewrite LM in HB |- *. cbn [length] in *. rewrite S_INR in *. pose proof (pos_INR (length Ms)) as PI. pose proof (p2pos (-19)) as P19.
  assert (PC : 0 <= INR (length Ms) * (5 * d + powerRZ 2 (-19))) by (apply Rmult_le_pos; lra).
  destruct (within_rclose d M0 A0 D0 (proj1 O0) N0) as (L0 & NM & R0).
  destruct (many l d Ms As' D0 ltac:(lra) O1 N1 (2 * d) M0 A0 ltac:(lra) ltac:(lra) O0 L0 NM R0) as (LQ & NQ & OC & RQ).
  exists (fold_left (fmul4 (B32 l)) Ms M0). split; [|split; [|exact OC]].
  - pose proof (mulN_gen (B32 l) m pa ps M0 Ms dest L Hp HM Vd A1 A2) as E. rewrite LM in E. exact E.
  - eapply within_mono; [|refine (close_within _ _ _ _ LQ NQ (proj1 OC) RQ); lra]. lra.
Qed.
Lemma orthogonal_mid : orthogonal (mid 4).
Proof. apply rows_ok; [reflexivity|]. intros r q Hr Hq. destruct r as [|[|[|[|r]]]]; try lia; destruct q as [|[|[|[|q]]]]; try lia; cbv [mid build flat_map seq map app nth Nat.add Nat.eqb]; lra. Qed.
(** glms_mat4_mulN starts from the unit matrix *)
Lemma C74_struct_mulN_ok : forall l (m : mem b32) pa ps Ms As d, holds m pa (pointers ps) -> matrices m ps Ms ->
  Forall orthogonal As -> Forall2 (Forall2 (within d)) Ms As -> 0 <= d -> d <= 1 / 4 -> INR (length ps) * (5 * d + powerRZ 2 (-19)) <= 1 / 4 ->
  exists Q, call (B32 l) glms_mat4_mulN [VP (fst pa) (snd pa); VI (Z.of_nat (length ps))] m = Ok (VA (fl Q), m) /\
    Forall2 (within (INR (length ps) * (5 * d + powerRZ 2 (-19)))) Q (chain As) /\ orthogonal (chain As).
Proof.
  intros l m pa ps Ms As d Hp HM HO HN D0 D4 HB.
  assert (LM : length ps = length Ms) by (clear - HM; unfold matrices in HM; induction HM; simpl; auto).
  assert (U : length (unit_matrix (B32 l) 4) = 16%nat /\ Forall number (unit_matrix (B32 l) 4) /\ rclose 0 (map rval (unit_matrix (B32 l) 4)) (mid 4)).
  { split; [reflexivity|]. split.
    - change (unit_matrix (B32 l) 4) with [b_lit 1 1; b_lit 0 1; b_lit 0 1; b_lit 0 1; b_lit 0 1; b_lit 1 1; b_lit 0 1; b_lit 0 1; b_lit 0 1; b_lit 0 1; b_lit 1 1; b_lit 0 1; b_lit 0 1; b_lit 0 1; b_lit 0 1; b_lit 1 1].
      repeat (apply Forall_cons; [split; reflexivity|]). apply Forall_nil.
    - replace (map rval (unit_matrix (B32 l) 4)) with (mid 4).
      + intros r Hr. unfold n2. rewrite !Rminus_diag_eq by reflexivity. lra.
      + change (map rval (unit_matrix (B32 l) 4)) with (map rval [b1; b0; b0; b0; b0; b1; b0; b0; b0; b0; b1; b0; b0; b0; b0; b1]).
        cbn [map]. rewrite value_b1. change (rval b0) with 0. reflexivity. }
  destruct U as (LU & NU & RU). rewrite LM in HB |- *.
  destruct (many l d Ms As D0 D4 HO HN 0 _ _ ltac:(lra) ltac:(lra) orthogonal_mid LU NU RU) as (LQ & NQ & OC & RQ).
  rewrite Rplus_0_l in RQ. pose proof (pos_INR (length Ms)) as PI. pose proof (p2pos (-19)) as P19.
  assert (CE : fold_left (mmul 4) As (mid 4) = chain As).
  { destruct As as [|A0 As]; [reflexivity|]. cbn [fold_left chain]. rewrite mmul_mid4; [reflexivity|]. inversion HO as [|? ? [LA _]]. exact LA. }
  rewrite CE in *. exists (fold_left (fmul4 (B32 l)) Ms (unit_matrix (B32 l) 4)). split; [|split; [|exact OC]].
  - pose proof (struct_mulN_gen (B32 l) m pa ps Ms Hp HM) as E. rewrite LM in E. exact E.
  - apply close_within; auto; [apply Rmult_le_pos; lra|exact (proj1 OC)].
Qed.

(** ** Rotations given by angles *)

Lemma aff_orthogonal : forall r, length r = 9%nat -> rotation r -> orthogonal (aff r [0; 0; 0]).
Proof.
  intros r L [O _]. unfold orthonormal in O. apply inverse_side in O; [|reflexivity|exact L]. split; [reflexivity|].
  unlists. cbv [mmul mulg transp mid build flat_map seq map app ent nth Nat.mul Nat.add Nat.eqb Rsum total fold_left] in O. injection O as E0 E1 E2 E3 E4 E5 E6 E7 E8.
  cbv [aff at_ mmul mulg transp mid build flat_map seq map app ent nth Nat.mul Nat.add Nat.eqb Rsum total fold_left].
  repeat match goal with |- cons _ _ = cons _ _ => apply f_equal2 end; try reflexivity; lra.
Qed.
Lemma euler_near : forall l o a, accurate l -> List.In o axis_orders -> length a = 3%nat -> Forall (fun x => number x /\ Rabs (rval x) <= 1000) a ->
  exists M, computes (B32 l) glm_euler_by_order [In (fl a); Val (VI (order_code o)); Out 16] VVoid [fl M] /\
    Forall2 (within (21 * powerRZ 2 (-25))) M (euler4 o (map rval a)).
Proof.
  intros l o a HL Ho La Ha.
  assert (X : approximates_values accurate 1000 0 (21 * powerRZ 2 (-25)) (glm_euler_by_order, [Apart Flt 3; OneOf [36; 24; 9; 33; 18; 6]%Z; Writes 16])).
  { eapply (approxvb_ok (Some (2 ^ 6)%Z) 30%nat [(EK (1000 * unit) 0, 21 * 2 ^ 5)%Z] accurate 1000 0 _ (EK (1000 * unit) 0) _ accurate_sincos); [left; reflexivity| |apply bound25|].
    - intros. apply box; auto. rewrite Rmult_0_l. auto.
    - vm_cast_no_check (eq_refl true). }
  assert (W : Forall2 (within 0) a (map rval a)).
  { clear - Ha. induction Ha as [|x a [N _] Ha IH]; cbn [map]; constructor; auto. split; auto. rewrite Rminus_diag_eq, Rabs_R0; auto; lra. }
  destruct (X l [In (fl a); Val (VI (order_code o)); Out 16] [In (fl (map rval a)); Val (VI (order_code o)); Out 16] HL) as (v & w & outs & routs & C1 & C2 & V & O & Le).
  { apply Forall2_cons; [exists (fl a); split; auto; exists a; auto|]. apply Forall2_cons.
    - exists (order_code o). split; auto. clear - Ho. repeat (destruct Ho as [<-|Ho]; [cbv; auto 10|]). destruct Ho.
    - apply Forall2_cons; [reflexivity|apply Forall2_nil]. }
  { apply Forall2_cons; [apply near_cells; auto|]. apply Forall2_cons; [reflexivity|]. apply Forall2_cons; [reflexivity|apply Forall2_nil]. }
  { apply Forall_cons; [|apply Forall_cons; [exact Logic.I|apply Forall_cons; [exact Logic.I|apply Forall_nil]]]. apply upto_cells.
    clear - Ha. induction Ha as [|x a [_ N] Ha IH]; cbn [map]; constructor; auto. }
  assert (L3 : length (map rval a) = 3%nat) by (rewrite map_length; auto).
  assert (Le' : map (@length _) routs = [16%nat]).
  { destruct outs as [|o1 [|? ?]]; try discriminate Le. destruct routs as [|r1 [|? ?]]; try (inversion O; fail); [|inversion O as [|? ? ? ? ? O2]; inversion O2].
    apply F2hd in O. cbn [map]. f_equal. etransitivity; [exact (F2len _ _ _ _ _ O)|]. injection Le as Le. exact Le. }
  destruct (computes_unique _ _ _ _ _ _ _ C2 (C27_by_order_ok o (map rval a) Ho L3) Le' eq_refl) as [-> ->].
  destruct v; try contradiction. destruct outs as [|o1 [|? ?]]; try discriminate Le. apply F2hd in O.
  assert (Q : exists M, o1 = fl M /\ Forall2 (within (21 * powerRZ 2 (-25))) M (euler4 o (map rval a))).
  { clear - O. revert o1 O. generalize (euler4 o (map rval a)) as y. induction y as [|r y IH]; intros o1 O; cbn [fl map] in O; inversion O as [|c ? c' ? Q1 Q2]; subst.
    - exists []. split; [reflexivity|constructor].
    - destruct (IH _ Q2) as (M & -> & HM). destruct c; try contradiction. match goal with Q1 : cell_near _ (CF ?x) _ |- _ => exists (x :: M) end. split; [reflexivity|]. constructor; auto. }
  destruct Q as (M & -> & HM). exists M. split; [exact C1|exact HM].
Qed.
(** rotations by any angles up to 1000 in any orders: the product of [n] matrices from
    glm_euler_by_order is within 169n units of 2^-25 of the exact rotation, up to 49000 matrices *)
Lemma C74_euler_ok : forall l, accurate l -> forall rs, (2 <= length rs)%nat -> (Z.of_nat (length rs) <= 49000)%Z ->
  Forall (fun '(o, a) => List.In o axis_orders /\ length a = 3%nat /\ Forall (fun x => number x /\ Rabs (rval x) <= 1000) a) rs ->
  exists Ms, Forall2 (fun '(o, a) M => computes (B32 l) glm_euler_by_order [In (fl a); Val (VI (order_code o)); Out 16] VVoid [fl M]) rs Ms /\
    forall m pa ps dest, holds m pa (pointers ps) -> matrices m ps Ms -> valid m dest 16 -> apart dest 16 pa (length ps) ->
      (forall i p, nth_error ps i = Some p -> apart dest 16 p 16 \/ (i < 2)%nat /\ p = dest) ->
      exists Q, call (B32 l) glm_mat4_mulN [VP (fst pa) (snd pa); VI (Z.of_nat (length ps)); VP (fst dest) (snd dest)] m = Ok (VVoid, upd m dest (fl Q)) /\
        Forall2 (within (INR (length rs) * (169 * powerRZ 2 (-25)))) Q (chain (map (fun '(o, a) => euler4 o (map rval a)) rs)).
Proof.
  intros l HL rs L1 L2 H.
  assert (X : exists Ms, Forall2 (fun '(o, a) M => computes (B32 l) glm_euler_by_order [In (fl a); Val (VI (order_code o)); Out 16] VVoid [fl M]) rs Ms /\
    Forall2 (Forall2 (within (21 * powerRZ 2 (-25)))) Ms (map (fun '(o, a) => euler4 o (map rval a)) rs) /\ Forall orthogonal (map (fun '(o, a) => euler4 o (map rval a)) rs)).
  { clear L1 L2. induction H as [|[o a] rs (Ho & La & Ha) H IH]; cbn [map].
    - exists []. repeat split; constructor.
    - destruct IH as (Ms & I1 & I2 & I3). destruct (euler_near l o a HL Ho La Ha) as (M & C & N). exists (M :: Ms).
      split; [constructor; auto|split; constructor; auto]. apply aff_orthogonal.
      + clear - Ho. repeat (destruct Ho as [<-|Ho]; [reflexivity|]). destruct Ho.
      + apply C27_rotation_ok; auto. rewrite map_length. auto. }
  destruct X as (Ms & I1 & I2 & I3). exists Ms. split; [exact I1|]. intros m pa ps dest Hp HM Vd A1 A2.
  assert (LP : length ps = length rs). { transitivity (length Ms); [symmetry; exact (F2len _ _ _ _ _ HM)|exact (F2len _ _ _ _ _ I1)]. }
  assert (EC : 5 * (21 * powerRZ 2 (-25)) + powerRZ 2 (-19) = 169 * powerRZ 2 (-25)).
  { replace (powerRZ 2 (-19)) with (64 * powerRZ 2 (-25)); [ring|]. replace 64 with (powerRZ 2 6) by (rewrite p2Z by lia; reflexivity). rewrite <- p2plus. reflexivity. }
  destruct (C74_mulN_ok l m pa ps Ms dest _ (21 * powerRZ 2 (-25)) ltac:(rewrite LP; exact L1) Hp HM Vd A1 A2 I3 I2) as (Q & E & B & _).
  - pose proof (p2pos (-25)). lra.
  - rewrite EC, LP. apply Rle_trans with (49000 * (169 * powerRZ 2 (-25))).
    + apply Rmult_le_compat_r; [pose proof (p2pos (-25)); lra|]. rewrite INR_IZR_INZ. apply IZR_le. exact L2.
    + replace (powerRZ 2 (-25)) with (/ 33554432); [lra|]. symmetry. change (-25)%Z with (- (25))%Z. rewrite powerRZ_neg', p2Z by lia. reflexivity.
  - exists Q. split; [exact E|]. rewrite EC, LP in B. exact B.
Qed.
(** three rotations by the angle whose cosine is 3/5; the destination is the first matrix *)
Lemma C74_mulN_ex : exists (m : mem b32) pa ps Ms dest As, (2 <= length ps)%nat /\ holds m pa (pointers ps) /\ matrices m ps Ms /\ valid m dest 16 /\
  apart dest 16 pa (length ps) /\ (forall i p, nth_error ps i = Some p -> apart dest 16 p 16 \/ (i < 2)%nat /\ p = dest) /\
  Forall orthogonal As /\ Forall2 (Forall2 (within (powerRZ 2 (-20)))) Ms As /\ INR (length ps) * (5 * powerRZ 2 (-20) + powerRZ 2 (-19)) <= 1 / 4 /\
  length ps = 3%nat /\ nth 0 (chain As) 0 = - 117 / 125.
Proof.
  set (A := [3 / 5; 4 / 5; 0; 0; - 4 / 5; 3 / 5; 0; 0; 0; 0; 1; 0; 0; 0; 0; 1]).
  set (M := [b_lit 3 5; b_lit 4 5; b_lit 0 1; b_lit 0 1; b_lit (-4) 5; b_lit 3 5; b_lit 0 1; b_lit 0 1; b_lit 0 1; b_lit 0 1; b_lit 1 1; b_lit 0 1; b_lit 0 1; b_lit 0 1; b_lit 0 1; b_lit 1 1]).
  exists (pointers [(1%nat, 0%Z); (2%nat, 0%Z); (3%nat, 0%Z)] :: map fl [M; M; M]), (0%nat, 0%Z), [(1%nat, 0%Z); (2%nat, 0%Z); (3%nat, 0%Z)], [M; M; M], (1%nat, 0%Z), [A; A; A].
  assert (O : orthogonal A).
  { apply rows_ok; [reflexivity|]. intros r q Hr Hq. destruct r as [|[|[|[|r]]]]; try lia; destruct q as [|[|[|[|q]]]]; try lia; cbv [A nth Nat.add Nat.eqb]; lra. }
  assert (P : powerRZ 2 (-20) = / 1048576). { change (-20)%Z with (- (20))%Z. rewrite powerRZ_neg', p2Z by lia. reflexivity. }
  assert (W : Forall2 (within (powerRZ 2 (-20))) M A).
  { rewrite P. unfold M, A. repeat (apply Forall2_cons; [|]); try apply Forall2_nil; (split; [split; reflexivity|]);
      match goal with |- Rabs (rval ?x - _) <= _ => let v := eval vm_compute in x in change x with v end; cbn [rval]; rewrite ?p2neg;
      repeat match goal with |- context [IZR (2 ^ ?k)] => let v := eval vm_compute in (2 ^ k)%Z in change (2 ^ k)%Z with v end; apply Rabs_le; split; lra. }
  split; [simpl; lia|]. split; [reflexivity|]. split; [repeat constructor|]. split; [repeat split; simpl; try lia; try discriminate|]. split; [left; discriminate|].
  split. { intros [|[|[|[|i]]]] p E; try discriminate E; injection E as <-; unfold apart; simpl; auto; try (left; left; lia). }
  split; [repeat (apply Forall_cons; [exact O|]); apply Forall_nil|]. split; [repeat (apply Forall2_cons; [exact W|]); apply Forall2_nil|].
  split; [rewrite p19, P; simpl; lra|]. split; [reflexivity|].
  cbv [chain A fold_left hd mmul mulg mid build flat_map seq map app ent nth Nat.mul Nat.add Nat.eqb Rsum total]. lra.
Qed.
(** an accurate sine and cosine exist (C73_accurate); angles 1/2, -3, 999 and 0, 1/10, -1 in two orders *)
Lemma C74_euler_ex : let rs := [((0, 1, 2)%nat, [b_lit 1 2; b_lit (-3) 1; b_lit 999 1]); ((2, 0, 1)%nat, [b_lit 0 1; b_lit 1 10; b_lit (-1) 1])] in
  (2 <= length rs)%nat /\ (Z.of_nat (length rs) <= 49000)%Z /\
  Forall (fun '(o, a) => List.In o axis_orders /\ length a = 3%nat /\ Forall (fun x => number x /\ Rabs (rval x) <= 1000) a) rs.
Proof.
  cbv zeta. split; [simpl; lia|]. split; [simpl; lia|].
  repeat (apply Forall_cons; [|]); try apply Forall_nil; (split; [cbv [axis_orders List.In]; tauto|]); (split; [reflexivity|]);
    repeat (apply Forall_cons; [|]); try apply Forall_nil; (split; [split; reflexivity|]);
    match goal with |- Rabs (rval ?x) <= _ => let v := eval vm_compute in x in change x with v end; cbn [rval]; rewrite ?p2neg;
    repeat match goal with |- context [IZR (2 ^ ?k)] => let v := eval vm_compute in (2 ^ k)%Z in change (2 ^ k)%Z with v end; apply Rabs_le; split; lra.
Qed.
