(** * Boxes against frustum planes and balls (C38, C39) *)

From Coq Require Import String List ZArith Bool Reals Lra Lia.
From Verif Require Import Cglm.
From Verif.Spec Require Import Linear Geometry Affine Clip Frustum Box.
From Verif.Proofs Require Import Layout RExact AffTac Box.
Import ListNotations.
Local Open Scope R_scope.

Definition reaches (b q : list R) : bool :=
  negb (Rltb (at_ q 0 * (if Rltb 0 (at_ q 0) then at_ b 3 else at_ b 0)
     + at_ q 1 * (if Rltb 0 (at_ q 1) then at_ b 4 else at_ b 1)
     + at_ q 2 * (if Rltb 0 (at_ q 2) then at_ b 5 else at_ b 2)) (- at_ q 3)).
Lemma frustum_calc : forall b ps, length b = 6%nat -> length ps = 24%nat ->
  computes RS glm_aabb_frustum [In (fl b); In (fl ps)] (VB (forallb (fun j => reaches b (firstn 4 (skipn (4 * j) ps))) (seq 0 6))) [].
Proof.
  intros b ps Lb Lp. unlists. unfold reaches. symr; rprep; simpl; lcbv. f_equal.
  repeat match goal with |- (if Rltb ?x ?y then _ else _) = negb (Rltb ?x ?y) && _ => destruct (Rltb x y); [reflexivity|]; simpl end.
  rewrite andb_true_r. reflexivity.
Qed.
Lemma reaches_spec : forall b q, length b = 6%nat -> length q = 4%nat -> proper 3 b ->
  (reaches b q = true <-> exists p, length p = 3%nat /\ in_aabb 3 b p /\ on_side q p).
Proof.
  intros b q Lb Lq P. destruct b as [|x0 [|y0 [|z0 [|x1 [|y1 [|z1 [|]]]]]]]; try discriminate Lb. un4 q q0 q1 q2 q3. rewrite proper3 in P. revert P. lcbv. intros P.
  unfold reaches, on_side. rewrite negb_true_iff, Rltb_false. lcbv. split.
  - intros H. exists [if Rltb 0 q0 then x1 else x0; if Rltb 0 q1 then y1 else y0; if Rltb 0 q2 then z1 else z0].
    split; [reflexivity|]. rewrite in3. lcbv. split; [|lra]. rifs; lra.
  - intros (p & Lp & H & S). un3 p x y z. rewrite in3 in H. revert H S. lcbv. intros (A & B & C) S.
    assert (G : forall a x0 x1 x, x0 <= x <= x1 -> a * x <= a * (if Rltb 0 a then x1 else x0)) by (intros; rifs; nra).
    pose proof (G q0 x0 x1 x A). pose proof (G q1 y0 y1 y B). pose proof (G q2 z0 z1 z C). lra.
Qed.
(** ** C38 *)
(** true iff each plane has a point of the box on its inner side *)
Lemma C38_frustum_ok : forall b ps, length b = 6%nat -> length ps = 24%nat -> proper 3 b -> exists r,
  computes RS glm_aabb_frustum [In (fl b); In (fl ps)] (VB r) [] /\
  (r = true <-> forall j, (j < 6)%nat -> exists p, length p = 3%nat /\ in_aabb 3 b p /\ on_side (firstn 4 (skipn (4 * j) ps)) p).
Proof.
  intros b ps Lb Lp P. eexists. split; [apply frustum_calc; auto|]. rewrite forallb_forall. 
  assert (X : forall j, (j < 6)%nat -> length (firstn 4 (skipn (4 * j) ps)) = 4%nat) by (intros; rewrite firstn_length, skipn_length; lia).
  split.
  - intros H j Hj. apply reaches_spec; auto. apply H. apply in_seq. lia.
  - intros H j Hj. apply in_seq in Hj. apply reaches_spec; auto. apply X; lia. apply H. lia.
Qed.
(** so no box with a visible point is culled *)
Lemma C38_conservative_ok : forall b ps p, length b = 6%nat -> length ps = 24%nat -> length p = 3%nat -> in_aabb 3 b p ->
  (forall j, (j < 6)%nat -> on_side (firstn 4 (skipn (4 * j) ps)) p) ->
  computes RS glm_aabb_frustum [In (fl b); In (fl ps)] (VB true) [].
Proof.
  intros b ps p Lb Ls Lp H S.
  assert (P : proper 3 b) by (intros i Hi; specialize (H i Hi); lra).
  destruct (C38_frustum_ok b ps Lb Ls P) as (r & C & E). assert (r = true) as -> by (apply E; intros j Hj; exists p; auto). exact C.
Qed.
Lemma C38_conservative_ex : let ps := [1;0;0;1; -1;0;0;1; 0;1;0;1; 0;-1;0;1; 0;0;1;1; 0;0;-1;1] in
  in_aabb 3 [0;0;0;5;5;5] [1/2;1/2;1/2] /\ forall j, (j < 6)%nat -> on_side (firstn 4 (skipn (4 * j) ps)) [1/2;1/2;1/2].
Proof.
  cbv zeta. split; [rewrite in3; lcbv; lra|]. intros j Hj. unfold on_side. do 6 (destruct j as [|j]; [lcbv; lra|]). lia.
Qed.
(** the converse fails: a box outside the frustum but not outside any single plane is kept *)
Lemma C38_keeps_invisible_ok : exists b ps, proper 3 b /\ computes RS glm_aabb_frustum [In (fl b); In (fl ps)] (VB true) [] /\
  ~ exists p, length p = 3%nat /\ in_aabb 3 b p /\ forall j, (j < 6)%nat -> on_side (firstn 4 (skipn (4 * j) ps)) p.
Proof.
  exists [0;0;0;5;5;5], [-1;0;0;1; 1;-1;0;-2; 0;1;0;1; 0;1;0;1; 0;0;1;1; 0;0;1;1].
  assert (P : proper 3 [0;0;0;5;5;5]) by (rewrite proper3; lcbv; lra). split; [exact P|]. split.
  - destruct (C38_frustum_ok [0;0;0;5;5;5] [-1;0;0;1; 1;-1;0;-2; 0;1;0;1; 0;1;0;1; 0;0;1;1; 0;0;1;1] eq_refl eq_refl P) as (r & C & E).
    assert (r = true) as ->; [|exact C]. apply E. intros j Hj.
    do 6 (destruct j as [|j]; [solve [exists [0;0;0]; split; [reflexivity|]; split; [rewrite in3; lcbv; lra|unfold on_side; lcbv; lra] |
      exists [5;0;0]; split; [reflexivity|]; split; [rewrite in3; lcbv; lra|unfold on_side; lcbv; lra]]|]). lia.
  - intros (p & Lp & H & S). un3 p x y z. rewrite in3 in H. pose proof (S 0%nat ltac:(lia)) as S0. pose proof (S 1%nat ltac:(lia)) as S1.
    revert H S0 S1. unfold on_side. lcbv. lra.
Qed.
(** ** C39 *)
(** what the tests compute in each coordinate: the centre [x] against the interval [a, b] *)
Definition gap (x a b : R) : R :=
  (x - (if (b2z (Rltb x a) + b2z (Rltb b x) - 1 =? 0)%Z then b else a)) * IZR (b2z (negb (b2z (Rltb x a) + b2z (Rltb b x) =? 0)%Z)).
Definition clamp (x a b : R) : R := if Rle_dec x a then a else if Rle_dec b x then b else x.
Lemma gap_spec : forall x a b, a <= b -> a <= clamp x a b <= b /\ (clamp x a b - x) * (clamp x a b - x) <= gap x a b * gap x a b /\
  (a <= x -> gap x a b * gap x a b = (clamp x a b - x) * (clamp x a b - x)) /\
  (forall y, a <= y <= b -> (clamp x a b - x) * (clamp x a b - x) <= (y - x) * (y - x)).
Proof.
  intros x a b H. split; [unfold clamp; rifs; lra|]. split; [|split].
  - unfold gap, clamp. rifs; simpl; try (exfalso; lra); try nra.
  - intros Hx. unfold gap, clamp. rifs; simpl; try (exfalso; lra); try nra; assert (x = a) as -> by lra; ring.
  - intros y Hy. unfold clamp. rifs.
    + pose proof (Rmult_le_pos (y - a) (y + a - 2 * x) ltac:(lra) ltac:(lra)). lra.
    + pose proof (Rmult_le_pos (b - y) (2 * x - b - y) ltac:(lra) ltac:(lra)). lra.
    + pose proof (Rle_0_sqr (y - x)). unfold Rsqr in *. lra.
Qed.
Lemma sphere_calc : forall b s, length b = 6%nat -> length s = 4%nat -> 
  computes RS glm_aabb_sphere [In (fl b); In (fl s)] (VB (
    let g := fun i => gap (at_ s i) (at_ b i) (at_ b (3 + i)) * gap (at_ s i) (at_ b i) (at_ b (3 + i)) in
    Rleb (g 0%nat + g 1%nat + g 2%nat) (at_ s 3 * at_ s 3))) [].
Proof. intros b s Lb Ls. unlists. unfold gap. symr; rprep. Qed.
Lemma circle_calc : forall b s, length b = 4%nat -> length s = 3%nat -> 
  computes RS glm_aabb2d_circle [In (fl b); In (fl s)] (VB (
    let g := fun i => gap (at_ s i) (at_ b i) (at_ b (2 + i)) * gap (at_ s i) (at_ b i) (at_ b (2 + i)) in
    Rleb (g 0%nat + g 1%nat) (at_ s 2 * at_ s 2))) [].
Proof. intros b s Lb Ls. unlists. unfold gap. symr; rprep. Qed.
(** For a proper box the answer "true" is always right, and the answer is right whenever no
    coordinate of the centre is below the box. *)
Lemma C39_ball_ok : forall n, (n = 2 \/ n = 3)%nat -> forall b s, length b = (n + n)%nat -> length s = S n -> proper n b ->
  exists r, computes RS (ball_fn n) [In (fl b); In (fl s)] (VB r) [] /\
  (r = true -> exists p, length p = n /\ in_aabb n b p /\ in_ball n s p) /\
  ((forall i, (i < n)%nat -> at_ b i <= at_ s i) -> (exists p, length p = n /\ in_aabb n b p /\ in_ball n s p) -> r = true).
Proof.
  intros n Hn b s Lb Ls P. dims Hn; simpl in Lb.
  - eexists. split; [apply circle_calc; auto|]. un4 b x0 y0 x1 y1. un3 s x y r. rewrite proper2 in P. revert P. unfold in_ball. lcbv. intros [P1 P2]. rewrite Rleb_true.
    destruct (gap_spec x x0 x1 P1) as (A1 & A2 & A3 & A4). destruct (gap_spec y y0 y1 P2) as (B1 & B2 & B3 & B4). split.
    + intros H. exists [clamp x x0 x1; clamp y y0 y1]. split; [reflexivity|]. split; [rewrite in2; lcbv; tauto|]. lcbv. lra.
    + intros G (p & Lp & H & K). un2 p p0 p1. rewrite in2 in H. revert H K. lcbv. intros [H1 H2] K.
      pose proof (G 0%nat ltac:(lia)) as G0. pose proof (G 1%nat ltac:(lia)) as G1. simpl in G0, G1.
      pose proof (A4 p0 H1). pose proof (B4 p1 H2). rewrite A3, B3 by auto. lra.
  - eexists. split; [apply sphere_calc; auto|]. destruct b as [|x0 [|y0 [|z0 [|x1 [|y1 [|z1 [|]]]]]]]; try discriminate Lb. un4 s x y z r. rewrite proper3 in P. revert P. unfold in_ball. lcbv. intros (P1 & P2 & P3). rewrite Rleb_true.
    destruct (gap_spec x x0 x1 P1) as (A1 & A2 & A3 & A4). destruct (gap_spec y y0 y1 P2) as (B1 & B2 & B3 & B4). destruct (gap_spec z z0 z1 P3) as (C1 & C2 & C3 & C4). split.
    + intros H. exists [clamp x x0 x1; clamp y y0 y1; clamp z z0 z1]. split; [reflexivity|]. split; [rewrite in3; lcbv; tauto|]. lcbv. lra.
    + intros G (p & Lp & H & K). un3 p p0 p1 p2. rewrite in3 in H. revert H K. lcbv. intros (H1 & H2 & H3) K.
      pose proof (G 0%nat ltac:(lia)) as G0. pose proof (G 1%nat ltac:(lia)) as G1. pose proof (G 2%nat ltac:(lia)) as G2. simpl in G0, G1, G2.
      pose proof (A4 p0 H1). pose proof (B4 p1 H2). pose proof (C4 p2 H3). rewrite A3, B3, C3 by auto. lra.
Qed.
(** but a ball that meets the box from below is missed: here the box [-0.8,10]^n and the ball
    of radius 1/2 about (-1,0,..) *)
Lemma C39_missed_refuted_ok : forall n, (n = 2 \/ n = 3)%nat -> exists b s p, length b = (n + n)%nat /\ length s = S n /\ length p = n /\ proper n b /\
  in_aabb n b p /\ in_ball n s p /\ computes RS (ball_fn n) [In (fl b); In (fl s)] (VB false) [].
Proof.
  intros n Hn. dims Hn.
  - exists [-4/5; -4/5; 10; 10], [-1; 0; 1/2], [-4/5; 0]. rewrite proper2, in2. unfold in_ball. repeat split; try (lcbv; lra).
    pose proof (circle_calc [-4/5; -4/5; 10; 10] [-1; 0; 1/2] eq_refl eq_refl) as C. cbv zeta in C.
    match type of C with computes _ _ _ (VB ?r) _ => replace false with r; [exact C|] end.
    apply Rleb_false. unfold gap. lcbv. rifs; simpl; lra.
  - exists [-4/5; -4/5; -4/5; 10; 10; 10], [-1; 0; 0; 1/2], [-4/5; 0; 0]. rewrite proper3, in3. unfold in_ball. repeat split; try (lcbv; lra).
    pose proof (sphere_calc [-4/5; -4/5; -4/5; 10; 10; 10] [-1; 0; 0; 1/2] eq_refl eq_refl) as C. cbv zeta in C.
    match type of C with computes _ _ _ (VB ?r) _ => replace false with r; [exact C|] end.
    apply Rleb_false. unfold gap. lcbv. rifs; simpl; lra.
Qed.
Lemma C39_ball_ex : proper 2 [0;0;1;1] /\ (forall i, (i < 2)%nat -> at_ [0;0;1;1] i <= at_ [1;1;1] i).
Proof. rewrite proper2. split; [lcbv; lra|]. intros i Hi. do 2 (destruct i as [|i]; [lcbv; lra|]). lia. Qed.
