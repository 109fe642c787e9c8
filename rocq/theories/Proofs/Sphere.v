(** * Spheres and rays (C40-C42) *)

From Coq Require Import String List ZArith Bool Reals Lra Lia.
From Verif Require Import Cglm.
From Verif.Spec Require Import Linear Geometry Affine Clip Box.
From Verif.Proofs Require Import Layout RExact AffTac Box.
Import ListNotations.
Local Open Scope R_scope.

Lemma triangle : forall u0 u1 u2 v0 v1 v2 a b, 0 <= a -> 0 <= b -> u0 * u0 + u1 * u1 + u2 * u2 <= a * a -> v0 * v0 + v1 * v1 + v2 * v2 <= b * b ->
  (u0 + v0) * (u0 + v0) + (u1 + v1) * (u1 + v1) + (u2 + v2) * (u2 + v2) <= (a + b) * (a + b).
Proof.
  intros u0 u1 u2 v0 v1 v2 a b Ha Hb Hu Hv.
  assert (C : (u0 * v0 + u1 * v1 + u2 * v2) * (u0 * v0 + u1 * v1 + u2 * v2) <= a * b * (a * b)).
  { apply Rle_trans with ((u0 * u0 + u1 * u1 + u2 * u2) * (v0 * v0 + v1 * v1 + v2 * v2)).
    - pose proof (Rle_0_sqr (u0 * v1 - u1 * v0)). pose proof (Rle_0_sqr (u0 * v2 - u2 * v0)). pose proof (Rle_0_sqr (u1 * v2 - u2 * v1)). unfold Rsqr in *. lra.
    - replace (a * b * (a * b)) with (a * a * (b * b)) by ring. apply Rmult_le_compat; auto.
      + pose proof (Rle_0_sqr u0). pose proof (Rle_0_sqr u1). pose proof (Rle_0_sqr u2). unfold Rsqr in *. lra.
      + pose proof (Rle_0_sqr v0). pose proof (Rle_0_sqr v1). pose proof (Rle_0_sqr v2). unfold Rsqr in *. lra. }
  assert (D : u0 * v0 + u1 * v1 + u2 * v2 <= a * b).
  { pose proof (Rmult_le_pos a b Ha Hb). revert C H. generalize (u0 * v0 + u1 * v1 + u2 * v2) (a * b). intros s t C H. nra. }
  lra.
Qed.

(** ** C40 *)
Lemma C40_point_ok : forall s p, length s = 4%nat -> length p = 3%nat -> exists r,
  computes RS glm_sphere_point [In (fl s); In (fl p)] (VB r) [] /\ (r = true <-> in_ball 3 s p).
Proof.
  intros s p Ls Lp. un4 s x y z r. un3 p p0 p1 p2.
  exists (Rleb ((p0 - x) * (p0 - x) + (p1 - y) * (p1 - y) + (p2 - z) * (p2 - z)) (r * r)). split.
  - symr; rprep; rifs; try reflexivity; exfalso; lra.
  - unfold in_ball. lcbv. apply Rleb_true.
Qed.
Lemma C40_meet_ok : forall s t, length s = 4%nat -> length t = 4%nat -> 0 <= at_ s 3 -> 0 <= at_ t 3 -> exists r,
  computes RS glm_sphere_sphere [In (fl s); In (fl t)] (VB r) [] /\ (r = true <-> exists p, length p = 3%nat /\ in_ball 3 s p /\ in_ball 3 t p).
Proof.
  intros s t Ls Lt. un4 s x y z r. un4 t x' y' z' r'. unfold in_ball. lcbv. intros H H'.
  exists (Rleb ((x' - x) * (x' - x) + (y' - y) * (y' - y) + (z' - z) * (z' - z)) ((r + r') * (r + r'))). split.
  - symr; rprep; rifs; try reflexivity; exfalso; lra.
  - rewrite Rleb_true. split.
    + intros D. destruct (Req_dec (r + r') 0) as [Z|Z].
      * exists [x; y; z]. split; [reflexivity|]. assert (r = 0) by lra. assert (r' = 0) by lra. subst. lra.
      * pose (k := r / (r + r')). exists [x + k * (x' - x); y + k * (y' - y); z + k * (z' - z)]. split; [reflexivity|].
        set (d := (x' - x) * (x' - x) + (y' - y) * (y' - y) + (z' - z) * (z' - z)) in *.
        assert (K : k * (r + r') = r) by (unfold k; field; lra).
        assert (K2 : (1 - k) * (r + r') = r') by (unfold k; field; lra).
        split.
        -- replace ((x + k * (x' - x) - x) * (x + k * (x' - x) - x) + (y + k * (y' - y) - y) * (y + k * (y' - y) - y) + (z + k * (z' - z) - z) * (z + k * (z' - z) - z)) with (k * k * d) by (unfold d; ring).
           apply Rle_trans with (k * k * ((r + r') * (r + r'))). apply Rmult_le_compat_l; auto. apply Rle_0_sqr.
           right. transitivity ((k * (r + r')) * (k * (r + r'))). ring. rewrite K. ring.
        -- replace ((x + k * (x' - x) - x') * (x + k * (x' - x) - x') + (y + k * (y' - y) - y') * (y + k * (y' - y) - y') + (z + k * (z' - z) - z') * (z + k * (z' - z) - z')) with ((1 - k) * (1 - k) * d) by (unfold d; ring).
           apply Rle_trans with ((1 - k) * (1 - k) * ((r + r') * (r + r'))). apply Rmult_le_compat_l; auto. apply Rle_0_sqr.
           right. transitivity (((1 - k) * (r + r')) * ((1 - k) * (r + r'))). ring. rewrite K2. ring.
    + intros (p & Lp & A & B). un3 p p0 p1 p2. revert A B. lcbv. intros A B.
      pose proof (triangle (p0 - x) (p1 - y) (p2 - z) (x' - p0) (y' - p1) (z' - p2) r r' H H' A) as T.
      replace (x' - x) with (p0 - x + (x' - p0)) by ring. replace (y' - y) with (p1 - y + (y' - p1)) by ring. replace (z' - z) with (p2 - z + (z' - p2)) by ring.
      apply T. lra.
Qed.
(** a ball containing both, about the midpoint of the centres; any aliasing *)
Lemma C40_merge_ok : forall s t, length s = 4%nat -> length t = 4%nat -> 0 <= at_ s 3 -> 0 <= at_ t 3 -> exists m, length m = 4%nat /\
  computes RS glm_sphere_merge [InA (fl s); InA (fl t); Out 4] VVoid [fl m] /\
  firstn 3 m = vscale (1/2) (vadd (firstn 3 s) (firstn 3 t)) /\
  at_ m 3 = norm (vsub (firstn 3 t) (firstn 3 s)) + at_ s 3 + at_ t 3 /\
  forall p, length p = 3%nat -> in_ball 3 s p \/ in_ball 3 t p -> in_ball 3 m p.
Proof.
  intros s t Ls Lt. un4 s x y z r. un4 t x' y' z' r'. unfold in_ball. lcbv. intros H H'.
  set (dd := (x' - x) * (x' - x) + (y' - y) * (y' - y) + (z' - z) * (z' - z)).
  assert (Pd : 0 <= dd) by (unfold dd; sq0). pose proof (sqrt_pos dd) as Ps. pose proof (sqrt_def dd Pd) as Sd.
  exists [1/2 * (x + x'); 1/2 * (y + y'); 1/2 * (z + z'); sqrt dd + r + r']. split; [reflexivity|]. split; [|split; [reflexivity|split; [reflexivity|]]].
  - unfold dd. clear - H H'. symr; rprep; try domain; rewrite ?Rmax_code; cells ltac:(try ring); sqrts;
      match goal with |- context [sqrt ?k] => pose proof (sqrt_pos k); generalize dependent (sqrt k); intros end; unfold Rmax; rifs; lra.
  - intros p Lp. un3 p p0 p1 p2. lcbv. intros G.
    assert (Q : forall c0 c1 c2 q0 q1 q2 a, 0 <= a -> (p0 - c0) * (p0 - c0) + (p1 - c1) * (p1 - c1) + (p2 - c2) * (p2 - c2) <= a * a ->
      (c0 - q0) * (c0 - q0) + (c1 - q1) * (c1 - q1) + (c2 - q2) * (c2 - q2) <= (sqrt dd / 2) * (sqrt dd / 2) ->
      (p0 - q0) * (p0 - q0) + (p1 - q1) * (p1 - q1) + (p2 - q2) * (p2 - q2) <= (a + sqrt dd / 2) * (a + sqrt dd / 2)).
    { intros. pose proof (triangle (p0 - c0) (p1 - c1) (p2 - c2) (c0 - q0) (c1 - q1) (c2 - q2) a (sqrt dd / 2) H0 ltac:(lra) H1 H2) as T.
      replace (p0 - q0) with (p0 - c0 + (c0 - q0)) by ring. replace (p1 - q1) with (p1 - c1 + (c1 - q1)) by ring. replace (p2 - q2) with (p2 - c2 + (c2 - q2)) by ring. exact T. }
    assert (E : sqrt dd / 2 * (sqrt dd / 2) = dd / 4) by lra.
    destruct G as [G|G].
    + specialize (Q x y z (1/2 * (x + x')) (1/2 * (y + y')) (1/2 * (z + z')) r H G). eapply Rle_trans; [apply Q|].
      * rewrite E. unfold dd. lra.
      * apply Rmult_le_compat; lra.
    + specialize (Q x' y' z' (1/2 * (x + x')) (1/2 * (y + y')) (1/2 * (z + z')) r' H' G). eapply Rle_trans; [apply Q|].
      * rewrite E. unfold dd. lra.
      * apply Rmult_le_compat; lra.
Qed.
(** but not the least one: even merging a ball with itself doubles its radius *)
Lemma C40_merge_least_refuted_ok : exists s m, 0 < at_ s 3 /\
  computes RS glm_sphere_merge [InA (fl s); InA (fl s); Out 4] VVoid [fl m] /\ firstn 3 m = firstn 3 s /\ at_ s 3 < at_ m 3.
Proof.
  destruct (C40_merge_ok [1; 2; 3; 1] [1; 2; 3; 1] eq_refl eq_refl ltac:(lcbv; lra) ltac:(lcbv; lra)) as (m & Lm & C & E & D & _).
  change (T RS) with R in *. exists [1; 2; 3; 1], m. split; [lcbv; lra|]. split; [exact C|]. change (T RS) with R. split.
  - rewrite E. lcbv. cells ltac:(field).
  - rewrite D. pose proof (norm_nonneg (vsub (firstn 3 [1; 2; 3; 1]) (firstn 3 [1; 2; 3; 1]))). revert H. lcbv. lra.
Qed.
Lemma C40_transform_ok : forall s M, length s = 4%nat -> length M = 16%nat ->
  computes RS glm_sphere_transform [InA (fl s); In (fl M); Out 4] VVoid [fl (firstn 3 (clip M (firstn 3 s)) ++ [at_ s 3])] /\
  computes RS glm_sphere_radii [In (fl s)] (VF (at_ s 3)) [].
Proof. intros s M Ls LM. un4 s x y z r. unlists. unfold clip. split; symr; rring. Qed.

(** ** C41 *)
Section Ray_sphere.
Variables o0 o1 o2 e0 e1 e2 s0 s1 s2 s3 : R.
Let w := e0 * (s0 - o0) + e1 * (s1 - o1) + e2 * (s2 - o2).
Let D := s3 * s3 - ((s0 - o0 - e0 * w) * (s0 - o0 - e0 * w) + (s1 - o1 - e1 * w) * (s1 - o1 - e1 * w) + (s2 - o2 - e2 * w) * (s2 - o2 - e2 * w)).
Let K := (s0 - o0) * (s0 - o0) + (s1 - o1) * (s1 - o1) + (s2 - o2) * (s2 - o2) - s3 * s3.

Ltac fold_ray := fold w; fold D; fold K.

Lemma ray_sphere_miss : forall t1 t2, D < 0 ->
  computes RS glm_ray_sphere [In (fl [o0; o1; o2]); In (fl [e0; e1; e2]); In (fl [s0; s1; s2; s3]); InOut (fl [t1]); InOut (fl [t2])] (VB false) [fl [t1]; fl [t2]].
Proof.
  intros t1 t2 H. symr; rprep; fold_ray; rewrite ?(proj2 (Rltb_true _ _) H); reflexivity.
Qed.

Lemma ray_sphere_hit : forall t1 t2 q u, 0 <= D -> q = (if Rle_dec 0 w then w + sqrt D else w - sqrt D) -> q <> 0 -> u * q = K ->
  computes RS glm_ray_sphere [In (fl [o0; o1; o2]); In (fl [e0; e1; e2]); In (fl [s0; s1; s2; s3]); InOut (fl [t1]); InOut (fl [t2])]
    (VB (negb (Rltb (Rmin q u) 0 && Rltb (Rmax q u) 0))) [fl [Rmin q u]; fl [Rmax q u]].
Proof.
  intros t1 t2 q u H Q Z U. assert (UE : u = K / q) by (rewrite <- U; field; exact Z).
  assert (W : (if Rleb 0 w then w + sqrt D else w - sqrt D) = q) by (rewrite Q; unfold Rleb; destruct (Rle_dec 0 w); reflexivity).
  assert (N : Rltb D 0 = false) by (apply Rltb_false; exact H).
  symr; rprep; fold_ray; rewrite ?N, ?W, <- ?UE; clear W N Q UE U; simpl.
  - rewrite (proj2 (Rleb_true _ _) H); reflexivity.
  - destruct (Reqb q 0) eqn:E; [apply Reqb_true in E; contradiction|reflexivity].
  - unfold Rmin, Rmax. rifs; simpl; try reflexivity; exfalso; lra.
  - unfold Rmin, Rmax. cells ltac:(rifs; lra).
Qed.

Lemma ray_sphere_tangent : D = 0 -> w = 0 -> 
  aborts RS glm_ray_sphere [In (fl [o0; o1; o2]); In (fl [e0; e1; e2]); In (fl [s0; s1; s2; s3]); Out 1; Out 1] XFloatDomain.
Proof.
  intros HD Hw. symx_with 20%nat. useeqs. rcbv. lcbv. fold_ray. rewrite HD, Hw.
  replace (Rltb 0 0) with false by (symmetry; apply Rltb_false; lra). replace (Rleb 0 0) with true by (symmetry; apply Rleb_true; lra).
  simpl. rewrite sqrt_0. replace (Reqb (0 + 0) 0) with true by (symmetry; apply Reqb_true; ring). reflexivity.
Qed.
End Ray_sphere.


Lemma C41_ray_ok : forall o d s t1 t2, length o = 3%nat -> length d = 3%nat -> length s = 4%nat -> norm2 d = 1 ->
  ~ (on_sphere o d s 0 /\ rdot d (vsub (firstn 3 s) o) = 0) -> exists r u1 u2,
  computes RS glm_ray_sphere [In (fl o); In (fl d); In (fl s); InOut (fl [t1]); InOut (fl [t2])] (VB r) [fl [u1]; fl [u2]] /\
  (r = true <-> exists t, 0 <= t /\ on_sphere o d s t) /\
  ((exists t, on_sphere o d s t) -> u1 <= u2 /\ forall t, on_sphere o d s t <-> t = u1 \/ t = u2) /\
  ((forall t, ~ on_sphere o d s t) -> u1 = t1 /\ u2 = t2).
Proof.
  intros o d s t1 t2 Lo Ld Ls. un3 o o0 o1 o2. un3 d e0 e1 e2. un4 s s0 s1 s2 s3. unfold on_sphere. lcbv. intros Hd Hg.
  set (w := e0 * (s0 - o0) + e1 * (s1 - o1) + e2 * (s2 - o2)).
  set (D := s3 * s3 - ((s0 - o0 - e0 * w) * (s0 - o0 - e0 * w) + (s1 - o1 - e1 * w) * (s1 - o1 - e1 * w) + (s2 - o2 - e2 * w) * (s2 - o2 - e2 * w))).
  set (K := (s0 - o0) * (s0 - o0) + (s1 - o1) * (s1 - o1) + (s2 - o2) * (s2 - o2) - s3 * s3).
  pose (on := fun t : R => (o0 + t * e0 - s0) * (o0 + t * e0 - s0) + (o1 + t * e1 - s1) * (o1 + t * e1 - s1) + (o2 + t * e2 - s2) * (o2 + t * e2 - s2) = s3 * s3).
  assert (DE : D = w * w - K).
  { unfold D, K. transitivity (s3 * s3 - ((s0 - o0) * (s0 - o0) + (s1 - o1) * (s1 - o1) + (s2 - o2) * (s2 - o2)) + 2 * w * w - w * w * (e0 * e0 + e1 * e1 + e2 * e2)).
    unfold w; ring. rewrite Hd. ring. }
  assert (ON : forall t, on t <-> (t - w) * (t - w) = D).
  { intros t. unfold on. rewrite DE.
    replace ((o0 + t * e0 - s0) * (o0 + t * e0 - s0) + (o1 + t * e1 - s1) * (o1 + t * e1 - s1) + (o2 + t * e2 - s2) * (o2 + t * e2 - s2)) with (K + s3 * s3 - 2 * t * w + t * t * (e0 * e0 + e1 * e1 + e2 * e2)) by (unfold K, w; ring).
    rewrite Hd. split; intros; lra. }
  assert (Hg' : ~ (D = 0 /\ w = 0)).
  { intros [A B]. apply Hg. split; [|exact B]. apply (proj2 (ON 0)). rewrite A, B. ring. }
  change (exists (r : bool) (u1 u2 : R), computes RS glm_ray_sphere [In (fl [o0; o1; o2]); In (fl [e0; e1; e2]); In (fl [s0; s1; s2; s3]); InOut (fl [t1]); InOut (fl [t2])] (VB r) [fl [u1]; fl [u2]] /\
    (r = true <-> exists t, 0 <= t /\ on t) /\ ((exists t, on t) -> u1 <= u2 /\ forall t, on t <-> t = u1 \/ t = u2) /\ ((forall t, ~ on t) -> u1 = t1 /\ u2 = t2)).
  destruct (Rlt_dec D 0) as [N|N].
  - exists false, t1, t2. split; [apply ray_sphere_miss; exact N|].
    assert (No : forall t, ~ on t) by (intros t T; apply ON in T; pose proof (Rle_0_sqr (t - w)); unfold Rsqr in *; lra).
    split; [|split].
    + split; [discriminate|]. intros (t & _ & T). destruct (No t T).
    + intros (t & T). destruct (No t T).
    + auto.
  - assert (P : 0 <= D) by lra. pose proof (sqrt_pos D) as Ps. pose proof (sqrt_def D P) as Sd.
    set (q := if Rle_dec 0 w then w + sqrt D else w - sqrt D). set (u := if Rle_dec 0 w then w - sqrt D else w + sqrt D).
    assert (Z : q <> 0).
    { unfold q. intros E. apply Hg'. destruct (Rle_dec 0 w).
      - assert (sqrt D = 0) by lra. rewrite H in Sd. split; lra.
      - lra. }
    assert (U : u * q = K) by (unfold u, q; destruct (Rle_dec 0 w); lra).
    pose proof (ray_sphere_hit o0 o1 o2 e0 e1 e2 s0 s1 s2 s3 t1 t2 q u P eq_refl Z U) as C.
    assert (M1 : Rmin q u = w - sqrt D) by (unfold Rmin, q, u; destruct (Rle_dec 0 w); destruct (Rle_dec _ _); lra).
    assert (M2 : Rmax q u = w + sqrt D) by (unfold Rmax, q, u; destruct (Rle_dec 0 w); destruct (Rle_dec _ _); lra).
    rewrite M1, M2 in C.
    assert (R : forall t, on t <-> t = w - sqrt D \/ t = w + sqrt D).
    { intros t. rewrite ON. split.
      - intros T. assert (F : (t - (w - sqrt D)) * (t - (w + sqrt D)) = 0) by lra. apply Rmult_integral in F. lra.
      - intros [T|T]; subst t; lra. }
    do 3 eexists. split; [exact C|]. split; [|split].
    + rewrite negb_true_iff, andb_false_iff, !Rltb_false. split.
      * intros G. exists (w + sqrt D). rewrite R. split; [lra|auto].
      * intros (t & T & O). apply R in O. lra.
    + intros _. split; [lra|]. exact R.
    + intros No. destruct (No (w + sqrt D)). apply R. auto.
Qed.
(** the origin on the sphere, the direction tangent: division by zero *)
Lemma C41_tangent_ok : forall o d s, length o = 3%nat -> length d = 3%nat -> length s = 4%nat ->
  on_sphere o d s 0 -> rdot d (vsub (firstn 3 s) o) = 0 ->
  aborts RS glm_ray_sphere [In (fl o); In (fl d); In (fl s); Out 1; Out 1] XFloatDomain.
Proof.
  intros o d s Lo Ld Ls. un3 o o0 o1 o2. un3 d e0 e1 e2. un4 s s0 s1 s2 s3. unfold on_sphere. lcbv. intros Ho Hw.
  apply ray_sphere_tangent; rewrite Hw; [|reflexivity]. lra.
Qed.
Lemma C41_ray_ex : exists o d s, norm2 d = 1 /\ ~ (on_sphere o d s 0 /\ rdot d (vsub (firstn 3 s) o) = 0) /\
  on_sphere o d s 4 /\ on_sphere o d s 6 /\ ~ on_sphere o d s 0.
Proof. exists [0; 0; 0], [1; 0; 0], [5; 0; 0; 1]. unfold on_sphere. lcbv. lra. Qed.
Lemma C41_tangent_ex : exists o d s, norm2 d = 1 /\ on_sphere o d s 0 /\ rdot d (vsub (firstn 3 s) o) = 0 /\ at_ s 3 = 1.
Proof. exists [0; 0; 0], [1; 0; 0], [0; 1; 0; 1]. unfold on_sphere. lcbv. lra. Qed.

(** ** C42 *)
Section Ray_triangle.
Variables o0 o1 o2 e0 e1 e2 x0 x1 x2 y0 y1 y2 z0 z1 z2 : R.
Let dt := (y0 - x0) * (e1 * (z2 - x2) - e2 * (z1 - x1)) + (y1 - x1) * (e2 * (z0 - x0) - e0 * (z2 - x2)) + (y2 - x2) * (e0 * (z1 - x1) - e1 * (z0 - x0)).
Let U := (o0 - x0) * (e1 * (z2 - x2) - e2 * (z1 - x1)) + (o1 - x1) * (e2 * (z0 - x0) - e0 * (z2 - x2)) + (o2 - x2) * (e0 * (z1 - x1) - e1 * (z0 - x0)).
Let V := e0 * ((o1 - x1) * (y2 - x2) - (o2 - x2) * (y1 - x1)) + e1 * ((o2 - x2) * (y0 - x0) - (o0 - x0) * (y2 - x2)) + e2 * ((o0 - x0) * (y1 - x1) - (o1 - x1) * (y0 - x0)).
Let W := (z0 - x0) * ((o1 - x1) * (y2 - x2) - (o2 - x2) * (y1 - x1)) + (z1 - x1) * ((o2 - x2) * (y0 - x0) - (o0 - x0) * (y2 - x2)) + (z2 - x2) * ((o0 - x0) * (y1 - x1) - (o1 - x1) * (y0 - x0)).

Ltac fold_tri := fold dt; fold U; fold V; fold W.
Definition tri_ok (u v : R) : bool := negb (Rltb u 0) && negb (Rltb 1 u) && negb (Rltb v 0) && negb (Rltb 1 (u + v)).

Lemma ray_triangle_flat : forall t0, - (1 / 1000000) < dt < 1 / 1000000 ->
  computes RS glm_ray_triangle [In (fl [o0; o1; o2]); In (fl [e0; e1; e2]); In (fl [x0; x1; x2]); In (fl [y0; y1; y2]); In (fl [z0; z1; z2]); InOut (fl [t0])] (VB false) [fl [t0]] /\
  computes RS glm_ray_triangle [In (fl [o0; o1; o2]); In (fl [e0; e1; e2]); In (fl [x0; x1; x2]); In (fl [y0; y1; y2]); In (fl [z0; z1; z2]); Val VNull] (VB false) [].
Proof.
  intros t0 [H H']. apply Rltb_true in H. apply Rltb_true in H'.
  split; symr; rprep; fold_tri; rewrite ?H, ?H'; reflexivity.
Qed.

Lemma ray_triangle_steep : forall t0 u v w, dt <= - (1 / 1000000) \/ 1 / 1000000 <= dt -> dt * u = U -> dt * v = V -> dt * w = W ->
  computes RS glm_ray_triangle [In (fl [o0; o1; o2]); In (fl [e0; e1; e2]); In (fl [x0; x1; x2]); In (fl [y0; y1; y2]); In (fl [z0; z1; z2]); InOut (fl [t0])]
    (VB (tri_ok u v && Rltb (1 / 1000000) w)) [fl [if tri_ok u v then w else t0]] /\
  computes RS glm_ray_triangle [In (fl [o0; o1; o2]); In (fl [e0; e1; e2]); In (fl [x0; x1; x2]); In (fl [y0; y1; y2]); In (fl [z0; z1; z2]); Val VNull]
    (VB (tri_ok u v && Rltb (1 / 1000000) w)) [].
Proof.
  intros t0 u v w H Hu Hv Hw.
  assert (Z : dt <> 0) by lra.
  assert (Eu : 1 / dt * U = u) by (rewrite <- Hu; field; exact Z).
  assert (Ev : 1 / dt * V = v) by (rewrite <- Hv; field; exact Z).
  assert (Ew : 1 / dt * W = w) by (rewrite <- Hw; field; exact Z).
  assert (N : (if Rltb (- (1 / 1000000)) dt then Rltb dt (1 / 1000000) else false) = false).
  { destruct (Rltb (- (1 / 1000000)) dt) eqn:E; [|reflexivity]. apply Rltb_true in E. apply Rltb_false. lra. }
  assert (Q : Reqb dt 0 = false) by (destruct (Reqb dt 0) eqn:E; [apply Reqb_true in E; contradiction|reflexivity]).
  unfold tri_ok.
  split; symr; rprep; fold_tri; rewrite ?N, ?Q, ?Eu, ?Ev, ?Ew; try reflexivity;
    destruct (Rltb u 0), (Rltb 1 u), (Rltb v 0), (Rltb 1 (u + v)); reflexivity.
Qed.

Lemma cramer_out : forall t u v, o0 + t * e0 = x0 + (u * (y0 - x0) + v * (z0 - x0)) -> o1 + t * e1 = x1 + (u * (y1 - x1) + v * (z1 - x1)) ->
  o2 + t * e2 = x2 + (u * (y2 - x2) + v * (z2 - x2)) -> dt * u = U /\ dt * v = V /\ dt * t = W.
Proof.
  intros t u v A B C. assert (o0 = x0 + (u * (y0 - x0) + v * (z0 - x0)) - t * e0) by lra. assert (o1 = x1 + (u * (y1 - x1) + v * (z1 - x1)) - t * e1) by lra.
  assert (o2 = x2 + (u * (y2 - x2) + v * (z2 - x2)) - t * e2) by lra. unfold dt, U, V, W. rewrite H, H0, H1. split; [ring|]. split; ring.
Qed.
Lemma cramer_in : forall t u v, dt <> 0 -> dt * u = U -> dt * v = V -> dt * t = W ->
  o0 + t * e0 = x0 + (u * (y0 - x0) + v * (z0 - x0)) /\ o1 + t * e1 = x1 + (u * (y1 - x1) + v * (z1 - x1)) /\ o2 + t * e2 = x2 + (u * (y2 - x2) + v * (z2 - x2)).
Proof.
  intros t u v Z A B C. split; [|split]; apply Rmult_eq_reg_l with dt; auto; rewrite !Rmult_plus_distr_l, <- !Rmult_assoc, A, B, C; unfold dt, U, V, W; ring.
Qed.
Lemma cramer_ex : dt <> 0 -> exists u v w, dt * u = U /\ dt * v = V /\ dt * w = W.
Proof. intros Z. exists (U / dt), (V / dt), (W / dt). split; [field; exact Z|]. split; field; exact Z. Qed.
End Ray_triangle.

(** [d] may be null; the determinant is that of the edges and the direction *)
Lemma C42_triangle_ok : forall o d x y z t0, length o = 3%nat -> length d = 3%nat -> length x = 3%nat -> length y = 3%nat -> length z = 3%nat ->
  let det := rdot (vsub y x) (vcross d (vsub z x)) in
  exists r t1,
  computes RS glm_ray_triangle [In (fl o); In (fl d); In (fl x); In (fl y); In (fl z); InOut (fl [t0])] (VB r) [fl [t1]] /\
  computes RS glm_ray_triangle [In (fl o); In (fl d); In (fl x); In (fl y); In (fl z); Val VNull] (VB r) [] /\
  (r = true -> 1 / 1000000 < t1 /\ in_triangle o d x y z t1) /\
  (1 / 1000000 <= Rabs det -> forall t, in_triangle o d x y z t -> t1 = t /\ (r = true <-> 1 / 1000000 < t)) /\
  (Rabs det < 1 / 1000000 \/ (forall t, ~ in_triangle o d x y z t) -> r = false /\ t1 = t0).
Proof.
  intros o d x y z t0 Lo Ld Lx Ly Lz. un3 o o0 o1 o2. un3 d e0 e1 e2. un3 x x0 x1 x2. un3 y y0 y1 y2. un3 z z0 z1 z2. unfold in_triangle. lcbv.
  set (dt := (y0 - x0) * (e1 * (z2 - x2) - e2 * (z1 - x1)) + (y1 - x1) * (e2 * (z0 - x0) - e0 * (z2 - x2)) + (y2 - x2) * (e0 * (z1 - x1) - e1 * (z0 - x0))).
  assert (J : forall t, (exists u v, 0 <= u /\ 0 <= v /\ u + v <= 1 /\ [o0 + t * e0; o1 + t * e1; o2 + t * e2] = [x0 + (u * (y0 - x0) + v * (z0 - x0)); x1 + (u * (y1 - x1) + v * (z1 - x1)); x2 + (u * (y2 - x2) + v * (z2 - x2))]) <->
    exists u v, 0 <= u /\ 0 <= v /\ u + v <= 1 /\ o0 + t * e0 = x0 + (u * (y0 - x0) + v * (z0 - x0)) /\ o1 + t * e1 = x1 + (u * (y1 - x1) + v * (z1 - x1)) /\ o2 + t * e2 = x2 + (u * (y2 - x2) + v * (z2 - x2))).
  { intros t. split; intros (u & v & A & B & C & D); exists u, v; (split; [exact A|]); (split; [exact B|]); (split; [exact C|]).
    - injection D. auto.
    - destruct D as (D & E & F). rewrite D, E, F. reflexivity. }
  destruct (Rlt_dec (Rabs dt) (1 / 1000000)) as [N|N].
  - exists false, t0. apply Rabs_def2 in N as N'. destruct (ray_triangle_flat o0 o1 o2 e0 e1 e2 x0 x1 x2 y0 y1 y2 z0 z1 z2 t0 ltac:(fold dt; lra)) as [C C'].
    split; [exact C|]. split; [exact C'|]. split; [discriminate|]. split; [intros; exfalso; lra|auto].
  - assert (N' : dt <= - (1 / 1000000) \/ 1 / 1000000 <= dt) by (unfold Rabs in N; destruct (Rcase_abs dt); lra).
    assert (Z : dt <> 0) by lra. unfold dt in N', Z.
    destruct (cramer_ex o0 o1 o2 e0 e1 e2 x0 x1 x2 y0 y1 y2 z0 z1 z2 Z) as (u & v & w & Hu & Hv & Hw).
    destruct (ray_triangle_steep o0 o1 o2 e0 e1 e2 x0 x1 x2 y0 y1 y2 z0 z1 z2 t0 u v w N' Hu Hv Hw) as [C C'].
    do 2 eexists. split; [exact C|]. split; [exact C'|]. clear C C'.
    destruct (cramer_in o0 o1 o2 e0 e1 e2 x0 x1 x2 y0 y1 y2 z0 z1 z2 w u v Z Hu Hv Hw) as (I0 & I1 & I2).
    pose proof (cramer_out o0 o1 o2 e0 e1 e2 x0 x1 x2 y0 y1 y2 z0 z1 z2) as O. rewrite <- Hu, <- Hv, <- Hw in O. fold dt in O, Z.
    assert (K : forall t u' v', dt * u' = dt * u /\ dt * v' = dt * v /\ dt * t = dt * w -> u' = u /\ v' = v /\ t = w).
    { intros t u' v' (A & B & C). apply Rmult_eq_reg_l in A, B, C; auto. }
    assert (T : tri_ok u v = true <-> 0 <= u /\ 0 <= v /\ u + v <= 1).
    { unfold tri_ok. rewrite !andb_true_iff, !negb_true_iff, !Rltb_false. split; intros; lra. }
    clear Hu Hv Hw N'. split; [|split].
    + intros R. apply andb_true_iff in R as [R R']. rewrite R. apply T in R. apply Rltb_true in R'. split; [exact R'|]. apply J. exists u, v. tauto.
    + intros _ t Ht. apply J in Ht. destruct Ht as (u' & v' & A & B & C & D & E & F). destruct (K _ _ _ (O _ _ _ D E F)) as (X & Y & W). subst u' v' t.
      rewrite (proj2 T) by tauto. simpl. split; [reflexivity|]. apply Rltb_true.
    + intros [G|G]; [exfalso; lra|]. destruct (tri_ok u v) eqn:R; [|split; reflexivity]. exfalso. apply (G w). apply J. exists u, v. tauto.
Qed.
Lemma C42_triangle_ex : exists o d x y z, 1 / 1000000 <= Rabs (rdot (vsub y x) (vcross d (vsub z x))) /\ in_triangle o d x y z 2.
Proof.
  exists [1/4; 1/4; 2], [0; 0; -1], [0; 0; 0], [1; 0; 0], [0; 1; 0]. split; [|exists (1/4), (1/4)]; lcbv.
  - match goal with |- _ <= Rabs ?a => replace a with 1 by ring end. rewrite Rabs_R1. lra.
  - repeat split; try lra. cells ltac:(field).
Qed.
(** the point of the ray at parameter [t] *)
Lemma C42_at_ok : forall o d t, length o = 3%nat -> length d = 3%nat ->
  computes RS glm_ray_at [InA (fl o); InA (fl d); Val (VF t); Out 3] VVoid [fl (vadd o (vscale t d))].
Proof. go. Qed.
