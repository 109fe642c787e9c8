(** * Frustum planes, corners and boxes (C35) *)

From Coq Require Import String List ZArith Bool Reals Lra Lia.
From Verif Require Import Cglm.
From Verif.Spec Require Import Linear Geometry Affine Clip Frustum.
From Verif.Proofs Require Import Layout RExact AffTac Cam Util Project.
Import ListNotations.
Local Open Scope R_scope.

Lemma plane4 : forall a b c d, eps <= norm [a; b; c] -> exists x y z w, vscale (/ norm [a; b; c]) [a; b; c; d] = [x; y; z; w] /\
  let n := sqrt (a * a + b * b + c * c) in Rltb n (1 / 8388608) = false /\ n <> 0 /\
  a * (1 / n) = x /\ b * (1 / n) = y /\ c * (1 / n) = z /\ d * (1 / n) = w.
Proof.
  intros. do 4 eexists. split; [reflexivity|]. revert H. unfold eps. lcbv. intros H. split; [apply Rltb_false; lra|]. split; [lra|].
  unfold Rdiv. repeat split; ring.
Qed.
Ltac plane4 :=
  match goal with H : eps <= norm [?a; ?b; ?c] |- context [vscale (/ norm [?a; ?b; ?c]) [?a; ?b; ?c; ?d]] =>
    let x := fresh "x" in let y := fresh "y" in let z := fresh "z" in let w := fresh "w" in
    let E := fresh "E" in let B := fresh "B" in let N := fresh "N" in let X := fresh "X" in let Y := fresh "Y" in let Z := fresh "Z" in let W := fresh "W" in
    destruct (plane4 a b c d H) as (x & y & z & w & E & B & N & X & Y & Z & W); rewrite E; clear E H; cbv zeta in B, N, X, Y, Z, W end.
Definition unit_plane (q : list R) : list R := vscale (/ norm (firstn 3 q)) q.
Lemma planes_calc : forall M, length M = 16%nat -> (forall j, (j < 6)%nat -> eps <= norm (firstn 3 (clip_plane M j))) ->
  computes RS glm_frustum_planes [In (fl M); Out 24] VVoid [fl (flat_map (fun j => unit_plane (clip_plane M j)) (seq 0 6))].
Proof.
  intros M L H.
  pose proof (H 0%nat ltac:(lia)) as H0. pose proof (H 1%nat ltac:(lia)) as H1. pose proof (H 2%nat ltac:(lia)) as H2.
  pose proof (H 3%nat ltac:(lia)) as H3. pose proof (H 4%nat ltac:(lia)) as H4. pose proof (H 5%nat ltac:(lia)) as H5. clear H.
  unlists. cbv [flat_map seq unit_plane clip_plane row4 ent vadd vsub combine map fst snd firstn nth Nat.mul Nat.add app] in *.
  repeat plane4. cbv [fl map]. 
  symr; useeqs; rcbv; lcbv; gsplit; try reflexivity.
  all: repeat match goal with B : Rltb _ _ = false |- _ => rewrite ?B; clear B end.
  all: cbv beta iota delta [negb].
  all: try (reqs; sq0).
  all: try (apply negb_true_iff, Reqb_false; assumption).
  cells ltac:(first [assumption | ring]).
Qed.
(** ** C35 *)
Lemma pm_iff : forall a b : R, - b <= a <= b <-> 0 <= b + a /\ 0 <= b - a.
Proof. intros. lra. Qed.
(** six planes with unit normals; the points on_side all of them are those whose clip coordinates
    satisfy -w <= x, y, z <= w *)
Lemma C35_planes_ok : forall M, length M = 16%nat -> (forall j, (j < 6)%nat -> eps <= norm (firstn 3 (clip_plane M j))) ->
  exists q : list (list R), length q = 6%nat /\ (forall j, (j < 6)%nat -> length (nth j q []) = 4%nat /\ norm2 (firstn 3 (nth j q [])) = 1) /\
  computes RS glm_frustum_planes [In (fl M); Out 24] VVoid [fl (concat q)] /\
  forall p, length p = 3%nat -> ((forall j, (j < 6)%nat -> on_side (nth j q []) p) <-> in_clip false (clip M p)).
Proof.
  intros M L H. exists (map (fun j => unit_plane (clip_plane M j)) (seq 0 6)). split; [reflexivity|].
  assert (N : forall j, (j < 6)%nat -> nth j (map (fun j => unit_plane (clip_plane M j)) (seq 0 6)) [] = unit_plane (clip_plane M j)).
  { intros j Hj. do 6 (destruct j as [|j]; [reflexivity|]). lia. }
  assert (LP : forall j, (j < 6)%nat -> length (clip_plane M j) = 4%nat). { intros j Hj. do 6 (destruct j as [|j]; [reflexivity|]). lia. }
  split; [|split].
  - intros j Hj. rewrite N by auto. split; [unfold unit_plane, vscale; rewrite map_length; auto|].
    destruct (C59_half_space_ok (clip_plane M j) [0; 0; 0] (LP j Hj) eq_refl (H j Hj)) as [A _]. exact A.
  - rewrite <- flat_map_concat_map. apply planes_calc; auto.
  - intros p Lp.
    assert (S : forall j, (j < 6)%nat -> (on_side (nth j (map (fun j => unit_plane (clip_plane M j)) (seq 0 6)) []) p <-> on_side (clip_plane M j) p)).
    { intros j Hj. rewrite N by auto. destruct (C59_half_space_ok (clip_plane M j) p (LP j Hj) Lp (H j Hj)) as [_ [A _]]. unfold on_side. symmetry. exact A. }
    assert (Q : (forall j, (j < 6)%nat -> on_side (nth j (map (fun j => unit_plane (clip_plane M j)) (seq 0 6)) []) p) <-> (forall j, (j < 6)%nat -> on_side (clip_plane M j) p)).
    { split; intros G j Hj; specialize (G j Hj); revert G; rewrite (S j Hj); auto. }
    rewrite Q. clear Q S N LP H. un3 p x y z. unlists. unfold in_clip. rewrite !pm_iff. split.
    + intros G. pose proof (G 0%nat ltac:(lia)) as H0. pose proof (G 1%nat ltac:(lia)) as H1. pose proof (G 2%nat ltac:(lia)) as H2.
      pose proof (G 3%nat ltac:(lia)) as H3. pose proof (G 4%nat ltac:(lia)) as H4. pose proof (G 5%nat ltac:(lia)) as H5. clear G.
      revert H0 H1 H2 H3 H4 H5. unfold on_side, clip_plane, row4, clip. lcbv. intros. repeat split; lra.
    + unfold on_side, clip. intros G j Hj. revert G. unfold clip_plane, row4.
      do 6 (destruct j as [|j]; [lcbv; intros; lra|]). lia.
Qed.
Lemma C35_planes_ex : let M := [1;0;0;0; 0;1;0;0; 0;0;-2;-1; 0;0;-3;0] in forall j, (j < 6)%nat -> eps <= norm (firstn 3 (clip_plane M j)).
Proof.
  cbv zeta. intros j Hj. apply Rle_trans with (sqrt 1); [rewrite sqrt_1; unfold eps; lra|]. apply sqrt_le_1_alt.
  unfold clip_plane, row4. do 6 (destruct j as [|j]; [lcbv; lra|]). lia.
Qed.
Lemma corners_calc : forall N, length N = 16%nat -> (forall i, (i < 8)%nat -> at_ (clip N (cube_corner i)) 3 <> 0) ->
  computes RS glm_frustum_corners [In (fl N); Out 32] VVoid [fl (flat_map (fun i => dehom (clip N (cube_corner i)) ++ [1]) (seq 0 8))].
Proof.
  intros N L H.
  pose proof (H 0%nat ltac:(lia)) as H0. pose proof (H 1%nat ltac:(lia)) as H1. pose proof (H 2%nat ltac:(lia)) as H2.
  pose proof (H 3%nat ltac:(lia)) as H3. pose proof (H 4%nat ltac:(lia)) as H4. pose proof (H 5%nat ltac:(lia)) as H5.
  pose proof (H 6%nat ltac:(lia)) as H6. pose proof (H 7%nat ltac:(lia)) as H7. clear H.
  unlists. revert H0 H1 H2 H3 H4 H5 H6 H7. unfold dehom, clip, cube_corner. lcbv. intros.
  symr; rprep; try (solve [nz]); cells ltac:(field; lra).
Qed.
(** the corners: given the inverse matrix, the eight points (with w = 1) whose images are the
    corners of the clip cube *)
Lemma C35_corners_ok : forall M N, length M = 16%nat -> length N = 16%nat -> mmul 4 M N = mid 4 ->
  (forall i, (i < 8)%nat -> at_ (clip N (cube_corner i)) 3 <> 0) ->
  exists ps : list (list R), length ps = 8%nat /\
  computes RS glm_frustum_corners [In (fl N); Out 32] VVoid [fl (flat_map (fun p => p ++ [1]) ps)] /\
  forall i, (i < 8)%nat -> let c := clip M (nth i ps []) in length (nth i ps []) = 3%nat /\ at_ c 3 <> 0 /\ dehom c = cube_corner i.
Proof.
  intros M N LM LN E H. exists (map (fun i => dehom (clip N (cube_corner i))) (seq 0 8)). split; [reflexivity|]. split.
  - pose proof (corners_calc N LN H) as C. exact C.
  - intros i Hi.
    assert (Q : nth i (map (fun i => dehom (clip N (cube_corner i))) (seq 0 8)) [] = dehom (clip N (cube_corner i))).
    { do 8 (destruct i as [|i]; [reflexivity|]). lia. }
    rewrite Q. clear Q. specialize (H i Hi).
    assert (LC : length (cube_corner i) = 3%nat). { do 8 (destruct i as [|i]; [reflexivity|]). lia. }
    generalize dependent (cube_corner i). intros c W Lc. clear i Hi. cbv zeta. split; [reflexivity|].
    assert (X : clip M (dehom (clip N c)) = vscale (/ at_ (clip N c) 3) (c ++ [1])).
    { transitivity (mvec 4 4 M (vscale (/ at_ (clip N c) 3) (clip N c))).
      - unfold clip at 1. f_equal. assert (Lk : length (clip N c) = 4%nat) by reflexivity. generalize dependent (clip N c). intros k W Lk. un4 k k0 k1 k2 k3.
        revert W. unfold dehom. lcbv. intros. cells ltac:(field; auto).
      - rewrite mvec4_scale; auto. f_equal. unfold clip. rewrite mvec4_mul, E, mvec4_id; auto; un3 c x y z; reflexivity. }
    rewrite X. destruct (dehom_scale c (at_ (clip N c) 3) Lc W) as [D1 D2]. auto.
Qed.
(** the centre of the eight corners *)
Lemma C35_center_ok : forall cs, length cs = 32%nat ->
  computes RS glm_frustum_center [In (fl cs); Out 4] VVoid [fl (map (fun k => Rsum 8 (fun i => nth (4 * i + k) cs 0) / 8) (seq 0 4))].
Proof. intros. unlists. symr; rprep; cells ltac:(field). Qed.
