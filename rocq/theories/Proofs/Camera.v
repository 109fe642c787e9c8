(** * A camera: view, projection, culling and picking together (C70) *)

From Coq Require Import String List ZArith Bool Reals Lra Lia.
From Verif Require Import MiniC Contract RScalar Cglm.
From Verif.Spec Require Import Linear Geometry Affine Clip Frustum Box Camera.
From Verif.Proofs Require Import Layout RExact AffTac RTac Matrix View Cam Project Util Frustum Box2.
(* props: From Verif.Spec Require Import Linear Geometry Affine Clip Frustum Box Camera. *)
Import ListNotations.
Local Open Scope R_scope.


(** ** The planes of any matrix (C35, C38) *)

Definition safe_plane (q : list R) : list R := if Rlt_dec (norm (firstn 3 q)) eps then [0; 0; 0; 0] else unit_plane q.
Lemma plane4z : forall a b c d, exists x y z w, safe_plane [a; b; c; d] = [x; y; z; w] /\
  let n := sqrt (a * a + b * b + c * c) in (Rltb n (1 / 8388608) = false -> n <> 0) /\
  (if Rltb n (1 / 8388608) then 0 else a * (1 / n)) = x /\ (if Rltb n (1 / 8388608) then 0 else b * (1 / n)) = y /\
  (if Rltb n (1 / 8388608) then 0 else c * (1 / n)) = z /\ (if Rltb n (1 / 8388608) then 0 else d * (1 / n)) = w.
Proof.
  intros. do 4 eexists. split; [|repeat split; try reflexivity]; cbv zeta.
  - unfold safe_plane, unit_plane, eps. lcbv. unfold Rltb. destruct (Rlt_dec _ _); auto. unfold Rdiv. cells ltac:(ring).
  - unfold Rltb. destruct (Rlt_dec _ _); [discriminate|]. intros _. lra.
Qed.
Lemma planes_total : forall M, length M = 16%nat ->
  computes RS glm_frustum_planes [In (fl M); Out 24] VVoid [fl (flat_map (fun j => safe_plane (clip_plane M j)) (seq 0 6))].
Proof.
  intros M L. unlists. cbv [flat_map seq clip_plane row4 ent vadd vsub combine map fst snd nth Nat.mul Nat.add app] in *.
  repeat match goal with |- context [safe_plane [?a; ?b; ?c; ?d]] =>
    let x := fresh "x" in let y := fresh "y" in let z := fresh "z" in let w := fresh "w" in
    let E := fresh "E" in let N := fresh "N" in let X := fresh "X" in let Y := fresh "Y" in let Z := fresh "Z" in let W := fresh "W" in
    destruct (plane4z a b c d) as (x & y & z & w & E & N & X & Y & Z & W); rewrite E; clear E; cbv zeta in N, X, Y, Z, W end.
  cbv [fl map]. symr; useeqs; rcbv; lcbv; gsplit; try reflexivity.
  all: try (reqs; sq0).
  1-6: match goal with N : (Rltb ?n ?e = false -> ?n <> 0) |- (if negb (Rltb ?n ?e) then _ else _) = true =>
    destruct (Rltb n e); [reflexivity|]; cbv beta iota delta [negb]; apply negb_true_iff, Reqb_false; auto end.
  cells ltac:(first [assumption | ring]).
Qed.
(** with no condition on the matrix: each plane has a unit normal or is zero, and all visible points
    are on the positive side of each; so a box with a visible point is never culled *)
Lemma C35_total_ok : forall M, length M = 16%nat -> exists q : list (list R), length q = 6%nat /\
  computes RS glm_frustum_planes [In (fl M); Out 24] VVoid [fl (concat q)] /\
  (forall j, (j < 6)%nat -> length (nth j q []) = 4%nat /\ (norm2 (firstn 3 (nth j q [])) = 1 \/ nth j q [] = [0; 0; 0; 0] /\ norm (firstn 3 (clip_plane M j)) < eps)) /\
  forall p, length p = 3%nat -> in_clip false (clip M p) -> (forall j, (j < 6)%nat -> on_side (nth j q []) p) /\
    forall b, length b = 6%nat -> in_aabb 3 b p -> computes RS glm_aabb_frustum [In (fl b); In (fl (concat q))] (VB true) [].
Proof.
  intros M L. exists (map (fun j => safe_plane (clip_plane M j)) (seq 0 6)). split; [reflexivity|].
  assert (N : forall j, (j < 6)%nat -> nth j (map (fun j => safe_plane (clip_plane M j)) (seq 0 6)) [] = safe_plane (clip_plane M j)).
  { intros j Hj. do 6 (destruct j as [|j]; [reflexivity|]). lia. }
  assert (LP : forall j, (j < 6)%nat -> length (clip_plane M j) = 4%nat). { intros j Hj. do 6 (destruct j as [|j]; [reflexivity|]). lia. }
  assert (LS : forall j, (j < 6)%nat -> length (safe_plane (clip_plane M j)) = 4%nat).
  { intros j Hj. unfold safe_plane. destruct (Rlt_dec _ _); auto. unfold unit_plane, vscale. rewrite map_length. auto. }
  assert (C : computes RS glm_frustum_planes [In (fl M); Out 24] VVoid [fl (concat (map (fun j => safe_plane (clip_plane M j)) (seq 0 6)))])
    by (rewrite <- flat_map_concat_map; apply planes_total; auto).
  split; [exact C|]. split.
  - intros j Hj. rewrite N by auto. split; [auto|]. unfold safe_plane. destruct (Rlt_dec _ _) as [K|K]; [right; auto|left].
    assert (H : eps <= norm (firstn 3 (clip_plane M j))) by lra. destruct (C59_half_space_ok (clip_plane M j) [0; 0; 0] (LP j Hj) eq_refl H) as [A _]. exact A.
  - intros p Lp V.
    assert (S : forall j, (j < 6)%nat -> on_side (safe_plane (clip_plane M j)) p).
    { intros j Hj. assert (G : on_side (clip_plane M j) p).
      { clear - V Lp L Hj. un3 p x y z. unlists. revert V. unfold in_clip. rewrite !pm_iff. unfold on_side, clip, clip_plane, row4. do 6 (destruct j as [|j]; [lcbv; intros; lra|]). lia. }
      unfold safe_plane. destruct (Rlt_dec _ _) as [K|K].
      - clear - Lp. un3 p x y z. unfold on_side. lcbv. lra.
      - assert (H : eps <= norm (firstn 3 (clip_plane M j))) by lra. destruct (C59_half_space_ok (clip_plane M j) p (LP j Hj) Lp H) as [_ [A _]]. apply A. exact G. }
    split; [intros j Hj; rewrite N; auto|]. intros b Lb B.
    assert (LC : length (concat (map (fun j => safe_plane (clip_plane M j)) (seq 0 6))) = 24%nat).
    { cbn [map seq concat]. rewrite !app_length, !LS by lia. reflexivity. }
    apply C38_conservative_ok with p; auto. intros j Hj.
    replace (firstn 4 (skipn (4 * j) (concat (map (fun j => safe_plane (clip_plane M j)) (seq 0 6))))) with (safe_plane (clip_plane M j)); auto.
    assert (X : forall a b c d e f : list R, length a = 4%nat -> length b = 4%nat -> length c = 4%nat -> length d = 4%nat -> length e = 4%nat -> length f = 4%nat ->
      nth j [a; b; c; d; e; f] [] = firstn 4 (skipn (4 * j) (concat [a; b; c; d; e; f]))).
    { clear - Hj. intros. un4 a x0 x1 x2 x3. un4 b y0 y1 y2 y3. un4 c z0 z1 z2 z3. un4 d w0 w1 w2 w3. un4 e v0 v1 v2 v3. un4 f q0 q1 q2 q3. do 6 (destruct j as [|j]; [reflexivity|]). lia. }
    rewrite <- N by auto. cbn [map seq]. apply X; apply LS; lia.
Qed.

Lemma frame_gen : forall (lh : bool) d s up k, length d = 3%nat -> length s = 3%nat -> length up = 3%nat -> norm2 d = 1 -> norm2 s = 1 -> 0 < k ->
  (if lh then vcross up d else vcross d up) = vscale k s -> let u := if lh then vcross d s else vcross s d in
  length u = 3%nat /\ norm2 u = 1 /\ rdot d s = 0 /\ rdot d u = 0 /\ rdot s u = 0 /\ rdot s up = 0 /\ 0 < rdot u up.
Proof.
  intros lh d s up k L1 L2 L3 Nd Ns Pk E u. un3 d g0 g1 g2. un3 s s0 s1 s2. un3 up u0 u1 u2.
  assert (Hk : k <> 0) by lra.
  assert (D : rdot [g0; g1; g2] [s0; s1; s2] = 0 /\ rdot [s0; s1; s2] [u0; u1; u2] = 0 /\ rdot u [u0; u1; u2] = k).
  { revert Nd Ns E. unfold u. destruct lh; lcbv; intros Nd Ns E; injection E as E0 E1 E2; (split; [|split]).
    1,4: apply Rmult_eq_reg_l with k; auto; transitivity (g0 * (k * s0) + g1 * (k * s1) + g2 * (k * s2)); [ring|]; rewrite <- E0, <- E1, <- E2; ring.
    1,3: apply Rmult_eq_reg_l with k; auto; transitivity (u0 * (k * s0) + u1 * (k * s1) + u2 * (k * s2)); [ring|]; rewrite <- E0, <- E1, <- E2; ring.
    1,2: transitivity (k * (s0 * s0 + s1 * s1 + s2 * s2)); [|rewrite Ns; ring]; transitivity (s0 * (k * s0) + s1 * (k * s1) + s2 * (k * s2)); [|ring]; rewrite <- E0, <- E1, <- E2; ring. }
  destruct D as (D1 & D2 & D3). split; [destruct lh; reflexivity|].
  assert (Q : norm2 u = norm2 [g0; g1; g2] * norm2 [s0; s1; s2] - rdot [g0; g1; g2] [s0; s1; s2] * rdot [g0; g1; g2] [s0; s1; s2]) by (unfold u; destruct lh; lcbv; ring).
  rewrite Nd, Ns, D1 in Q. split; [lra|]. split; auto. split; [unfold u; destruct lh; lcbv; ring|]. split; [unfold u; destruct lh; lcbv; ring|]. split; auto. lra.
Qed.
Lemma frame_ok : forall lh eye center up, well_placed eye center up ->
  let d := forward eye center in let s := rightward lh eye center up in let u := upward lh eye center up in
  length d = 3%nat /\ length s = 3%nat /\ length u = 3%nat /\ norm2 d = 1 /\ norm2 s = 1 /\ norm2 u = 1 /\
  rdot d s = 0 /\ rdot d u = 0 /\ rdot s u = 0 /\ rdot s up = 0 /\ 0 < rdot u up.
Proof.
  intros lh eye center up (L1 & L2 & L3 & H1 & H2) d s u.
  assert (L4 : length (vsub center eye) = 3%nat) by (un3 eye e0 e1 e2; un3 center k0 k1 k2; reflexivity).
  destruct (norm3_unit _ L4 H1) as (Ld & Nd & _). fold (forward eye center) in Ld, Nd. fold d in Ld, Nd, H2.
  assert (Lc : length (if lh then vcross up d else vcross d up) = 3%nat) by (destruct lh; reflexivity).
  assert (Hc : eps <= norm (if lh then vcross up d else vcross d up)).
  { destruct lh; auto. replace (norm (vcross up d)) with (norm (vcross d up)); auto. unfold norm. f_equal.
    clear - Ld L3. clearbody d. un3 d f0 f1 f2. un3 up u0 u1 u2. lcbv. ring. }
  destruct (norm3_unit _ Lc Hc) as (Ls & Ns & Es).
  change (normalized (if lh then vcross up d else vcross d up)) with s in *.
  assert (Pk : 0 < norm (if lh then vcross up d else vcross d up)) by (pose proof eps_pos; lra).
  destruct (frame_gen lh d s up _ Ld Ls L3 Nd Ns Pk Es) as (A & B & C & D & E & F & G).
  repeat split; assumption.
Qed.

(** ** The matrix *)

Definition view (lh : bool) (eye center up : list R) : list R := look_mat lh eye (forward eye center) (rightward lh eye center up).
Definition cam_mat lh zo eye center up t a n f : list R := mmul 4 (persp_mat lh zo t a n f) (view lh eye center up).
Lemma camera_mat : forall lh zo eye center up fovy a n f, well_placed eye center up -> 0 < fovy < PI -> 0 < a -> 0 < n -> n < f ->
  camera lh zo eye center up fovy a n f (cam_mat lh zo eye center up (tan (fovy / 2)) a n f).
Proof.
  intros lh zo eye center up fovy a n f W F A N NF. destruct W as (L1 & L2 & L3 & _). destruct (half_turn fovy F) as [C0 T0].
  exists (view lh eye center up), (persp_mat lh zo (tan (fovy / 2)) a n f).
  split; [reflexivity|]. split; [reflexivity|]. split; [reflexivity|].
  split; [apply lookat_calc; auto|]. split; [apply persp_calc; lra|]. apply C05_mat4_mul_ok; reflexivity.
Qed.
Lemma view_acts : forall lh eye center up p, well_placed eye center up -> length p = 3%nat -> let c := coords lh eye center up p in
  mvec 4 4 (view lh eye center up) (p ++ [1]) = [at_ c 0; at_ c 1; if lh then at_ c 2 else - at_ c 2; 1].
Proof.
  intros lh eye center up p W Lp c. destruct (frame_ok lh eye center up W) as (Ld & Ls & Lu & _). destruct W as (L1 & _).
  unfold view, c, coords, look_mat. unfold upward in *. revert Ld Ls Lu. generalize (forward eye center) (rightward lh eye center up). intros d s Ld Ls Lu.
  un3 d g0 g1 g2. un3 s s0 s1 s2. un3 eye e0 e1 e2. un3 p p0 p1 p2. unfold aff, rows3, neg. destruct lh; lcbv; cells ltac:(ring).
Qed.
Lemma cam_acts : forall lh zo eye center up t a n f p, well_placed eye center up -> length p = 3%nat -> 0 < a -> 0 < t -> 0 < n -> n < f ->
  let c := coords lh eye center up p in
  clip (cam_mat lh zo eye center up t a n f) p =
    [at_ c 0 / (a * t); at_ c 1 / t; ((if zo then f else f + n) * at_ c 2 - (if zo then 1 else 2) * f * n) / (f - n); at_ c 2].
Proof.
  intros lh zo eye center up t a n f p W Lp A T0 N NF c. unfold clip, cam_mat. rewrite <- mvec4_mul; [|reflexivity|reflexivity|un3 p p0 p1 p2; reflexivity].
  rewrite view_acts by auto. fold c. generalize (at_ c 0) (at_ c 1) (at_ c 2). intros x y d. unfold persp_mat. destruct lh, zo; lcbv; cells ltac:(field; lra).
Qed.
Lemma in_clip_seen : forall (zo : bool) x y d t a n f, 0 < a -> 0 < t -> 0 < n -> n < f ->
  (in_clip zo [x / (a * t); y / t; ((if zo then f else f + n) * d - (if zo then 1 else 2) * f * n) / (f - n); d] <-> seen a t n f [x; y; d]).
Proof.
  intros zo x y d t a n f A T0 N NF. unfold in_clip, seen. lcbv.
  assert (AT : 0 < a * t) by (apply Rmult_lt_0_compat; auto).
  assert (K : forall k z, 0 < k -> (- d <= z / k <= d <-> Rabs z <= k * d)).
  { intros k z Hk. assert (E : z = (z / k) * k) by (field; lra). split; intros H.
    - rewrite E. apply Rabs_le. nra.
    - assert (Q : - (k * d) <= z <= k * d) by (unfold Rabs in H; destruct (Rcase_abs z); lra). nra. }
  rewrite (K _ x AT), (K _ y T0). set (h := if zo then 0 else - d).
  assert (Z : h <= ((if zo then f else f + n) * d - (if zo then 1 else 2) * f * n) / (f - n) <= d <-> n <= d <= f).
  { set (z := _ / (f - n)). assert (E : z * (f - n) = (if zo then f else f + n) * d - (if zo then 1 else 2) * f * n) by (unfold z; field; lra).
    clearbody z. unfold h. destruct zo; split; intros [H1 H2]; split; nra. }
  tauto.
Qed.

(** ** C70 *)

Lemma coords_list : forall lh eye center up p, coords lh eye center up p = [at_ (coords lh eye center up p) 0; at_ (coords lh eye center up p) 1; at_ (coords lh eye center up p) 2].
Proof. reflexivity. Qed.
(** The frame is orthonormal with up above; clip coordinate w is the distance ahead, the clip volume
    is the field of view. *)
Lemma C70_visible_ok : forall lh zo eye center up fovy a n f, well_placed eye center up -> 0 < fovy < PI -> 0 < a -> 0 < n -> n < f ->
  exists M, camera lh zo eye center up fovy a n f M /\
  forall p, length p = 3%nat -> let c := coords lh eye center up p in
    at_ (clip M p) 3 = at_ c 2 /\ (in_clip zo (clip M p) <-> seen a (tan (fovy / 2)) n f c).
Proof.
  intros lh zo eye center up fovy a n f W F A N NF. destruct (half_turn fovy F) as [_ T0].
  exists (cam_mat lh zo eye center up (tan (fovy / 2)) a n f). split; [apply camera_mat; auto|].
  intros p Lp c. unfold c. rewrite cam_acts by auto. split; [reflexivity|]. apply in_clip_seen; auto.
Qed.
Lemma C70_frame_ok : forall lh eye center up, well_placed eye center up ->
  let d := forward eye center in let s := rightward lh eye center up in let u := upward lh eye center up in
  norm2 d = 1 /\ norm2 s = 1 /\ norm2 u = 1 /\ rdot d s = 0 /\ rdot d u = 0 /\ rdot s u = 0 /\
  rdot s up = 0 /\ 0 < rdot u up /\
  (forall p, length p = 3%nat -> located lh eye center up (coords lh eye center up p) = p) /\
  (forall c, length c = 3%nat -> coords lh eye center up (located lh eye center up c) = c) /\
  coords lh eye center up eye = [0; 0; 0] /\ coords lh eye center up center = [0; 0; norm (vsub center eye)].
Proof.
  intros lh eye center up W d s u. destruct (frame_ok lh eye center up W) as (Ld & Ls & Lu & Nd & Ns & Nu & D1 & D2 & D3 & D4 & D5).
  fold d s u in Ld, Ls, Lu, Nd, Ns, Nu, D1, D2, D3, D4, D5.
  do 8 (split; [assumption|]).
  assert (E : vsub center eye = vscale (norm (vsub center eye)) d).
  { destruct W as (L1 & L2 & _ & H1 & _). apply norm3_unit; auto. un3 eye e0 e1 e2; un3 center k0 k1 k2; reflexivity. }
  assert (Rt : rotation (rows3 s u (if lh then d else neg d))).
  { unfold u. unfold upward. apply frame_rotation; auto. }
  assert (L1 : length eye = 3%nat) by apply W. assert (L2 : length center = 3%nat) by apply W.
  unfold located, coords. fold d s u. clearbody d s u. clear W. revert E. generalize (norm (vsub center eye)). intros k E. rewrite E.
  destruct Rt as [O _]. unfold orthonormal in O.
  clear D4 D5 E. un3 d g0 g1 g2. un3 s s0 s1 s2. un3 u u0 u1 u2. un3 eye e0 e1 e2.
  split; [|split; [|split]].
  - intros p Lp. un3 p p0 p1 p2. revert O. unfold rows3, neg. clear.
    assert (Q : forall e0 e1 e2, mmul 3 (transp 3 3 [s0; u0; g0; s1; u1; g1; s2; u2; g2]) [s0; u0; g0; s1; u1; g1; s2; u2; g2] = mid 3 ->
      (s0 * e0 + s1 * e1 + s2 * e2) * s0 + ((u0 * e0 + u1 * e1 + u2 * e2) * u0 + (g0 * e0 + g1 * e1 + g2 * e2) * g0) = e0 /\
      (s0 * e0 + s1 * e1 + s2 * e2) * s1 + ((u0 * e0 + u1 * e1 + u2 * e2) * u1 + (g0 * e0 + g1 * e1 + g2 * e2) * g1) = e1 /\
      (s0 * e0 + s1 * e1 + s2 * e2) * s2 + ((u0 * e0 + u1 * e1 + u2 * e2) * u2 + (g0 * e0 + g1 * e1 + g2 * e2) * g2) = e2).
    { intros x y z O. revert O. lcbv. intros O. injection O as A1 A2 A3 A4 A5 A6 A7 A8 A9.
      apply (f_equal (Rmult x)) in A1. apply (f_equal (Rmult y)) in A2. apply (f_equal (Rmult z)) in A3.
      apply (f_equal (Rmult x)) in A4. apply (f_equal (Rmult y)) in A5. apply (f_equal (Rmult z)) in A6.
      apply (f_equal (Rmult x)) in A7. apply (f_equal (Rmult y)) in A8. apply (f_equal (Rmult z)) in A9.
      split; [|split]; lra. }
    intros O. assert (O' : mmul 3 (transp 3 3 [s0; u0; g0; s1; u1; g1; s2; u2; g2]) [s0; u0; g0; s1; u1; g1; s2; u2; g2] = mid 3).
    { rewrite <- O. destruct lh; lcbv; cells ltac:(ring). }
    destruct (Q (p0 - e0) (p1 - e1) (p2 - e2) O') as (Q0 & Q1 & Q2). lcbv. cells ltac:(lra).
  - intros c Lc. un3 c x y z. revert Nd Ns Nu D1 D2 D3. clear. lcbv. intros. cells idtac.
    + transitivity (x * (s0 * s0 + s1 * s1 + s2 * s2) + y * (s0 * u0 + s1 * u1 + s2 * u2) + z * (g0 * s0 + g1 * s1 + g2 * s2)); [ring|]. rewrite Ns, D3, D1. ring.
    + transitivity (x * (s0 * u0 + s1 * u1 + s2 * u2) + y * (u0 * u0 + u1 * u1 + u2 * u2) + z * (g0 * u0 + g1 * u1 + g2 * u2)); [ring|]. rewrite Nu, D3, D2. ring.
    + transitivity (x * (g0 * s0 + g1 * s1 + g2 * s2) + y * (g0 * u0 + g1 * u1 + g2 * u2) + z * (g0 * g0 + g1 * g1 + g2 * g2)); [ring|]. rewrite Nd, D1, D2. ring.
  - lcbv. cells ltac:(ring).
  - revert Nd Ns Nu D1 D2 D3. clear. lcbv. intros. cells idtac.
    + transitivity (k * (g0 * s0 + g1 * s1 + g2 * s2)); [ring|]. rewrite D1. ring.
    + transitivity (k * (g0 * u0 + g1 * u1 + g2 * u2)); [ring|]. rewrite D2. ring.
    + transitivity (k * (g0 * g0 + g1 * g1 + g2 * g2)); [ring|]. rewrite Nd. ring.
Qed.
(** what is ahead appears in the viewport where it should; the centre in the middle *)
Lemma appears_window : forall (zo : bool) vp x y d t a n f, 0 < a -> 0 < t -> 0 < n -> n < f -> d <> 0 ->
  window zo vp [x / (a * t); y / t; ((if zo then f else f + n) * d - (if zo then 1 else 2) * f * n) / (f - n); d] = appears vp a t n f [x; y; d].
Proof.
  intros zo vp x y d t a n f A T0 N NF D. unfold window, appears. lcbv. destruct zo; cells ltac:(field; repeat split; try lra; auto).
Qed.
Lemma C70_window_ok : forall lh zo eye center up fovy a n f vp, well_placed eye center up -> 0 < fovy < PI -> 0 < a -> 0 < n -> n < f -> length vp = 4%nat ->
  exists M, camera lh zo eye center up fovy a n f M /\
  (forall p, length p = 3%nat -> let c := coords lh eye center up p in at_ c 2 <> 0 ->
    computes RS (project_fn zo) [InA (fl p); In (fl M); In (fl vp); Out 3] VVoid [fl (appears vp a (tan (fovy / 2)) n f c)]) /\
  exists z, computes RS (project_fn zo) [InA (fl center); In (fl M); In (fl vp); Out 3] VVoid [fl [at_ vp 0 + at_ vp 2 / 2; at_ vp 1 + at_ vp 3 / 2; z]].
Proof.
  intros lh zo eye center up fovy a n f vp W F A N NF Lv. destruct (half_turn fovy F) as [_ T0].
  exists (cam_mat lh zo eye center up (tan (fovy / 2)) a n f). split; [apply camera_mat; auto|].
  assert (G : forall p, length p = 3%nat -> let c := coords lh eye center up p in at_ c 2 <> 0 ->
    computes RS (project_fn zo) [InA (fl p); In (fl (cam_mat lh zo eye center up (tan (fovy / 2)) a n f)); In (fl vp); Out 3] VVoid [fl (appears vp a (tan (fovy / 2)) n f c)]).
  { intros p Lp c D. unfold c. rewrite coords_list, <- (appears_window zo) by auto. rewrite <- cam_acts by auto.
    apply C34_project_ok; auto. rewrite cam_acts by auto. exact D. }
  split; [exact G|].
  assert (L2 : length center = 3%nat) by apply W.
  assert (C : coords lh eye center up center = [0; 0; norm (vsub center eye)]) by apply (C70_frame_ok lh eye center up W).
  assert (K : 0 < norm (vsub center eye)) by (pose proof eps_pos; destruct W as (_ & _ & _ & He & _); lra).
  specialize (G center L2). cbv zeta in G. rewrite C in G. eexists.
  match goal with |- computes _ _ _ _ [fl [?x; ?y; _]] => replace x with (at_ (appears vp a (tan (fovy / 2)) n f [0; 0; norm (vsub center eye)]) 0); [replace y with (at_ (appears vp a (tan (fovy / 2)) n f [0; 0; norm (vsub center eye)]) 1)|] end.
  - apply G. lcbv. change (norm (vsub center eye) <> 0). lra.
  - unfold appears. cbv [at_ nth]. field. split; lra.
  - unfold appears. cbv [at_ nth]. field. repeat split; lra.
Qed.

(** ** Culling *)

Lemma det_cam : forall lh zo eye center up t a n f, well_placed eye center up -> 0 < t -> 0 < a -> 0 < n -> n < f ->
  det 4 (cam_mat lh zo eye center up t a n f) <> 0.
Proof.
  intros lh zo eye center up t a n f W T0 A N NF. unfold cam_mat.
  rewrite (proj1 (C07_multiplicative_ok 4%nat (or_intror (or_intror eq_refl)) (persp_mat lh zo t a n f) (view lh eye center up) eq_refl eq_refl)).
  destruct (frame_ok lh eye center up W) as (Ld & Ls & Lu & Nd & Ns & Nu & D1 & D2 & D3 & _).
  destruct (frame_rotation lh _ _ Ld Ls Nd Ns D1) as [_ R1].
  assert (V : det 4 (view lh eye center up) = 1).
  { rewrite <- R1. unfold view, look_mat. generalize (rows3 (rightward lh eye center up) (if lh then vcross (forward eye center) (rightward lh eye center up) else vcross (rightward lh eye center up) (forward eye center)) (if lh then forward eye center else neg (forward eye center))).
    intros r. match goal with |- det 4 (aff r ?t) = _ => generalize t end. intros tr. unfold aff. lcbv. ring. }
  rewrite V. assert (P : det 4 (persp_mat lh zo t a n f) = (if zo then 1 else 2) * f * n / (f - n) * / t * / t / a * (if lh then 1 else -1)).
  { unfold persp_mat. destruct lh, zo; lcbv; field; repeat split; lra. }
  rewrite P, Rmult_1_r. assert (0 < / t) by (apply Rinv_0_lt_compat; auto). assert (0 < / a) by (apply Rinv_0_lt_compat; auto). assert (0 < / (f - n)) by (apply Rinv_0_lt_compat; lra).
  assert (Q : 0 < (if zo then 1 else 2) * f * n / (f - n) * / t * / t / a) by (unfold Rdiv; destruct zo; repeat apply Rmult_lt_0_compat; lra).
  destruct lh; lra.
Qed.
(** squared length of the normals of the six planes *)
Lemma plane_norms : forall s u b tr p0 p5 p10 p11 p14, length s = 3%nat -> length u = 3%nat -> length b = 3%nat ->
  norm2 s = 1 -> norm2 u = 1 -> norm2 b = 1 -> rdot b s = 0 -> rdot b u = 0 ->
  let M := mmul 4 [p0; 0; 0; 0; 0; p5; 0; 0; 0; 0; p10; p11; 0; 0; p14; 0] (aff (rows3 s u b) tr) in
  let N j := norm2 (firstn 3 (clip_plane M j)) in
  N 0%nat = p0 * p0 + p11 * p11 /\ N 1%nat = p0 * p0 + p11 * p11 /\ N 2%nat = p5 * p5 + p11 * p11 /\ N 3%nat = p5 * p5 + p11 * p11 /\
  N 4%nat = (p11 + p10) * (p11 + p10) /\ N 5%nat = (p11 - p10) * (p11 - p10).
Proof.
  intros s u b tr p0 p5 p10 p11 p14 Ls Lu Lb Ns Nu Nb D1 D2 M N.
  assert (Q : forall x y, norm2 (vadd (vscale x b) (vscale y s)) = x * x * norm2 b + y * y * norm2 s + 2 * x * y * rdot b s) by (intros; clear - Ls Lb; un3 s s0 s1 s2; un3 b b0 b1 b2; lcbv; ring).
  assert (Q' : forall x y, norm2 (vadd (vscale x b) (vscale y u)) = x * x * norm2 b + y * y * norm2 u + 2 * x * y * rdot b u) by (intros; clear - Lu Lb; un3 u s0 s1 s2; un3 b b0 b1 b2; lcbv; ring).
  assert (Q2 : forall x, norm2 (vscale x b) = x * x * norm2 b) by (intros; clear - Lb; un3 b b0 b1 b2; lcbv; ring).
  rewrite Ns, Nb, D1 in Q. rewrite Nu, Nb, D2 in Q'. rewrite Nb in Q2.
  assert (E : (forall j, (j < 6)%nat -> firstn 3 (clip_plane M j) = nth j
    [vadd (vscale p11 b) (vscale p0 s); vadd (vscale p11 b) (vscale (- p0) s); vadd (vscale p11 b) (vscale p5 u); vadd (vscale p11 b) (vscale (- p5) u);
     vscale (p11 + p10) b; vscale (p11 - p10) b] [])).
  { clear - Ls Lu Lb. unfold M. un3 s s0 s1 s2. un3 u u0 u1 u2. un3 b b0 b1 b2. intros j Hj. unfold aff, rows3, clip_plane, row4.
    do 6 (destruct j as [|j]; [lcbv; cells ltac:(ring)|]). lia. }
  unfold N. rewrite !E by lia. cbn [nth]. rewrite !Q, !Q', !Q2. repeat split; ring.
Qed.
Lemma fl_eq : forall (a b : list R), fl a = fl b -> a = b.
Proof. induction a; destruct b; simpl; intros H; inversion H; f_equal; auto. Qed.
Lemma sqrt_eps : forall v, eps * eps <= norm2 v -> eps <= norm v.
Proof. intros v H. pose proof eps_pos. unfold norm. rewrite <- (sqrt_square eps) by lra. apply sqrt_le_1_alt. exact H. Qed.
Lemma cam_planes : forall lh eye center up t a n f, well_placed eye center up -> 0 < t -> 0 < a -> 0 < n -> n < f -> eps * (f - n) <= 2 * n ->
  forall j, (j < 6)%nat -> eps <= norm (firstn 3 (clip_plane (cam_mat lh false eye center up t a n f) j)).
Proof.
  intros lh eye center up t a n f W T0 A N NF FR j Hj. apply sqrt_eps.
  destruct (frame_ok lh eye center up W) as (Ld & Ls & Lu & Nd & Ns & Nu & D1 & D2 & D3 & _).
  assert (B : exists b, b = (if lh then forward eye center else neg (forward eye center)) /\ length b = 3%nat /\ norm2 b = 1 /\ rdot b (rightward lh eye center up) = 0 /\ rdot b (upward lh eye center up) = 0).
  { eexists. split; [reflexivity|]. clear - Ld Ls Lu Nd D1 D2. revert Ld Ls Lu Nd D1 D2. generalize (forward eye center) (rightward lh eye center up) (upward lh eye center up). intros d s u Ld Ls Lu.
    un3 d g0 g1 g2. un3 s s0 s1 s2. un3 u u0 u1 u2. unfold neg. destruct lh; lcbv; intros; repeat split; lra. }
  destruct B as (b & Eb & Lb & Nb & B1 & B2).
  unfold cam_mat, view, look_mat. rewrite <- Eb. change (if lh then vcross (forward eye center) (rightward lh eye center up) else vcross (rightward lh eye center up) (forward eye center)) with (upward lh eye center up).
  match goal with |- context [aff _ ?x] => generalize x end. intros tr. unfold persp_mat.
  set (sg := if lh then 1 else -1). assert (S2 : sg * sg = 1) by (unfold sg; destruct lh; lra).
  destruct (plane_norms (rightward lh eye center up) (upward lh eye center up) b tr (/ t / a) (/ t) (sg * (f + n) / (f - n)) sg (- (2 * f * n) / (f - n)) Ls Lu Lb Ns Nu Nb B1 B2) as (N0 & N1 & N2 & N3 & N4 & N5).
  assert (E1 : eps * eps <= 1) by (unfold eps; lra). pose proof eps_pos as Ep.
  assert (G4 : (sg + sg * (f + n) / (f - n)) * (sg + sg * (f + n) / (f - n)) = (2 * f / (f - n)) * (2 * f / (f - n))).
  { transitivity (sg * sg * ((2 * f / (f - n)) * (2 * f / (f - n)))); [field; lra|]. rewrite S2. ring. }
  assert (G5 : (sg - sg * (f + n) / (f - n)) * (sg - sg * (f + n) / (f - n)) = (2 * n / (f - n)) * (2 * n / (f - n))).
  { transitivity (sg * sg * ((2 * n / (f - n)) * (2 * n / (f - n)))); [field; lra|]. rewrite S2. ring. }
  rewrite G4 in N4. rewrite G5 in N5.
  assert (H4 : 1 <= 2 * f / (f - n)). { apply Rmult_le_reg_r with (f - n); [lra|]. unfold Rdiv. rewrite Rmult_assoc, Rinv_l; lra. }
  assert (H5 : eps <= 2 * n / (f - n)). { apply Rmult_le_reg_r with (f - n); [lra|]. unfold Rdiv. rewrite Rmult_assoc, Rinv_l; lra. }
  assert (Sq : forall x, 0 <= x * x) by (intros; apply Rle_0_sqr).
  assert (J : (j = 0 \/ j = 1 \/ j = 2 \/ j = 3 \/ j = 4 \/ j = 5)%nat) by lia. destruct J as [->|[->|[->|[->|[->| ->]]]]].
  - rewrite N0, S2. pose proof (Sq (/ t / a)). lra.
  - rewrite N1, S2. pose proof (Sq (/ t / a)). lra.
  - rewrite N2, S2. pose proof (Sq (/ t)). lra.
  - rewrite N3, S2. pose proof (Sq (/ t)). lra.
  - rewrite N4. assert (1 * 1 <= 2 * f / (f - n) * (2 * f / (f - n))) by (apply Rmult_le_compat; lra). lra.
  - rewrite N5. apply Rmult_le_compat; lra.
Qed.
(** the planes of a camera bound its field of view exactly, as long as the far distance is at most
    about 2^24 times the near one; a box with a visible point is kept whatever the distances *)
Lemma C70_culling_ok : forall lh eye center up fovy a n f, well_placed eye center up -> 0 < fovy < PI -> 0 < a -> 0 < n -> n < f ->
  exists M q, camera lh false eye center up fovy a n f M /\ length q = 6%nat /\ (forall j, (j < 6)%nat -> length (nth j q []) = 4%nat) /\
  computes RS glm_frustum_planes [In (fl M); Out 24] VVoid [fl (concat q)] /\
  (eps * (f - n) <= 2 * n -> forall p, length p = 3%nat ->
    ((forall j, (j < 6)%nat -> on_side (nth j q []) p) <-> seen a (tan (fovy / 2)) n f (coords lh eye center up p))) /\
  (forall b p, length b = 6%nat -> length p = 3%nat -> in_aabb 3 b p -> seen a (tan (fovy / 2)) n f (coords lh eye center up p) ->
    computes RS glm_aabb_frustum [In (fl b); In (fl (concat q))] (VB true) []).
Proof.
  intros lh eye center up fovy a n f W F A N NF. destruct (half_turn fovy F) as [_ T0].
  set (M := cam_mat lh false eye center up (tan (fovy / 2)) a n f).
  assert (V : forall p, length p = 3%nat -> (in_clip false (clip M p) <-> seen a (tan (fovy / 2)) n f (coords lh eye center up p))).
  { intros p Lp. unfold M. rewrite cam_acts by auto. apply (in_clip_seen false); auto. }
  destruct (C35_total_ok M eq_refl) as (q & Lq & C & U & G). exists M, q.
  split; [apply camera_mat; auto|]. split; auto. split; [intros j Hj; apply U; auto|]. split; auto. split.
  - intros FR p Lp. rewrite <- V by auto. destruct (C35_planes_ok M eq_refl (cam_planes lh eye center up (tan (fovy / 2)) a n f W T0 A N NF FR)) as (q' & Lq' & U' & C' & G').
    rewrite <- G' by auto.
    assert (E : q = q'). 
    { assert (LC : forall x : list (list R), length x = 6%nat -> (forall j, (j < 6)%nat -> length (nth j x []) = 4%nat) -> length (concat x) = 24%nat).
      { clear. intros x L H. do 6 (destruct x as [|? x]; [discriminate|]). destruct x; [|discriminate].
        pose proof (H 0%nat ltac:(lia)). pose proof (H 1%nat ltac:(lia)). pose proof (H 2%nat ltac:(lia)). pose proof (H 3%nat ltac:(lia)). pose proof (H 4%nat ltac:(lia)). pose proof (H 5%nat ltac:(lia)).
        simpl in *. rewrite !app_length. simpl. lia. }
      assert (J : forall x y : list (list R), length x = 6%nat -> length y = 6%nat -> (forall j, (j < 6)%nat -> length (nth j x []) = 4%nat) -> (forall j, (j < 6)%nat -> length (nth j y []) = 4%nat) -> concat x = concat y -> x = y).
      { clear. intros x y. assert (Gen : forall k, length x = k -> length y = k -> (forall j, (j < k)%nat -> length (nth j x []) = 4%nat) -> (forall j, (j < k)%nat -> length (nth j y []) = 4%nat) -> concat x = concat y -> x = y); [|apply Gen].
        revert y. induction x as [|a x IH]; intros [|b y] k Lx Ly Hx Hy E; simpl in *; subst; try discriminate; auto.
        assert (La : length a = 4%nat) by (apply (Hx 0%nat); lia). assert (Lb : length b = 4%nat) by (apply (Hy 0%nat); lia).
        assert (a = b). { apply (f_equal (firstn 4)) in E. rewrite !firstn_app, La, Lb, Nat.sub_diag, !firstn_O, !app_nil_r, !firstn_all2 in E by lia. exact E. }
        subst. apply app_inv_head in E. f_equal. apply (IH y (length x)); auto.
        - intros j Hj. apply (Hx (S j)). lia.
        - intros j Hj. apply (Hy (S j)). lia. }
      apply J; auto. intros; apply U; auto. intros; apply U'; auto.
      destruct (computes_unique _ _ _ _ _ _ _ C C') as [_ E]; [|  |apply (f_equal (fun x => nth 0 x [])) in E; apply fl_eq; exact E].
      - simpl. unfold fl. rewrite map_length. f_equal. apply LC; auto. intros; apply U; auto.
      - simpl. unfold fl. rewrite map_length. f_equal. apply LC; auto. intros; apply U'; auto. }
    rewrite E. tauto.
  - intros b p Lb Lp B S. apply (G p Lp); auto. apply V; auto.
Qed.

(** ** Picking: a pixel and a depth give the point of the ray through the pixel at the distance with that depth *)

Lemma C70_picking_ok : forall lh eye center up fovy a n f vp w, well_placed eye center up -> 0 < fovy < PI -> 0 < a -> 0 < n -> n < f ->
  length vp = 4%nat -> at_ vp 2 <> 0 -> at_ vp 3 <> 0 -> length w = 3%nat -> f - at_ w 2 * (f - n) <> 0 ->
  let t := tan (fovy / 2) in let d := f * n / (f - at_ w 2 * (f - n)) in
  let ray := [a * t * (2 * (at_ w 0 - at_ vp 0) / at_ vp 2 - 1); t * (2 * (at_ w 1 - at_ vp 1) / at_ vp 3 - 1); 1] in
  exists M, camera lh false eye center up fovy a n f M /\
  computes RS glm_unproject [InA (fl w); In (fl M); In (fl vp); Out 3] VVoid [fl (located lh eye center up (vscale d ray))].
Proof.
  intros lh eye center up fovy a n f vp w W F A N NF Lv V2 V3 Lw D t d ray. destruct (half_turn fovy F) as [_ T0]. fold t in T0.
  set (M := cam_mat lh false eye center up t a n f). exists M. split; [apply camera_mat; auto|].
  assert (Lp : length (located lh eye center up (vscale d ray)) = 3%nat).
  { destruct (frame_ok lh eye center up W) as (Ld & Ls & Lu & _). destruct W as (L1 & _). unfold located, ray. revert Ld Ls Lu.
    generalize (forward eye center) (rightward lh eye center up) (upward lh eye center up). intros x y z Lx Ly Lz. un3 x x0 x1 x2. un3 y y0 y1 y2. un3 z z0 z1 z2. un3 eye e0 e1 e2. reflexivity. }
  assert (C : coords lh eye center up (located lh eye center up (vscale d ray)) = vscale d ray) by (apply (C70_frame_ok lh eye center up W); reflexivity).
  assert (Pd : d <> 0). { unfold d. intros Q. apply Rmult_integral in Q. destruct Q as [Q|Q]; [apply Rmult_integral in Q; lra|]. revert Q. apply Rinv_neq_0_compat. auto. }
  assert (K : at_ (clip M (located lh eye center up (vscale d ray))) 3 <> 0).
  { unfold M. rewrite cam_acts by auto. rewrite C. unfold ray. lcbv. lra. }
  assert (Wd : window false vp (clip M (located lh eye center up (vscale d ray))) = w).
  { unfold M. rewrite cam_acts by auto. rewrite C. rewrite (appears_window false) by (auto; unfold ray; lcbv; lra).
    unfold appears, ray. clear - Lw Lv V2 V3 D N NF A T0 Pd. unfold d in *. clearbody t. un4 vp v0 v1 v2 v3. un3 w w0 w1 w2. revert V2 V3 D Pd. lcbv. intros V2 V3 D Pd.
    assert (Fn : f * n <> 0) by (intros Q; apply Rmult_integral in Q; lra). cells ltac:(field; repeat split; try lra; auto). }
  destruct (unproject_calc M eq_refl (det_cam lh false eye center up t a n f W T0 A N NF)) as (B & LB & _ & E & Cu).
  pose proof (back false _ M B vp Lp eq_refl LB Lv E V2 V3 K) as Bk. rewrite Wd in Bk.
  destruct (dehom_scale _ (at_ (clip M (located lh eye center up (vscale d ray))) 3) Lp K) as [D1 D2]. rewrite <- Bk in D1, D2. rewrite <- D1. apply Cu; auto.
Qed.
Lemma C70_placed_ex : well_placed [0; 3; 4] [0; 0; 0] [0; 1; 0] /\ eps * (1000 - 1 / 10) <= 2 * (1 / 10).
Proof.
  split; [|unfold eps; lra]. destruct C30_lookat_ex as [H1 H2]. repeat split; auto.
Qed.
(** beyond that ratio of the distances the far plane is lost: a point twice as far as the far plane
    is on the positive side of all six planes *)
Lemma far_norm : forall lh eye center up t a n f, well_placed eye center up -> 0 < n -> n < f -> 2 * n < eps * (f - n) ->
  norm (firstn 3 (clip_plane (cam_mat lh false eye center up t a n f) 5)) < eps.
Proof.
  intros lh eye center up t a n f W N NF FR.
  destruct (frame_ok lh eye center up W) as (Ld & Ls & Lu & Nd & Ns & Nu & D1 & D2 & D3 & _).
  assert (B : exists b, b = (if lh then forward eye center else neg (forward eye center)) /\ length b = 3%nat /\ norm2 b = 1 /\ rdot b (rightward lh eye center up) = 0 /\ rdot b (upward lh eye center up) = 0).
  { eexists. split; [reflexivity|]. clear - Ld Ls Lu Nd D1 D2. revert Ld Ls Lu Nd D1 D2. generalize (forward eye center) (rightward lh eye center up) (upward lh eye center up). intros d s u Ld Ls Lu.
    un3 d g0 g1 g2. un3 s s0 s1 s2. un3 u u0 u1 u2. unfold neg. destruct lh; lcbv; intros; repeat split; lra. }
  destruct B as (b & Eb & Lb & Nb & B1 & B2).
  unfold cam_mat, view, look_mat. rewrite <- Eb. change (if lh then vcross (forward eye center) (rightward lh eye center up) else vcross (rightward lh eye center up) (forward eye center)) with (upward lh eye center up).
  match goal with |- context [aff _ ?x] => generalize x end. intros tr. unfold persp_mat.
  set (sg := if lh then 1 else -1). assert (S2 : sg * sg = 1) by (unfold sg; destruct lh; lra).
  destruct (plane_norms (rightward lh eye center up) (upward lh eye center up) b tr (/ t / a) (/ t) (sg * (f + n) / (f - n)) sg (- (2 * f * n) / (f - n)) Ls Lu Lb Ns Nu Nb B1 B2) as (_ & _ & _ & _ & _ & N5).
  assert (G5 : (sg - sg * (f + n) / (f - n)) * (sg - sg * (f + n) / (f - n)) = (2 * n / (f - n)) * (2 * n / (f - n))).
  { transitivity (sg * sg * ((2 * n / (f - n)) * (2 * n / (f - n)))); [field; lra|]. rewrite S2. ring. }
  rewrite G5 in N5. unfold norm. cbv zeta in N5. rewrite N5.
  assert (P : 0 <= 2 * n / (f - n)) by (apply Rmult_le_pos; [lra|left; apply Rinv_0_lt_compat; lra]). rewrite sqrt_square by auto.
  apply Rmult_lt_reg_r with (f - n); [lra|]. unfold Rdiv. rewrite Rmult_assoc, Rinv_l; lra.
Qed.
Lemma C70_far_lost_ok : forall lh eye center up fovy a n f, well_placed eye center up -> 0 < fovy < PI -> 0 < a -> 0 < n -> n < f -> 2 * n < eps * (f - n) ->
  exists M q p, camera lh false eye center up fovy a n f M /\ length q = 6%nat /\
  computes RS glm_frustum_planes [In (fl M); Out 24] VVoid [fl (concat q)] /\ length p = 3%nat /\
  (forall j, (j < 6)%nat -> on_side (nth j q []) p) /\ at_ (coords lh eye center up p) 2 = 2 * f.
Proof.
  intros lh eye center up fovy a n f W F A N NF FR. destruct (half_turn fovy F) as [_ T0].
  set (M := cam_mat lh false eye center up (tan (fovy / 2)) a n f).
  set (p := located lh eye center up [0; 0; 2 * f]).
  assert (C : coords lh eye center up p = [0; 0; 2 * f]) by (apply (C70_frame_ok lh eye center up W); reflexivity).
  assert (Lp : length p = 3%nat).
  { destruct (frame_ok lh eye center up W) as (Ld & Ls & Lu & _). destruct W as (L1 & _). unfold p, located. revert Ld Ls Lu.
    generalize (forward eye center) (rightward lh eye center up) (upward lh eye center up). intros x y z Lx Ly Lz. un3 x x0 x1 x2. un3 y y0 y1 y2. un3 z z0 z1 z2. un3 eye e0 e1 e2. reflexivity. }
  exists M, (map (fun j => safe_plane (clip_plane M j)) (seq 0 6)), p.
  split; [apply camera_mat; auto|]. split; [reflexivity|]. split; [rewrite <- flat_map_concat_map; apply planes_total; reflexivity|]. split; [exact Lp|].
  split; [|rewrite C; reflexivity]. intros j Hj.
  cut (on_side (safe_plane (clip_plane M j)) p). { intros X. do 6 (destruct j as [|j]; [exact X|]). lia. }
  assert (LP : length (clip_plane M j) = 4%nat) by (do 6 (destruct j as [|j]; [reflexivity|]); lia).
  assert (K : at_ (clip M p) 0 = 0 /\ at_ (clip M p) 1 = 0 /\ 0 < at_ (clip M p) 2 /\ 0 < at_ (clip M p) 3).
  { unfold M. rewrite cam_acts by auto. rewrite C. lcbv. assert (0 < tan (fovy / 2)) by exact T0. split; [unfold Rdiv; ring|]. split; [unfold Rdiv; ring|]. split; [|lra].
    apply Rmult_lt_0_compat; [nra|apply Rinv_0_lt_compat; lra]. }
  assert (FN : norm (firstn 3 (clip_plane M 5)) < eps) by (apply far_norm; auto).
  assert (G : forall i, (i < 5)%nat -> on_side (clip_plane M i) p).
  { clear - K Lp. assert (LM : length M = 16%nat) by reflexivity. clearbody M p. un3 p x y z. unlists. revert K. unfold on_side, clip, clip_plane, row4. lcbv. intros (K0 & K1 & K2 & K3) i Hi. do 5 (destruct i as [|i]; [lcbv; lra|]). lia. }
  unfold safe_plane. destruct (Rlt_dec (norm (firstn 3 (clip_plane M j))) eps) as [Z|Z].
  - clear - Lp. un3 p x y z. unfold on_side. lcbv. lra.
  - assert (Hj5 : (j < 5)%nat). { destruct (Nat.eq_dec j 5) as [->|]; [exfalso; apply Z; exact FN|lia]. }
    assert (H : eps <= norm (firstn 3 (clip_plane M j))) by lra. destruct (C59_half_space_ok (clip_plane M j) p LP Lp H) as [_ [B _]]. apply B. exact (G j Hj5).
Qed.
