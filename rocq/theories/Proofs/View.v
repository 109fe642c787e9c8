(** * View matrices (C30) *)

From Coq Require Import String List ZArith Bool Reals Lra Lia.
From Verif Require Import Cglm.
From Verif.Spec Require Import Linear Geometry Affine Clip.
From Verif.Proofs Require Import Layout RExact AffTac QuatSlerp.
Import ListNotations.
Local Open Scope R_scope.

(** right, up and forward directions of the viewer *)
Definition fwd (eye center : list R) := normalized (vsub center eye).
Definition side (lh : bool) (f up : list R) := normalized (if lh then vcross up f else vcross f up).
Definition rows3 (r u b : list R) : list R :=
  [at_ r 0; at_ u 0; at_ b 0; at_ r 1; at_ u 1; at_ b 1; at_ r 2; at_ u 2; at_ b 2].
Definition look_mat (lh : bool) (eye f s : list R) : list R :=
  let u := if lh then vcross f s else vcross s f in
  let b := if lh then f else neg f in
  aff (rows3 s u b) (neg [rdot s eye; rdot u eye; rdot b eye]).

Lemma lookat_calc : forall lh eye center up, length eye = 3%nat -> length center = 3%nat -> length up = 3%nat ->
  computes RS (lookat_fn lh) [In (fl eye); In (fl center); In (fl up); Out 16] VVoid
    [fl (look_mat lh eye (fwd eye center) (side lh (fwd eye center) up))].
Proof.
  intros lh eye center up L1 L2 L3. un3 eye e0 e1 e2. un3 center c0 k1 k2. un3 up u0 u1 u2.
  unfold fwd. change (vsub [c0; k1; k2] [e0; e1; e2]) with [c0 - e0; k1 - e1; k2 - e2].
  destruct (norm3 (c0 - e0) (k1 - e1) (k2 - e2)) as (x & y & z & E & X & Y & Z). rewrite E. clear E. cbv zeta in X, Y, Z.
  unfold side. destruct lh.
  - change (vcross [u0; u1; u2] [x; y; z]) with [u1 * z - u2 * y; u2 * x - u0 * z; u0 * y - u1 * x].
    destruct (norm3 (u1 * z - u2 * y) (u2 * x - u0 * z) (u0 * y - u1 * x)) as (a & b & c & E & A & B & C). rewrite E. clear E. cbv zeta in A, B, C.
    unfold lookat_fn, look_mat, rows3, aff, neg. symr; rprep; rewrite ?X, ?Y, ?Z; try (reqs; sq0); try domain; rewrite ?A, ?B, ?C; cells ltac:(try ring).
  - change (vcross [x; y; z] [u0; u1; u2]) with [y * u2 - z * u1; z * u0 - x * u2; x * u1 - y * u0].
    destruct (norm3 (y * u2 - z * u1) (z * u0 - x * u2) (x * u1 - y * u0)) as (a & b & c & E & A & B & C). rewrite E. clear E. cbv zeta in A, B, C.
    unfold lookat_fn, look_mat, rows3, aff, neg. symr; rprep; rewrite ?X, ?Y, ?Z; try (reqs; sq0); try domain; rewrite ?A, ?B, ?C; cells ltac:(try ring).
Qed.
(** a unit vector and its multiple *)
Lemma norm3_unit : forall v, length v = 3%nat -> eps <= norm v -> length (normalized v) = 3%nat /\ norm2 (normalized v) = 1 /\ v = vscale (norm v) (normalized v).
Proof.
  intros v L H. pose proof eps_pos. pose proof (norm_sq v) as S. unfold normalized. destruct (Rlt_dec (norm v) eps) as [K|K]; [lra|]. clear K.
  un3 v x y z. revert S H. generalize (norm [x; y; z]). intros k S H. lcbv. split; [reflexivity|]. split.
  - replace (x / k * (x / k) + y / k * (y / k) + z / k * (z / k)) with ((x * x + y * y + z * z) / (k * k)) by (field; lra).
    revert S. lcbv. intros S. rewrite <- S. field. lra.
  - cells ltac:(field; lra).
Qed.
Lemma cross_facts : forall a b, length a = 3%nat -> length b = 3%nat ->
  rdot a (vcross a b) = 0 /\ rdot b (vcross a b) = 0 /\ rdot (vcross a b) a = 0 /\ rdot (vcross a b) b = 0 /\
  norm2 (vcross a b) = norm2 a * norm2 b - rdot a b * rdot a b /\
  vcross a (vcross b a) = vsub (vscale (norm2 a) b) (vscale (rdot a b) a) /\
  vcross a (vcross a b) = vsub (vscale (rdot a b) a) (vscale (norm2 a) b) /\ rdot a b = rdot b a.
Proof. intros a b La Lb. un3 a a0 a1 a2. un3 b b0 b1 b2. lcbv. repeat split; try ring; cells ltac:(ring). Qed.
Lemma frame_rotation : forall (lh : bool) f s, length f = 3%nat -> length s = 3%nat -> norm2 f = 1 -> norm2 s = 1 -> rdot f s = 0 ->
  rotation (rows3 s (if lh then vcross f s else vcross s f) (if lh then f else neg f)).
Proof.
  intros lh f s Lf Ls Nf Ns D.
  pose proof (cross_facts f s Lf Ls) as (A1 & A2 & A3 & A4 & A5 & A6 & A7 & A8). pose proof (cross_facts s f Ls Lf) as (B1 & B2 & B3 & B4 & B5 & B6 & B7 & B8).
  rewrite B8, D in B6, B7, B5. rewrite D in A6, A7, A5. rewrite Nf, Ns in A5, B5. rewrite Nf in A6, A7. rewrite Ns in B6, B7.
  set (u := if lh then vcross f s else vcross s f). set (b := if lh then f else neg f).
  assert (G : norm2 u = 1 /\ rdot s u = 0 /\ rdot b u = 0 /\ norm2 b = 1 /\ rdot b s = 0 /\ length u = 3%nat /\ length b = 3%nat /\
    vcross s u = b).
  { unfold u, b. destruct lh.
    - repeat split; auto; [lra|]. rewrite B6. un3 f f0 f1 f2. un3 s s0 s1 s2. lcbv. cells ltac:(ring).
    - repeat split; auto; [lra| | | | |]; try rewrite B7; clear A6 A7 B6 B7 A5 B5 A8 B8 A1 A2 A3 A4 B3; un3 f f0 f1 f2; un3 s s0 s1 s2; unfold neg; revert B2 D Nf; lcbv; intros;
        try lra; try reflexivity. cells ltac:(ring). }
  clearbody u b. clear - G Ls Ns. destruct G as (Nu & D1 & D2 & Nb & D3 & Lu & Lb & C).
  split.
  - unfold orthonormal. apply inverse_side; [reflexivity|reflexivity|]. un3 u u0 u1 u2. un3 b b0 b1 b2. un3 s s0 s1 s2. revert Nu D1 D2 Nb D3 Ns. clear. unfold rows3. lcbv. intros.
    cells ltac:(lra).
  - rewrite <- C in *. un3 u u0 u1 u2. un3 s s0 s1 s2. revert Nb. clear. unfold rows3. lcbv. intros. lra.
Qed.
(** ** C30 *)
(** View matrices: a rotation and a translation (no reflection, in both conventions) that takes
    the eye to the origin and the centre to the negative (right-handed) or positive (left-handed)
    z axis at its distance, and turns [up] into the upper half of the yz plane. *)
Lemma look_acts : forall (lh : bool) eye dir up, length eye = 3%nat -> length dir = 3%nat -> length up = 3%nat ->
  eps <= norm dir -> eps <= norm (vcross (normalized dir) up) ->
  let M := look_mat lh eye (normalized dir) (side lh (normalized dir) up) in
  exists r t, length r = 9%nat /\ M = aff r t /\ rotation r /\ moves M eye [0; 0; 0] /\
  moves M (vadd eye dir) [0; 0; if lh then norm dir else - norm dir] /\
  exists y z, mvec 3 3 r up = [0; y; z] /\ 0 < y.
Proof.
  intros lh eye dir up L1 L2 L3 H1 H2 M. destruct (norm3_unit dir L2 H1) as (Lf & Nf & Ef). unfold M, side. clear M.
  set (f := normalized dir) in *. clearbody f. revert H1 Ef. generalize (norm dir). intros d Hd ->.
  pose (c := if lh then vcross up f else vcross f up).
  assert (Hc : eps <= norm c). { unfold c. destruct lh; auto. replace (norm (vcross up f)) with (norm (vcross f up)); auto. unfold norm. f_equal. clear - Lf L3. un3 f f0 f1 f2. un3 up u0 u1 u2. lcbv. ring. }
  destruct (norm3_unit c) as (Ls & Ns & Es); auto. { unfold c. destruct lh; reflexivity. }
  replace (if lh then normalized (vcross up f) else normalized (vcross f up)) with (normalized c) by (unfold c; destruct lh; reflexivity).
  fold c. set (s := normalized c) in *. clearbody s.
  pose proof (eps_pos). assert (0 < norm c) as Pc by lra. clear Hc H2. revert Es Pc. generalize (norm c). intros k Es Pc.
  assert (D : rdot f s = 0 /\ rdot up s = 0 /\ rdot s (if lh then vcross up f else vcross f up) = k).
  { fold c. assert (F0 : rdot f c = 0 /\ rdot up c = 0). { unfold c. clear - Lf L3. destruct lh; un3 f f0 f1 f2; un3 up u0 u1 u2; lcbv; split; ring. }
    rewrite Es in F0 |- *. clear - F0 Pc Ns Lf L3 Ls. un3 f f0 f1 f2. un3 up u0 u1 u2. un3 s s0 s1 s2. revert F0 Ns. lcbv. intros [F0 F1] Ns.
    split; [|split].
    - apply Rmult_eq_reg_l with k; lra.
    - apply Rmult_eq_reg_l with k; lra.
    - transitivity (k * (s0 * s0 + s1 * s1 + s2 * s2)). ring. rewrite Ns. ring. }
  destruct D as (D1 & D2 & D3).
  unfold look_mat.
  exists (rows3 s (if lh then vcross f s else vcross s f) (if lh then f else neg f)). eexists. split; [reflexivity|]. split; [reflexivity|].
  split; [apply frame_rotation; auto|].
  clear c Es. revert Nf D1 D2 D3. clear - L1 L3 Lf Ls Pc. un3 eye e0 e1 e2. un3 f f0 f1 f2. un3 up u0 u1 u2. un3 s s0 s1 s2.
  unfold moves, aff, neg, rows3. destruct lh; lcbv; intros Nf D1 D2 D3.
  - split; [cells ltac:(ring)|]. split.
    + cells idtac.
      * transitivity (d * (f0 * s0 + f1 * s1 + f2 * s2)). ring. rewrite D1. ring.
      * ring.
      * transitivity (d * (f0 * f0 + f1 * f1 + f2 * f2)). ring. rewrite Nf. ring.
      * ring.
    + eexists. eexists. split; [cells ltac:(try reflexivity); lra|]. lra.
  - split; [cells ltac:(ring)|]. split.
    + cells idtac.
      * transitivity (d * (f0 * s0 + f1 * s1 + f2 * s2)). ring. rewrite D1. ring.
      * ring.
      * transitivity (- d * (f0 * f0 + f1 * f1 + f2 * f2)). ring. rewrite Nf. ring.
      * ring.
    + eexists. eexists. split; [cells ltac:(try reflexivity); lra|]. lra.
Qed.
Lemma C30_lookat_ok : forall (lh : bool) eye center up, length eye = 3%nat -> length center = 3%nat -> length up = 3%nat ->
  let dir := vsub center eye in eps <= norm dir -> eps <= norm (vcross (normalized dir) up) ->
  exists r t, length r = 9%nat /\ let M := aff r t in
  computes RS (lookat_fn lh) [In (fl eye); In (fl center); In (fl up); Out 16] VVoid [fl M] /\
  rotation r /\ moves M eye [0; 0; 0] /\ moves M center [0; 0; if lh then norm dir else - norm dir] /\
  exists y z, mvec 3 3 r up = [0; y; z] /\ 0 < y.
Proof.
  intros lh eye center up L1 L2 L3 dir H1 H2. pose proof (lookat_calc lh eye center up L1 L2 L3) as C. unfold fwd in C. fold dir in C.
  destruct (look_acts lh eye dir up L1) as (r & t & Lr & E & Rr & M1 & M2 & M3); auto.
  { unfold dir. un3 eye e0 e1 e2. un3 center k0 k1 k2. reflexivity. }
  exists r, t. split; auto. cbv zeta. rewrite E in *. split; [exact C|]. split; auto. split; auto. split; auto.
  replace center with (vadd eye dir); auto. unfold dir. un3 eye e0 e1 e2. un3 center k0 k1 k2. lcbv. cells ltac:(ring).
Qed.
Lemma add_sub : forall a b : R, a + b - a = b.
Proof. intros. ring. Qed.
Lemma look_calc : forall lh eye dir up, length eye = 3%nat -> length dir = 3%nat -> length up = 3%nat ->
  computes RS (look_fn lh) [In (fl eye); In (fl dir); In (fl up); Out 16] VVoid
    [fl (look_mat lh eye (normalized dir) (side lh (normalized dir) up))].
Proof.
  intros lh eye dir up L1 L2 L3. change (T RS) with R in *. un3 eye e0 e1 e2. un3 dir c0 k1 k2. un3 up u0 u1 u2.
  destruct (norm3 c0 k1 k2) as (x & y & z & E & X & Y & Z). rewrite E. clear E. cbv zeta in X, Y, Z.
  unfold side. destruct lh.
  - change (vcross [u0; u1; u2] [x; y; z]) with [u1 * z - u2 * y; u2 * x - u0 * z; u0 * y - u1 * x].
    destruct (norm3 (u1 * z - u2 * y) (u2 * x - u0 * z) (u0 * y - u1 * x)) as (a & b & c & E & A & B & C). rewrite E. clear E. cbv zeta in A, B, C.
    unfold look_fn, look_mat, rows3, aff, neg. symr; rprep; rewrite ?add_sub, ?X, ?Y, ?Z; try (reqs; sq0); try domain; rewrite ?A, ?B, ?C; cells ltac:(try ring).
  - change (vcross [x; y; z] [u0; u1; u2]) with [y * u2 - z * u1; z * u0 - x * u2; x * u1 - y * u0].
    destruct (norm3 (y * u2 - z * u1) (z * u0 - x * u2) (x * u1 - y * u0)) as (a & b & c & E & A & B & C). rewrite E. clear E. cbv zeta in A, B, C.
    unfold look_fn, look_mat, rows3, aff, neg. symr; rprep; rewrite ?add_sub, ?X, ?Y, ?Z; try (reqs; sq0); try domain; rewrite ?A, ?B, ?C; cells ltac:(try ring).
Qed.
Lemma anyup_calc : forall lh eye dir, length eye = 3%nat -> length dir = 3%nat ->
  computes RS (look_anyup_fn lh) [In (fl eye); In (fl dir); Out 16] VVoid
    [fl (look_mat lh eye (normalized dir) (side lh (normalized dir) (ortho dir)))].
Proof.
  intros lh eye dir L1 L2. change (T RS) with R in *. un3 eye e0 e1 e2. un3 dir c0 k1 k2.
  destruct (norm3 c0 k1 k2) as (x & y & z & E & X & Y & Z). rewrite E. clear E. cbv zeta in X, Y, Z.
  unfold ortho, hface. cbv [at_ nth]. set (h := Rabs c0 + 1 / 2 - Rtrunc (Rabs c0 + 1 / 2)).
  unfold side. destruct lh.
  - cbv [vcross at_ nth].
    match goal with |- context [normalized [?a; ?b; ?c]] => destruct (norm3 a b c) as (a' & b' & c' & E & A & B & C) end. rewrite E. clear E. cbv zeta in A, B, C.
    unfold look_anyup_fn, look_mat, rows3, aff, neg. symr; rprep; fold h; rewrite ?add_sub, ?X, ?Y, ?Z; try (reqs; sq0); try domain; rewrite ?A, ?B, ?C; cells ltac:(try ring).
  - cbv [vcross at_ nth].
    match goal with |- context [normalized [?a; ?b; ?c]] => destruct (norm3 a b c) as (a' & b' & c' & E & A & B & C) end. rewrite E. clear E. cbv zeta in A, B, C.
    unfold look_anyup_fn, look_mat, rows3, aff, neg. symr; rprep; fold h; rewrite ?add_sub, ?X, ?Y, ?Z; try (reqs; sq0); try domain; rewrite ?A, ?B, ?C; cells ltac:(try ring).
Qed.
(** the same from a direction instead of a centre *)
Lemma C30_look_ok : forall (lh : bool) eye dir up, length eye = 3%nat -> length dir = 3%nat -> length up = 3%nat ->
  eps <= norm dir -> eps <= norm (vcross (normalized dir) up) ->
  exists r t, length r = 9%nat /\ let M := aff r t in
  computes RS (look_fn lh) [In (fl eye); In (fl dir); In (fl up); Out 16] VVoid [fl M] /\
  rotation r /\ moves M eye [0; 0; 0] /\ moves M (vadd eye dir) [0; 0; if lh then norm dir else - norm dir] /\
  exists y z, mvec 3 3 r up = [0; y; z] /\ 0 < y.
Proof.
  intros lh eye dir up L1 L2 L3 H1 H2. pose proof (look_calc lh eye dir up L1 L2 L3) as C.
  destruct (look_acts lh eye dir up L1) as (r & t & Lr & E & Rr & M1 & M2 & M3); auto.
  exists r, t. split; auto. cbv zeta. rewrite E in *. split; [exact C|]. auto.
Qed.
(** without an up vector, for a unit direction *)
Lemma ortho_far : forall v, length v = 3%nat -> norm2 v = 1 -> 1/16 <= norm2 (ortho v).
Proof.
  intros v L. un3 v x y z. unfold ortho.
  assert (F : (Rabs x < 1/2 -> hface [x; y; z] = Rabs x + 1/2) /\ (1/2 <= Rabs x < 3/2 -> hface [x; y; z] = Rabs x - 1/2)).
  { unfold hface. lcbv. assert (P : 0 <= Rabs x) by apply Rabs_pos. generalize dependent (Rabs x). intros a P.
    unfold Rtrunc, Rfloor. rewrite (proj2 (Rltb_false _ _)) by lra.
    split; intros H.
    - replace (Int_part (a + 1/2)) with 0%Z; [lra|]. apply Int_part_spec. lra.
    - replace (Int_part (a + 1/2)) with 1%Z; [lra|]. apply Int_part_spec. lra. }
  generalize dependent (hface [x; y; z]). intros f [F1 F2]. lcbv. intros U.
  pose proof (Rle_0_sqr (x - f * z)) as Q1. pose proof (Rle_0_sqr (f * y)) as Q2. pose proof (Rle_0_sqr y) as Q3. unfold Rsqr in *.
  destruct (Rle_dec (1/16) (y * y)) as [Y|Y]; [lra|].
  assert (Q : 1/16 <= (x - f * z) * (x - f * z)); [|lra].
  assert (A : Rabs x * Rabs x = x * x) by (rewrite <- Rabs_mult, Rabs_right by nra; ring).
  assert (B : Rabs z * Rabs z = z * z) by (rewrite <- Rabs_mult, Rabs_right by nra; ring).
  assert (Px : 0 <= Rabs x) by apply Rabs_pos. assert (Pz : 0 <= Rabs z) by apply Rabs_pos.
  assert (Pa : Rabs x <= 1) by (clear - U A B Px; nra). assert (Pc : Rabs z <= 1) by (clear - U A B Pz; nra).
  assert (G : 1/4 <= Rabs (Rabs x - Rabs f * Rabs z)).
  { destruct (Rlt_dec (Rabs x) (1/2)) as [K|K].
    - specialize (F1 K). rewrite F1. rewrite (Rabs_right (Rabs x + 1/2)) by lra.
      assert (W : Rabs x * Rabs x <= 1/4) by (clear - K Px; nra). assert (W' : 11/16 <= Rabs z * Rabs z) by lra.
      assert (W2 : 4/5 <= Rabs z) by (clear - W' Pz; nra). clear - W2 K Px Pc. rewrite Rabs_left1; nra.
    - specialize (F2 ltac:(lra)). rewrite F2. rewrite (Rabs_right (Rabs x - 1/2)) by lra. clear - K Pa Pc Pz. rewrite Rabs_right; nra. }
  assert (G' : Rabs (Rabs x - Rabs f * Rabs z) <= Rabs (x - f * z)) by (rewrite <- Rabs_mult; apply Rabs_triang_inv2).
  assert (G2 : Rabs (x - f * z) * Rabs (x - f * z) = (x - f * z) * (x - f * z)).
  { rewrite <- Rabs_mult, Rabs_right; [ring|]. apply Rle_ge, Rle_0_sqr. }
  nra.
Qed.
Lemma C30_anyup_ok : forall (lh : bool) eye dir, length eye = 3%nat -> length dir = 3%nat -> norm2 dir = 1 ->
  exists r t, length r = 9%nat /\ let M := aff r t in
  computes RS (look_anyup_fn lh) [In (fl eye); In (fl dir); Out 16] VVoid [fl M] /\
  rotation r /\ moves M eye [0; 0; 0] /\ moves M (vadd eye dir) [0; 0; if lh then 1 else - 1].
Proof.
  intros lh eye dir L1 L2 U. pose proof (anyup_calc lh eye dir L1 L2) as C.
  assert (N1 : norm dir = 1) by (unfold norm; rewrite U; apply sqrt_1). pose proof eps_pos.
  assert (N : normalized dir = dir).
  { unfold normalized. rewrite N1. destruct (Rlt_dec 1 eps) as [K|K]; [unfold eps in K; lra|]. clear. induction dir; simpl; auto. rewrite IHdir. f_equal. field. }
  destruct (look_acts lh eye dir (ortho dir) L1) as (r & t & Lr & E & Rr & M1 & M2 & M3); auto.
  { rewrite N1. unfold eps. lra. }
  { rewrite N. destruct (cross_facts dir (ortho dir)) as (_ & _ & _ & _ & X & _); auto. destruct (ortho_facts dir L2) as [O _].
    unfold norm. rewrite X, O, U. pose proof (ortho_far dir L2 U).
    apply Rle_trans with (sqrt (1/16)); [|apply sqrt_le_1_alt; lra].
    replace (1/16) with (1/4 * (1/4)) by lra. rewrite sqrt_square by lra. unfold eps. lra. }
  exists r, t. split; auto. cbv zeta. rewrite E in *. rewrite N1 in M2. split; [exact C|]. auto.
Qed.
(** with coinciding points, or [up] along the direction of view, the matrix is singular *)
Lemma C30_degenerate_ok : forall (lh : bool) eye center up, length eye = 3%nat -> length center = 3%nat -> length up = 3%nat ->
  let dir := vsub center eye in norm dir < eps \/ norm (vcross (normalized dir) up) < eps ->
  exists r t, length r = 9%nat /\
  computes RS (lookat_fn lh) [In (fl eye); In (fl center); In (fl up); Out 16] VVoid [fl (aff r t)] /\
  firstn 1 r = [0] /\ det 3 r = 0.
Proof.
  intros lh eye center up L1 L2 L3 dir H. pose proof (lookat_calc lh eye center up L1 L2 L3) as C. unfold fwd in C. fold dir in C.
  assert (S : side lh (normalized dir) up = [0; 0; 0]).
  { assert (Q : norm (if lh then vcross up (normalized dir) else vcross (normalized dir) up) < eps).
    { assert (Q : norm (vcross (normalized dir) up) < eps).
      { destruct H as [H|H]; auto. unfold normalized. destruct (Rlt_dec (norm dir) eps) as [K|K]; [|lra].
        unfold dir. un3 eye e0 e1 e2. un3 center k0 k1 k2. un3 up u0 u1 u2. lcbv.
        match goal with |- sqrt ?x < _ => replace x with 0 by ring end. rewrite sqrt_0. apply eps_pos. }
      destruct lh; auto. replace (norm (vcross up (normalized dir))) with (norm (vcross (normalized dir) up)); auto.
      unfold norm. f_equal. generalize (normalized dir). intros g. lcbv. ring. }
    unfold side, normalized at 1. unfold normalized at 1 in Q. destruct lh.
    - fold (normalized dir) in *. destruct (Rlt_dec (norm (vcross up (normalized dir))) eps); [reflexivity|contradiction].
    - fold (normalized dir) in *. destruct (Rlt_dec (norm (vcross (normalized dir) up)) eps); [reflexivity|contradiction]. }
  rewrite S in C. unfold look_mat in C. eexists. eexists. split; [|split; [exact C|]]. reflexivity.
  split; [reflexivity|]. unfold rows3. generalize (normalized dir). intros g. destruct lh; lcbv; ring.
Qed.
Lemma C30_lookat_ex : let dir := vsub [0; 0; 0] [0; 3; 4] in eps <= norm dir /\ eps <= norm (vcross (normalized dir) [0; 1; 0]).
Proof.
  assert (N : norm (vsub [0; 0; 0] [0; 3; 4]) = 5).
  { unfold norm. replace (norm2 (vsub [0; 0; 0] [0; 3; 4])) with (5 * 5) by (lcbv; ring). apply sqrt_square. lra. }
  cbv zeta. unfold normalized. rewrite N. unfold eps. split; [lra|]. destruct (Rlt_dec 5 (1 / 8388608)) as [K|K]; [lra|].
  unfold norm. match goal with |- _ <= sqrt ?x => replace x with (4/5 * (4/5)) by (lcbv; field) end. rewrite sqrt_square; lra.
Qed.
