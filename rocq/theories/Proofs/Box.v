(** * Boxes (C36-C39) *)

From Coq Require Import String List ZArith Bool Reals Lra Lia.
From Verif Require Import Cglm.
From Verif.Spec Require Import Linear Geometry Affine Clip Frustum Box.
From Verif.Proofs Require Import Layout RExact AffTac.
Import ListNotations.
Local Open Scope R_scope.

Ltac dims Hn := destruct Hn as [-> | ->].
Lemma in2 : forall b p, in_aabb 2 b p <-> (at_ b 0 <= at_ p 0 <= at_ b 2 /\ at_ b 1 <= at_ p 1 <= at_ b 3).
Proof.
  intros. unfold in_aabb. split.
  - intros H. exact (conj (H 0%nat ltac:(lia)) (H 1%nat ltac:(lia))).
  - intros [H H'] i Hi. destruct i as [|[|]]; try lia; auto.
Qed.
Lemma in3 : forall b p, in_aabb 3 b p <-> (at_ b 0 <= at_ p 0 <= at_ b 3 /\ at_ b 1 <= at_ p 1 <= at_ b 4 /\ at_ b 2 <= at_ p 2 <= at_ b 5).
Proof.
  intros. unfold in_aabb. split.
  - intros H. exact (conj (H 0%nat ltac:(lia)) (conj (H 1%nat ltac:(lia)) (H 2%nat ltac:(lia)))).
  - intros [H [H' H'']] i Hi. destruct i as [|[|[|]]]; try lia; auto.
Qed.
Lemma proper2 : forall b, proper 2 b <-> (at_ b 0 <= at_ b 2 /\ at_ b 1 <= at_ b 3).
Proof.
  intros. unfold proper. split.
  - intros H. exact (conj (H 0%nat ltac:(lia)) (H 1%nat ltac:(lia))).
  - intros [H H'] i Hi. destruct i as [|[|]]; try lia; auto.
Qed.
Lemma proper3 : forall b, proper 3 b <-> (at_ b 0 <= at_ b 3 /\ at_ b 1 <= at_ b 4 /\ at_ b 2 <= at_ b 5).
Proof.
  intros. unfold proper. split.
  - intros H. exact (conj (H 0%nat ltac:(lia)) (conj (H 1%nat ltac:(lia)) (H 2%nat ltac:(lia)))).
  - intros [H [H' H'']] i Hi. destruct i as [|[|[|]]]; try lia; auto.
Qed.
(** inclusion of a non-empty box, by its corners *)
Lemma sub2 : forall b b', length b = 4%nat -> proper 2 b ->
  (box_sub 2 b b' <-> (at_ b' 0 <= at_ b 0 /\ at_ b 2 <= at_ b' 2) /\ (at_ b' 1 <= at_ b 1 /\ at_ b 3 <= at_ b' 3)).
Proof.
  intros b b' L. un4 b x0 y0 x1 y1. rewrite proper2. lcbv. intros P. unfold box_sub. split.
  - intros H. pose proof (H [x0; y0] eq_refl) as A. pose proof (H [x1; y1] eq_refl) as B. rewrite !in2 in A, B. revert A B. lcbv. lra.
  - intros H p Lp. rewrite !in2. lcbv. lra.
Qed.
Lemma sub3 : forall b b', length b = 6%nat -> proper 3 b ->
  (box_sub 3 b b' <-> (at_ b' 0 <= at_ b 0 /\ at_ b 3 <= at_ b' 3) /\ (at_ b' 1 <= at_ b 1 /\ at_ b 4 <= at_ b' 4) /\ (at_ b' 2 <= at_ b 2 /\ at_ b 5 <= at_ b' 5)).
Proof.
  intros b b' L. unlists. rewrite proper3. lcbv. intros P. unfold box_sub. split.
  - intros H. pose proof (H [a; a0; a1] eq_refl) as A. pose proof (H [a2; a3; a4] eq_refl) as B. rewrite !in3 in A, B. revert A B. lcbv. lra.
  - intros H p Lp. rewrite !in3. lcbv. lra.
Qed.
Ltac boxes := rewrite ?in2, ?in3, ?proper2, ?proper3 in *.
Ltac rmm := unfold Rmin, Rmax in *.

Ltac mmcells := symr; rprep; cells ltac:(unfold Rmin, Rmax; rifs; try (exfalso; lra); try lra).
Ltac conj_lra := repeat match goal with |- _ /\ _ => split end; unfold Rmin, Rmax; rifs; lra.

Lemma between : forall a b x c d, Rmax a b <= x <= Rmin c d -> (a <= x <= c) /\ (b <= x <= d).
Proof. intros a b x c d. unfold Rmin, Rmax. rifs; lra. Qed.

(** ** C36 *)
(** the least box containing both; any aliasing *)
Lemma C36_merge_ok : forall n, (n = 2 \/ n = 3)%nat -> forall b c, length b = (n + n)%nat -> length c = (n + n)%nat -> proper n b -> proper n c ->
  exists m, length m = (n + n)%nat /\ computes RS (merge_fn n) [InA (fl b); InA (fl c); Out (n + n)] VVoid [fl m] /\
  box_sub n b m /\ box_sub n c m /\ forall k, length k = (n + n)%nat -> box_sub n b k -> box_sub n c k -> box_sub n m k.
Proof.
  intros n Hn b c Lb Lc Pb Pc. exists (map (fun i => if Nat.ltb i n then Rmin (at_ b i) (at_ c i) else Rmax (at_ b i) (at_ c i)) (seq 0 (n + n))).
  dims Hn; simpl in Lb, Lc.
  - split; [reflexivity|]. split.
    + clear - Lb Lc. unlists. unfold merge_fn. lcbv. mmcells.
    + assert (Pm : proper 2 (map (fun i => if Nat.ltb i 2 then Rmin (at_ b i) (at_ c i) else Rmax (at_ b i) (at_ c i)) (seq 0 (2 + 2)))).
      { boxes. unlists. revert Pb Pc. lcbv. intros. conj_lra. }
      split; [|split]; [| |intros k Lk]; rewrite ?sub2 by auto; clear Pm; boxes; unlists; revert Pb Pc; lcbv; intros; conj_lra.
  - split; [reflexivity|]. split.
    + clear - Lb Lc. unlists. unfold merge_fn. lcbv. mmcells.
    + assert (Pm : proper 3 (map (fun i => if Nat.ltb i 3 then Rmin (at_ b i) (at_ c i) else Rmax (at_ b i) (at_ c i)) (seq 0 (3 + 3)))).
      { boxes. unlists. revert Pb Pc. lcbv. intros. conj_lra. }
      split; [|split]; [| |intros k Lk]; rewrite ?sub3 by auto; clear Pm; boxes; unlists; revert Pb Pc; lcbv; intros; conj_lra.
Qed.
(** the intersection; any aliasing *)
Lemma C36_crop_ok : forall n, (n = 2 \/ n = 3)%nat -> forall b c, length b = (n + n)%nat -> length c = (n + n)%nat ->
  exists m, length m = (n + n)%nat /\ computes RS (crop_fn n) [InA (fl b); InA (fl c); Out (n + n)] VVoid [fl m] /\
  forall p, length p = n -> (in_aabb n m p <-> in_aabb n b p /\ in_aabb n c p).
Proof.
  intros n Hn b c Lb Lc. exists (map (fun i => if Nat.ltb i n then Rmax (at_ b i) (at_ c i) else Rmin (at_ b i) (at_ c i)) (seq 0 (n + n))).
  dims Hn; simpl in Lb, Lc.
  - split; [reflexivity|]. split.
    + unlists. unfold crop_fn. lcbv. mmcells.
    + intros p Lp. boxes. unlists. lcbv. split.
      * intros (A & B). apply between in A. apply between in B. tauto.
      * intros. conj_lra.
  - split; [reflexivity|]. split.
    + unlists. unfold crop_fn. lcbv. mmcells.
    + intros p Lp. boxes. unlists. lcbv. split.
      * intros (A & B & C). apply between in A. apply between in B. apply between in C. tauto.
      * intros. conj_lra.
Qed.
(** deciding inclusion, membership and overlap *)
Ltac decide_box := symr; rprep; f_equal; apply eq_true_iff_eq; rewrite ?andb_true_iff, ?Rleb_true; tauto.
Lemma C36_contains_ok : forall n, (n = 2 \/ n = 3)%nat -> forall b c, length b = (n + n)%nat -> length c = (n + n)%nat -> proper n c ->
  exists r, computes RS (contains_fn n) [In (fl b); In (fl c)] (VB r) [] /\ (r = true <-> box_sub n c b).
Proof.
  intros n Hn b c Lb Lc Pc. dims Hn; simpl in Lb, Lc.
  - exists (Rleb (at_ b 0) (at_ c 0) && Rleb (at_ c 2) (at_ b 2) && (Rleb (at_ b 1) (at_ c 1) && Rleb (at_ c 3) (at_ b 3))). split.
    + clear Pc. unlists. unfold contains_fn. symr; rprep; rifs; simpl; try reflexivity; try (exfalso; lra).
    + rewrite sub2, !andb_true_iff, !Rleb_true by auto. tauto.
  - exists (Rleb (at_ b 0) (at_ c 0) && Rleb (at_ c 3) (at_ b 3) && (Rleb (at_ b 1) (at_ c 1) && Rleb (at_ c 4) (at_ b 4)) && (Rleb (at_ b 2) (at_ c 2) && Rleb (at_ c 5) (at_ b 5))). split.
    + clear Pc. unlists. unfold contains_fn. symr; rprep; rifs; simpl; try reflexivity; try (exfalso; lra).
    + rewrite sub3, !andb_true_iff, !Rleb_true by auto. tauto.
Qed.
Lemma C36_point_ok : forall n, (n = 2 \/ n = 3)%nat -> forall b p, length b = (n + n)%nat -> length p = n ->
  exists r, computes RS (point_fn n) [In (fl b); In (fl p)] (VB r) [] /\ (r = true <-> in_aabb n b p).
Proof.
  intros n Hn b p Lb Lp. dims Hn; simpl in Lb.
  - exists (Rleb (at_ b 0) (at_ p 0) && Rleb (at_ p 0) (at_ b 2) && (Rleb (at_ b 1) (at_ p 1) && Rleb (at_ p 1) (at_ b 3))). split.
    + unlists. unfold point_fn. symr; rprep; rifs; simpl; try reflexivity; try (exfalso; lra).
    + rewrite in2, !andb_true_iff, !Rleb_true by auto. tauto.
  - exists (Rleb (at_ b 0) (at_ p 0) && Rleb (at_ p 0) (at_ b 3) && (Rleb (at_ b 1) (at_ p 1) && Rleb (at_ p 1) (at_ b 4)) && (Rleb (at_ b 2) (at_ p 2) && Rleb (at_ p 2) (at_ b 5))). split.
    + unlists. unfold point_fn. symr; rprep; rifs; simpl; try reflexivity; try (exfalso; lra).
    + rewrite in3, !andb_true_iff, !Rleb_true by auto. tauto.
Qed.
Lemma C36_meet_ok : forall n, (n = 2 \/ n = 3)%nat -> forall b c, length b = (n + n)%nat -> length c = (n + n)%nat -> proper n b -> proper n c ->
  exists r, computes RS (meet_fn n) [In (fl b); In (fl c)] (VB r) [] /\ (r = true <-> exists p, length p = n /\ in_aabb n b p /\ in_aabb n c p).
Proof.
  assert (X : forall a b c d x, a <= x <= b -> c <= x <= d -> a <= d /\ c <= b) by (intros; lra).
  intros n Hn b c Lb Lc Pb Pc. dims Hn; simpl in Lb, Lc.
  - exists (Rleb (at_ b 0) (at_ c 2) && Rleb (at_ c 0) (at_ b 2) && (Rleb (at_ b 1) (at_ c 3) && Rleb (at_ c 1) (at_ b 3))). split.
    + clear Pb Pc. unlists. unfold meet_fn. symr; rprep; rifs; simpl; try reflexivity; try (exfalso; lra).
    + rewrite proper2 in Pb, Pc. rewrite !andb_true_iff, !Rleb_true by auto. split.
      * intros [[A B] [C D]]. exists [Rmax (at_ b 0) (at_ c 0); Rmax (at_ b 1) (at_ c 1)]. split; [reflexivity|]. rewrite !in2. unlists. revert Pb Pc A B C D. lcbv. intros.
        conj_lra.
      * intros (p & Lp & A & B). rewrite in2 in A, B. destruct A as [A1 A2], B as [B1 B2]. pose proof (X _ _ _ _ _ A1 B1). pose proof (X _ _ _ _ _ A2 B2). tauto.
  - exists (Rleb (at_ b 0) (at_ c 3) && Rleb (at_ c 0) (at_ b 3) && (Rleb (at_ b 1) (at_ c 4) && Rleb (at_ c 1) (at_ b 4)) && (Rleb (at_ b 2) (at_ c 5) && Rleb (at_ c 2) (at_ b 5))). split.
    + clear Pb Pc. unlists. unfold meet_fn. symr; rprep; rifs; simpl; try reflexivity; try (exfalso; lra).
    + rewrite proper3 in Pb, Pc. rewrite !andb_true_iff, !Rleb_true by auto. split.
      * intros [[[A B] [C D]] [E F]]. exists [Rmax (at_ b 0) (at_ c 0); Rmax (at_ b 1) (at_ c 1); Rmax (at_ b 2) (at_ c 2)]. split; [reflexivity|]. rewrite !in3. unlists. revert Pb Pc A B C D E F. lcbv. intros.
        conj_lra.
      * intros (p & Lp & A & B). rewrite in3 in A, B. destruct A as [A1 [A2 A3]], B as [B1 [B2 B3]].
        pose proof (X _ _ _ _ _ A1 B1). pose proof (X _ _ _ _ _ A2 B2). pose proof (X _ _ _ _ _ A3 B3). tauto.
Qed.
(** crop, then merge with a third box, which must be apart from the destination *)
Lemma C36_crop_until_ok : forall n, (n = 2 \/ n = 3)%nat -> forall b c k, length b = (n + n)%nat -> length c = (n + n)%nat -> length k = (n + n)%nat ->
  exists x m, length x = (n + n)%nat /\ length m = (n + n)%nat /\
  computes RS (crop_fn n) [InA (fl b); InA (fl c); Out (n + n)] VVoid [fl x] /\
  computes RS (merge_fn n) [InA (fl k); InA (fl x); Out (n + n)] VVoid [fl m] /\
  computes RS (crop_until_fn n) [InA (fl b); InA (fl c); In (fl k); Out (n + n)] VVoid [fl m].
Proof.
  intros n Hn b c k Lb Lc Lk. exists (map (fun i => if Nat.ltb i n then Rmax (at_ b i) (at_ c i) else Rmin (at_ b i) (at_ c i)) (seq 0 (n + n))).
  exists (map (fun i => if Nat.ltb i n then Rmin (at_ k i) (Rmax (at_ b i) (at_ c i)) else Rmax (at_ k i) (Rmin (at_ b i) (at_ c i))) (seq 0 (n + n))).
  dims Hn; simpl in Lb, Lc, Lk; (split; [reflexivity|]; split; [reflexivity|]); unlists; unfold crop_fn, merge_fn, crop_until_fn; lcbv; (split; [|split]); mmcells.
Qed.
(** size, radius and centre *)
Lemma C36_measures_ok :
  (forall b c, length b = 3%nat -> length c = 3%nat ->
    computes RS glm_aabb_size [In (fl (b ++ c))] (VF (norm (vsub c b))) [] /\
    computes RS glm_aabb_radius [In (fl (b ++ c))] (VF (norm (vsub c b) / 2)) [] /\
    computes RS glm_aabb_center [In (fl (b ++ c)); Out 3] VVoid [fl (vscale (1/2) (vadd b c))]) /\
  (forall b c, length b = 2%nat -> length c = 2%nat ->
    computes RS glm_aabb2d_diag [In (fl (b ++ c))] (VF (norm (vsub c b))) [] /\
    computes RS glm_aabb2d_radius [In (fl (b ++ c))] (VF (norm (vsub c b) / 2)) [] /\
    computes RS glm_aabb2d_sizev [In (fl (b ++ c)); Out 2] VVoid [fl (vsub c b)] /\
    computes RS glm_aabb2d_center [In (fl (b ++ c)); Out 2] VVoid [fl (vscale (1/2) (vadd b c))]).
Proof.
  split; intros b c Lb Lc; unlists; repeat split; symr; rprep; try domain; cells idtac; try (unfold Rdiv; ring); sqrts; unfold Rdiv; ring.
Qed.
(** ** C37 *)
Lemma Rmin_code : forall a b, (if Rltb a b then a else b) = Rmin a b.
Proof. intros. unfold Rmin. rifs; lra. Qed.
Lemma Rmax_code : forall a b, (if Rltb b a then a else b) = Rmax a b.
Proof. intros. unfold Rmax. rifs; lra. Qed.
(** image of a point under the affine part of the matrix *)
Lemma lo_hi : forall a x y t, x <= t <= y -> Rmin (a * x) (a * y) <= a * t <= Rmax (a * x) (a * y).
Proof.
  intros. assert (a * x <= a * t <= a * y \/ a * y <= a * t <= a * x).
  { destruct (Rle_dec 0 a); [left|right]; split; nra. }
  unfold Rmin, Rmax. rifs; lra.
Qed.
Lemma C37_transform3_ok : forall b M, length b = 6%nat -> length M = 16%nat -> proper 3 b ->
  exists m, length m = 6%nat /\ computes RS glm_aabb_transform [InA (fl b); In (fl M); Out 6] VVoid [fl m] /\
  (forall p, length p = 3%nat -> in_aabb 3 b p -> in_aabb 3 m (firstn 3 (clip M p))) /\
  (forall i, (i < 3)%nat -> exists p q, length p = 3%nat /\ length q = 3%nat /\ in_aabb 3 b p /\ in_aabb 3 b q /\
    at_ (clip M p) i = at_ m i /\ at_ (clip M q) i = at_ m (3 + i)).
Proof.
  intros b M Lb LM P. destruct b as [|x0 [|y0 [|z0 [|x1 [|y1 [|z1 [|]]]]]]]; try discriminate Lb. unlists.
  rewrite proper3 in P. revert P. lcbv. intros P.
  match goal with |- context [[?m0; ?m1; ?m2; _; ?m4; ?m5; ?m6; _; ?m8; ?m9; ?m10; _; ?m12; ?m13; ?m14; _]] =>
  pose (lo := fun a b c d => d + Rmin (a * x0) (a * x1) + Rmin (b * y0) (b * y1) + Rmin (c * z0) (c * z1));
  pose (hi := fun a b c d => d + Rmax (a * x0) (a * x1) + Rmax (b * y0) (b * y1) + Rmax (c * z0) (c * z1));
  exists [lo m0 m4 m8 m12; lo m1 m5 m9 m13; lo m2 m6 m10 m14; hi m0 m4 m8 m12; hi m1 m5 m9 m13; hi m2 m6 m10 m14] end.
  split; [reflexivity|]. split; [|split].
  - unfold lo, hi. clear P lo hi. symr; rprep. all: rewrite ?Rmin_code, ?Rmax_code; reflexivity.
  - intros p Lp. un3 p x y z. rewrite !in3. unfold lo, hi, clip. lcbv. intros (A & B & C).
    split; [|split];
    match goal with |- _ <= ?a * x + ?b * y + ?c * z + _ <= _ =>
      pose proof (lo_hi a x0 x1 x A); pose proof (lo_hi b y0 y1 y B); pose proof (lo_hi c z0 z1 z C); lra end.
  - assert (G : forall a b c d, exists p q, length p = 3%nat /\ length q = 3%nat /\ in_aabb 3 [x0; y0; z0; x1; y1; z1] p /\ in_aabb 3 [x0; y0; z0; x1; y1; z1] q /\
      a * at_ p 0 + b * at_ p 1 + c * at_ p 2 + d * 1 = lo a b c d /\ a * at_ q 0 + b * at_ q 1 + c * at_ q 2 + d * 1 = hi a b c d).
    { intros ka b c d. exists [if Rle_dec (ka * x0) (ka * x1) then x0 else x1; if Rle_dec (b * y0) (b * y1) then y0 else y1; if Rle_dec (c * z0) (c * z1) then z0 else z1].
      exists [if Rle_dec (ka * x0) (ka * x1) then x1 else x0; if Rle_dec (b * y0) (b * y1) then y1 else y0; if Rle_dec (c * z0) (c * z1) then z1 else z0].
      rewrite !in3. unfold lo, hi, Rmin, Rmax. lcbv. split; [reflexivity|]. split; [reflexivity|]. rifs; repeat split; lra. }
    intros i Hi. unfold clip.
    match goal with |- context [[?m0; ?m1; ?m2; _; ?m4; ?m5; ?m6; _; ?m8; ?m9; ?m10; _; ?m12; ?m13; ?m14; _]] =>
    destruct i as [|[|[|]]]; try lia; [destruct (G m0 m4 m8 m12) as (p & q & Lp & Lq & A & B & C & D) | destruct (G m1 m5 m9 m13) as (p & q & Lp & Lq & A & B & C & D) | destruct (G m2 m6 m10 m14) as (p & q & Lp & Lq & A & B & C & D)] end;
    exists p, q; un3 p p0 p1 p2; un3 q q0 q1 q2; (split; [reflexivity|]); (split; [reflexivity|]); (split; [exact A|]); (split; [exact B|]); revert C D; lcbv; intros C D; (split; [exact C|exact D]).
Qed.
Lemma C37_transform2_ok : forall b M, length b = 4%nat -> length M = 9%nat -> proper 2 b ->
  exists m, length m = 4%nat /\ computes RS glm_aabb2d_transform [InA (fl b); In (fl M); Out 4] VVoid [fl m] /\
  (forall p, length p = 2%nat -> in_aabb 2 b p -> in_aabb 2 m (firstn 2 (mvec 3 3 M (p ++ [1])))) /\
  (forall i, (i < 2)%nat -> exists p q, length p = 2%nat /\ length q = 2%nat /\ in_aabb 2 b p /\ in_aabb 2 b q /\
    at_ (mvec 3 3 M (p ++ [1])) i = at_ m i /\ at_ (mvec 3 3 M (q ++ [1])) i = at_ m (2 + i)).
Proof.
  intros b M Lb LM P. un4 b x0 y0 x1 y1. unlists. rewrite proper2 in P. revert P. lcbv. intros P.
  pose (lo := fun a b d => d + Rmin (a * x0) (a * x1) + Rmin (b * y0) (b * y1)).
  pose (hi := fun a b d => d + Rmax (a * x0) (a * x1) + Rmax (b * y0) (b * y1)).
  exists [lo a a2 a5; lo a0 a3 a6; hi a a2 a5; hi a0 a3 a6].
  split; [reflexivity|]. split; [|split].
  - unfold lo, hi. clear P lo hi. symr; rprep. all: rewrite ?Rmin_code, ?Rmax_code; reflexivity.
  - intros p Lp. un2 p x y. rewrite !in2. unfold lo, hi. lcbv. intros (A & B).
    split;
    match goal with |- _ <= ?a * x + ?b * y + _ <= _ =>
      pose proof (lo_hi a x0 x1 x A); pose proof (lo_hi b y0 y1 y B); lra end.
  - assert (G : forall a b d, exists p q, length p = 2%nat /\ length q = 2%nat /\ in_aabb 2 [x0; y0; x1; y1] p /\ in_aabb 2 [x0; y0; x1; y1] q /\
      a * at_ p 0 + b * at_ p 1 + d * 1 = lo a b d /\ a * at_ q 0 + b * at_ q 1 + d * 1 = hi a b d).
    { intros ka b d. exists [if Rle_dec (ka * x0) (ka * x1) then x0 else x1; if Rle_dec (b * y0) (b * y1) then y0 else y1].
      exists [if Rle_dec (ka * x0) (ka * x1) then x1 else x0; if Rle_dec (b * y0) (b * y1) then y1 else y0].
      rewrite !in2. unfold lo, hi, Rmin, Rmax. lcbv. split; [reflexivity|]. split; [reflexivity|]. rifs; repeat split; lra. }
    intros i Hi.
    destruct i as [|[|]]; try lia; [destruct (G a a2 a5) as (p & q & Lp & Lq & A & B & C & D) | destruct (G a0 a3 a6) as (p & q & Lp & Lq & A & B & C & D)];
    exists p, q; un2 p p0 p1; un2 q q0 q1; (split; [reflexivity|]); (split; [reflexivity|]); (split; [exact A|]); (split; [exact B|]); revert C D; lcbv; intros C D; (split; [exact C|exact D]).
Qed.
Lemma C37_proper_ex : proper 3 [-1; 0; 2; 1; 5; 3] /\ proper 2 [-1; 0; 1; 5].
Proof. rewrite proper3, proper2. lcbv. lra. Qed.
