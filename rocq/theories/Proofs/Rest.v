(** * Plane transforms applied from the left, texture transforms, invalid boxes, lengths (C02, C03, C20, C36, C47) *)

From Coq Require Import String List ZArith Bool Reals Lra Lia.
From Verif Require Import Cglm.
From Verif.Spec Require Import Linear Geometry Affine Clip Frustum Box Limits.
From Verif.Proofs Require Import Layout RExact AffTac Box VecNorm.
(* props: From Verif.Spec Require Import Linear Geometry Affine Box Limits. *)
Import ListNotations.
Local Open Scope R_scope.

(** ** C20 *)
(** the functions of affine2d-post.h multiply from the left; translation assumes an affine matrix *)
Lemma C20_post_ok :
  (forall r v t, length r = 4%nat -> length v = 2%nat -> length t = 2%nat ->
    computes RS glm_translated2d [InOut (fl (aff2 r v)); In (fl t)] VVoid [fl (mmul 3 (transl2 t) (aff2 r v))]) /\
  (forall r v x, length r = 4%nat -> length v = 2%nat ->
    computes RS glm_translated2d_x [InOut (fl (aff2 r v)); Val (VF x)] VVoid [fl (mmul 3 (transl2 [x; 0]) (aff2 r v))]) /\
  (forall r v y, length r = 4%nat -> length v = 2%nat ->
    computes RS glm_translated2d_y [InOut (fl (aff2 r v)); Val (VF y)] VVoid [fl (mmul 3 (transl2 [0; y]) (aff2 r v))]) /\
  (forall m a, length m = 9%nat -> computes RS glm_rotated2d [InOut (fl m); Val (VF a)] VVoid [fl (mmul 3 (rot2 a) m)]) /\
  (forall m s, length m = 9%nat -> length s = 2%nat -> computes RS glm_scaled2d [InOut (fl m); In (fl s)] VVoid [fl (mmul 3 (scaling2 s) m)]) /\
  (forall m s, length m = 9%nat -> computes RS glm_scaled2d_uni [InOut (fl m); Val (VF s)] VVoid [fl (mmul 3 (scaling2 [s; s]) m)]).
Proof. repeat match goal with |- _ /\ _ => split end; ago. Qed.
(** glm_mat3_textrans: turn by minus the angle, scale, translate *)
Lemma C20_textrans_ok : forall sx sy a tx ty,
  computes RS glm_mat3_textrans [Val (VF sx); Val (VF sy); Val (VF a); Val (VF tx); Val (VF ty); Out 9] VVoid
    [fl (mmul 3 (transl2 [tx; ty]) (mmul 3 (scaling2 [sx; sy]) (rot2 (- a))))].
Proof. intros. unfold transl2, scaling2, rot2, aff2. rewrite cos_neg, sin_neg. lcbv. symr; rprep; try domain; cells ltac:(ring).
  all: change (T RS) with R in *; f_equal; ring.
Qed.
(** documented as counter-clockwise, it takes the x axis to the negative y axis *)
Lemma C20_textrans_refuted_ok : exists a M, computes RS glm_mat3_textrans [Val (VF 1); Val (VF 1); Val (VF a); Val (VF 0); Val (VF 0); Out 9] VVoid [fl M] /\
  moves2 (rot2 a) [1; 0] [0; 1] /\ moves2 M [1; 0] [0; -1].
Proof.
  exists (PI / 2). eexists. split; [apply C20_textrans_ok|].
  unfold moves2, transl2, scaling2, rot2, aff2. rewrite cos_neg, sin_neg, cos_PI2, sin_PI2. lcbv. split; cells ltac:(ring).
Qed.

(** ** C36 *)
Lemma C36_zero_copy_ok :
  computes RS glm_aabb2d_zero [Out 4] VVoid [fl [0; 0; 0; 0]] /\
  (forall b, length b = 4%nat -> computes RS glm_aabb2d_copy [InA (fl b); Out 4] VVoid [fl b]).
Proof. split; ago. Qed.
Lemma flt_max_eq : flt_max = 340282346638528859811704183484516925440.
Proof. unfold flt_max. field. Qed.
(** the empty box, the neutral element of merging, and the test for it *)
Lemma C36_invalid_ok :
  computes RS glm_aabb_invalidate [Out 6] VVoid [fl (repeat flt_max 3 ++ repeat (- flt_max) 3)] /\
  computes RS glm_aabb2d_invalidate [Out 4] VVoid [fl (repeat flt_max 2 ++ repeat (- flt_max) 2)] /\
  computes RS glm_aabb_isvalid [In (fl (repeat flt_max 3 ++ repeat (- flt_max) 3))] (VB false) [] /\
  computes RS glm_aabb2d_isvalid [In (fl (repeat flt_max 2 ++ repeat (- flt_max) 2))] (VB false) [] /\
  (forall b, length b = 6%nat -> (forall i, (i < 3)%nat -> at_ b i < flt_max) -> (forall i, (3 <= i < 6)%nat -> - flt_max < at_ b i) ->
    computes RS glm_aabb_isvalid [In (fl b)] (VB true) []) /\
  (forall b, length b = 4%nat -> (forall i, (i < 2)%nat -> at_ b i < flt_max) -> (forall i, (2 <= i < 4)%nat -> - flt_max < at_ b i) ->
    computes RS glm_aabb2d_isvalid [In (fl b)] (VB true) []).
Proof.
  rewrite flt_max_eq. repeat match goal with |- _ /\ _ => split end.
  - symr; rprep; cells ltac:(ring).
  - symr; rprep; cells ltac:(ring).
  - cbn [repeat app]. symr; rprep; rifs; try reflexivity; exfalso; lra.
  - cbn [repeat app]. symr; rprep; rifs; try reflexivity; exfalso; lra.
  - intros b L A B. pose proof (A 0%nat ltac:(lia)). pose proof (A 1%nat ltac:(lia)). pose proof (A 2%nat ltac:(lia)).
    pose proof (B 3%nat ltac:(lia)). pose proof (B 4%nat ltac:(lia)). pose proof (B 5%nat ltac:(lia)). clear A B. unlists. unfold at_ in *. cbn [nth] in *.
    symr; rprep; rifs; try reflexivity; exfalso; lra.
  - intros b L A B. pose proof (A 0%nat ltac:(lia)). pose proof (A 1%nat ltac:(lia)).
    pose proof (B 2%nat ltac:(lia)). pose proof (B 3%nat ltac:(lia)). clear A B. unlists. unfold at_ in *. cbn [nth] in *.
    symr; rprep; rifs; try reflexivity; exfalso; lra.
Qed.
Lemma C36_invalid_ex : (forall i, (i < 3)%nat -> at_ [1; 2; 3; 1; 2; 4] i < flt_max) /\ (forall i, (3 <= i < 6)%nat -> - flt_max < at_ [1; 2; 3; 1; 2; 4] i).
Proof. rewrite flt_max_eq. split; intros i Hi; do 6 (destruct i as [|i]; [try lia; lcbv; lra|]); lia. Qed.
(** merging with the empty box *)
Lemma C36_merge_invalid_ok : forall n, (n = 2 \/ n = 3)%nat -> forall b, length b = (n + n)%nat -> (forall i, (i < n + n)%nat -> - flt_max <= at_ b i <= flt_max) ->
  computes RS (merge_fn n) [In (fl (repeat flt_max n ++ repeat (- flt_max) n)); InA (fl b); Out (n + n)] VVoid [fl b].
Proof.
  rewrite flt_max_eq. intros n [-> | ->] b L A.
  - pose proof (A 0%nat ltac:(lia)). pose proof (A 1%nat ltac:(lia)). pose proof (A 2%nat ltac:(lia)). pose proof (A 3%nat ltac:(lia)). clear A.
    cbn [Nat.add] in L. unlists. unfold at_ in *. cbn [nth Nat.add] in *. unfold merge_fn. cbn [Nat.eqb Nat.add repeat app]. mmcells.
  - pose proof (A 0%nat ltac:(lia)). pose proof (A 1%nat ltac:(lia)). pose proof (A 2%nat ltac:(lia)). pose proof (A 3%nat ltac:(lia)). pose proof (A 4%nat ltac:(lia)). pose proof (A 5%nat ltac:(lia)). clear A.
    cbn [Nat.add] in L. unlists. unfold at_ in *. cbn [nth Nat.add] in *. unfold merge_fn. cbn [Nat.eqb Nat.add repeat app]. mmcells.
Qed.
Lemma C36_merge_invalid_ex : forall i, (i < 2 + 2)%nat -> - flt_max <= at_ [1; 2; 3; 4] i <= flt_max.
Proof. rewrite flt_max_eq. intros i Hi; do 4 (destruct i as [|i]; [lcbv; lra|]); lia. Qed.
(** glm_aabb_isvalid does not reject a box whose lower corner lies above its upper corner *)
Lemma C36_isvalid_refuted_ok : exists b, length b = 6%nat /\ computes RS glm_aabb_isvalid [In (fl b)] (VB true) [] /\ forall p, ~ in_aabb 3 b p.
Proof.
  exists [1; 1; 1; 0; 0; 0]. split; [reflexivity|]. split.
  - apply C36_invalid_ok; [reflexivity| |]; rewrite flt_max_eq; intros i Hi; do 6 (destruct i as [|i]; [try lia; lcbv; lra|]); lia.
  - intros p H. specialize (H 0%nat ltac:(lia)). revert H. lcbv. lra.
Qed.

(** ** C47 *)
Lemma C47_faceforward_ok : forall n v r, length n = 3%nat -> length v = 3%nat -> length r = 3%nat ->
  computes RS glm_vec3_faceforward [InA (fl n); In (fl v); In (fl r); Out 3] VVoid [fl (if Rlt_dec (rdot v r) 0 then n else neg n)].
Proof.
  intros n v r L1 L2 L3. un3 n n0 n1 n2. un3 v v0 v1 v2. un3 r r0 r1 r2. unfold neg. lcbv. symr; rprep; unfold Rltb; destruct Rlt_dec; reflexivity.
Qed.
(** facing away from [v] when the reference is the normal itself *)
Lemma C47_faceforward_side_ok : forall n v, length n = 3%nat -> length v = 3%nat -> exists r, length r = 3%nat /\
  computes RS glm_vec3_faceforward [InA (fl n); In (fl v); In (fl n); Out 3] VVoid [fl r] /\ (r = n \/ r = neg n) /\ rdot v r <= 0.
Proof.
  intros n v L1 L2. eexists. split; [|split; [apply C47_faceforward_ok; auto|]].
  - un3 n n0 n1 n2. destruct Rlt_dec; reflexivity.
  - destruct Rlt_dec as [H|H]; [split; [auto|lra]|]. split; [auto|]. un3 n n0 n1 n2. un3 v v0 v1 v2. unfold neg. revert H. lcbv. lra.
Qed.

(** ** C02, C03: the deprecated names, and vectors of a given length *)
Lemma C02_alias_ok : forall x y, length x = 3%nat -> length y = 3%nat ->
  computes RS glm_cross [InA (fl x); InA (fl y); Out 3] VVoid [fl (vcross x y)].
Proof. go. Qed.
Lemma C03_alias_ok : forall x, length x = 3%nat ->
  computes RS glm_normalize [InOut (fl x)] VVoid [fl (normalized x)] /\ computes RS glm_normalize_to [InA (fl x); Out 3] VVoid [fl (normalized x)].
Proof. intros x L. split; revert x L; normz. Qed.
Lemma C03_scale_as_ok :
  (forall x s, length x = 2%nat -> computes RS glm_vec2_scale_as [InA (fl x); Val (VF s); Out 2] VVoid [fl (vscale s (normalized x))]) /\
  (forall x s, length x = 3%nat -> computes RS glm_vec3_scale_as [InA (fl x); Val (VF s); Out 3] VVoid [fl (vscale s (normalized x))]) /\
  (forall x s, length x = 4%nat -> computes RS glm_vec4_scale_as [InA (fl x); Val (VF s); Out 4] VVoid [fl (vscale s (normalized x))]).
Proof.
  repeat match goal with |- _ /\ _ => split end; intros x s L; unlists; unfold normalized, eps, vscale; lcbv; symr; rprep; try (reqs; sq0); try domain;
    unfold Rltb; destruct Rlt_dec; lcbv; cells ltac:(try ring; unfold Rdiv; ring).
Qed.
