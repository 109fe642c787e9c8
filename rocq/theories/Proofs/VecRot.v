(** * Rotation of vectors, projection, angle, complex numbers (C48, C49, C60) *)

From Coq Require Import String List ZArith Bool Reals Lra Lia.
From Verif Require Import Cglm.
From Verif.Spec Require Import Linear Geometry Client.
From Verif.Proofs Require Import RExact.
Import ListNotations.
Local Open Scope R_scope.

(** ** C48 *)

(** the rotation about a unit axis: length, axis component and axis itself are kept, it
    acts linearly by the matrix [rotmat], angles add up, and angle 0 does nothing *)
Lemma C48_rotation_ok : forall k v a b, length k = 3%nat -> length v = 3%nat -> norm2 k = 1 ->
  norm2 (rotated k a v) = norm2 v /\ rdot k (rotated k a v) = rdot k v /\ rotated k a k = k /\
  rotated k a v = mvec 3 3 (rotmat k a) v /\ rotated k b (rotated k a v) = rotated k (a + b) v /\ rotated k 0 v = v.
Proof.
  intros k v a b L1 L2. un3 k k0 k1 k2. un3 v v0 v1 v2.
  unfold rotmat, rotated. rewrite cos_plus, sin_plus, cos_0, sin_0.
  pose proof (sin2_cos2 a) as SC. pose proof (sin2_cos2 b) as SD. unfold Rsqr in *.
  set (c := cos a) in *. set (s := sin a) in *. set (d := cos b) in *. set (e := sin b) in *. clearbody c s d e.
  assert (s * s = 1 - c * c) as S2 by lra. assert (e * e = 1 - d * d) as E2 by lra.
  lcbv. intros N. assert (k0 * k0 = 1 - k1 * k1 - k2 * k2) as N' by lra.
  repeat split; cells ltac:(try ring [N' S2 E2]).
Qed.
(** and it turns: the cosine of the angle between an orthogonal vector and its image is cos a *)
Lemma C48_turns_ok : forall k v a, length k = 3%nat -> length v = 3%nat -> norm2 k = 1 -> rdot k v = 0 ->
  rdot v (rotated k a v) = cos a * norm2 v /\ rdot k (vcross v (rotated k a v)) = sin a * norm2 v.
Proof.
  intros k v a L1 L2 N H. unfold rotated. rewrite H. revert N H. un3 k a0 a1 a2. un3 v a3 a4 a5. lcbv. intros N H.
  split; [ring|].
  transitivity (sin a * ((a3 * a3 + a4 * a4 + a5 * a5) * (a0 * a0 + a1 * a1 + a2 * a2) - (a0 * a3 + a1 * a4 + a2 * a5) * (a0 * a3 + a1 * a4 + a2 * a5))).
  ring. rewrite N, H. ring.
Qed.
Lemma C48_unit_axis_ex : norm2 [2/3; 1/3; 2/3] = 1 /\ rdot [2/3; 1/3; 2/3] [1; -2; 0] = 0.
Proof. lcbv. lra. Qed.
(** vec2: the plane rotation, counter-clockwise, also in place *)
Lemma C48_vec2_rotate_ok : forall v angle, length v = 2%nat ->
  computes RS glm_vec2_rotate [InA (fl v); Val (VF angle); Out 2] VVoid
    [fl [cos angle * at_ v 0 - sin angle * at_ v 1; sin angle * at_ v 0 + cos angle * at_ v 1]].
Proof. go. Qed.
(** glm_vec3_rotate_m3: the matrix with its columns normalised, applied to the vector *)
Lemma C48_rotate_m3_ok : forall x y z v, length x = 3%nat -> length y = 3%nat -> length z = 3%nat -> length v = 3%nat ->
  computes RS glm_vec3_rotate_m3 [In (fl (x ++ y ++ z)); InA (fl v); Out 3] VVoid
    [fl (mvec 3 3 (normalized x ++ normalized y ++ normalized z) v)].
Proof. rexec. all: unfold normalized; tidy. all: rcells.  Qed.
Lemma C48_rotate_m4_ok : forall x y z w v, length x = 4%nat -> length y = 4%nat -> length z = 4%nat -> length w = 4%nat -> length v = 3%nat ->
  computes RS glm_vec3_rotate_m4 [In (fl (x ++ y ++ z ++ w)); InA (fl v); Out 3] VVoid
    [fl (firstn 3 (mvec 3 4 (normalized x ++ normalized y ++ normalized z) v))].
Proof. rexec. all: unfold normalized; tidy. all: rcells. Qed.

(** ** C49 *)
Lemma C49_proj_ok : forall a b, length a = 3%nat -> length b = 3%nat -> norm2 b <> 0 ->
  computes RS glm_vec3_proj [InA (fl a); InA (fl b); Out 3] VVoid [fl (vscale (rdot a b / norm2 b) b)] /\
  rdot (vsub a (vscale (rdot a b / norm2 b) b)) b = 0.
Proof.
  intros a b L1 L2. unlists. lcbv. intros N. split.
  - symr; rprep; try (reqs; auto; fail). all: cells fieldl.
  - field. auto.
Qed.
Lemma C49_proj_zero_ok : forall a b, length a = 3%nat -> length b = 3%nat -> norm2 b = 0 ->
  aborts RS glm_vec3_proj [InA (fl a); InA (fl b); Out 3] XFloatDomain.
Proof. intros a b L1 L2. unlists. lcbv. intros N. rabort. Qed.
Lemma C49_proj_ex : norm2 [1; 2; 3] <> 0 /\ norm2 [0; 0; 0] = 0.
Proof. lcbv. lra. Qed.
Lemma cauchy3 : forall a b, length a = 3%nat -> length b = 3%nat -> rdot a b * rdot a b <= norm2 a * norm2 b.
Proof.
  intros a b La Lb. un3 a a0 a1 a2. un3 b b0 b1 b2. lcbv.
  assert (0 <= (a0*b1-a1*b0)*(a0*b1-a1*b0) + (a1*b2-a2*b1)*(a1*b2-a2*b1) + (a2*b0-a0*b2)*(a2*b0-a0*b2)) by sq0. lra.
Qed.
Lemma norm_pos : forall a, norm2 a <> 0 -> 0 < norm a.
Proof. intros a H. unfold norm. apply sqrt_lt_R0. pose proof (norm2_nonneg a). lra. Qed.
Lemma cosine_bounds : forall a b, length a = 3%nat -> length b = 3%nat -> norm2 a <> 0 -> norm2 b <> 0 ->
  -1 <= rdot a b / (norm a * norm b) <= 1.
Proof.
  intros a b La Lb Na Nb. pose proof (norm_pos a Na). pose proof (norm_pos b Nb).
  assert (P : 0 < norm a * norm b) by (apply Rmult_lt_0_compat; auto).
  assert (Q : Rsqr (rdot a b) <= Rsqr (norm a * norm b)).
  { unfold Rsqr. replace (norm a * norm b * (norm a * norm b)) with ((norm a * norm a) * (norm b * norm b)) by ring.
    rewrite !norm_sq. apply cauchy3; auto. }
  split.
  - apply Rmult_le_reg_r with (norm a * norm b); auto. unfold Rdiv. rewrite Rmult_assoc, Rinv_l by lra.
    apply Rsqr_neg_pos_le_0 in Q; lra.
  - apply Rmult_le_reg_r with (norm a * norm b); auto. unfold Rdiv. rewrite Rmult_assoc, Rinv_l by lra.
    apply Rsqr_incr_0_var in Q; lra.
Qed.
Lemma C49_angle_ok : forall a b, length a = 3%nat -> length b = 3%nat -> norm2 a <> 0 -> norm2 b <> 0 ->
  computes RS glm_vec3_angle [In (fl a); In (fl b)] (VF (acos (rdot a b / (norm a * norm b)))) [] /\
  0 <= acos (rdot a b / (norm a * norm b)) <= PI /\
  cos (acos (rdot a b / (norm a * norm b))) = rdot a b / (norm a * norm b).
Proof.
  intros a b La Lb Na Nb. pose proof (cosine_bounds a b La Lb Na Nb) as B.
  split; [|split; [apply acos_bound | apply cos_acos; auto]].
  pose proof (norm_pos a Na) as Pa. pose proof (norm_pos b Nb) as Pb. revert B Pa Pb. clear Na Nb.
  un3 a a0 a1 a2. un3 b b0 b1 b2. lcbv. intros B Pa Pb.
  symr; rprep; try domain.
  unfold Rdiv in *. rewrite ?Rmult_1_l in *. rifs; try lra. reflexivity.
Qed.
(** parallel, opposite and orthogonal vectors *)
Lemma C49_angle_ex : norm2 [3; 0; 4] <> 0 /\ norm2 [0; 2; 0] <> 0 /\ rdot [3; 0; 4] [0; 2; 0] / (norm [3; 0; 4] * norm [0; 2; 0]) = 0.
Proof. repeat split; lcbv; lra. Qed.
(** a zero vector: division by zero *)
Lemma C49_angle_zero_ok : forall a b, length a = 3%nat -> length b = 3%nat -> norm2 a = 0 \/ norm2 b = 0 ->
  aborts RS glm_vec3_angle [In (fl a); In (fl b)] XFloatDomain.
Proof.
  intros a b La Lb. pose proof (norm2_nonneg a) as Pa. pose proof (norm2_nonneg b) as Pb. revert Pa Pb.
  un3 a a0 a1 a2. un3 b b0 b1 b2. lcbv. intros Pa Pb H. rabort;
  (match goal with N : sqrt _ * sqrt _ <> 0 |- _ => apply N; destruct H as [H|H]; rewrite H, sqrt_0; ring end).
Qed.

(** ** C60 *)
Lemma C60_mul_ok : forall a b, length a = 2%nat -> length b = 2%nat ->
  computes RS glm_vec2_complex_mul [InA (fl a); InA (fl b); Out 2] VVoid [fl (cmul a b)].
Proof. go. Qed.
(** the quotient is the number whose product with the divisor is the dividend *)
Lemma C60_div_ok : forall a b, length a = 2%nat -> length b = 2%nat -> norm2 b <> 0 -> exists q,
  computes RS glm_vec2_complex_div [InA (fl a); InA (fl b); Out 2] VVoid [fl q] /\
  length q = 2%nat /\ cmul q b = a /\ cmul b q = a.
Proof.
  intros a b La Lb. un2 a a0 a1. un2 b b0 b1. lcbv. intros N. refine (ex_intro _ [_;_] _). split.
  - symr; rprep; try (reqs; auto; fail). all: cells reflexivity.
  - split; [reflexivity|]. split; lcbv; cells ltac:(field; auto).
Qed.
Lemma C60_div_zero_ok : forall a b, length a = 2%nat -> length b = 2%nat -> norm2 b = 0 ->
  aborts RS glm_vec2_complex_div [InA (fl a); InA (fl b); Out 2] XFloatDomain.
Proof. intros a b La Lb. un2 a a0 a1. un2 b b0 b1. lcbv. intros N. rabort. Qed.
Lemma C60_div_ex : norm2 [3; 4] <> 0.
Proof. lcbv. lra. Qed.
(** complex multiplication: a commutative ring structure, norm multiplicative, conjugate *)
Lemma C60_laws_ok : forall a b c, length a = 2%nat -> length b = 2%nat -> length c = 2%nat ->
  cmul a b = cmul b a /\ cmul (cmul a b) c = cmul a (cmul b c) /\ cmul a (vadd b c) = vadd (cmul a b) (cmul a c) /\
  cmul [1; 0] a = a /\ norm2 (cmul a b) = norm2 a * norm2 b.
Proof. intros a b c La Lb Lc. un2 a a0 a1. un2 b b0 b1. un2 c z0 z1. lcbv. repeat split; cells ltac:(ring). Qed.
Lemma C60_conjugate_ok : forall a, length a = 2%nat ->
  computes RS glm_vec2_complex_conjugate [InA (fl a); Out 2] VVoid [fl [at_ a 0; - at_ a 1]].
Proof. go. Qed.
