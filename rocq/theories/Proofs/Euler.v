(** * Euler angles (C27, C28, C29) *)

From Coq Require Import String List ZArith Bool Reals Lra Lia.
From Verif.Spec Require Export Quaternion Euler.
From Verif.Proofs Require Import AffTac Quat AffineRot.
(* props: From Verif.Spec Require Import Linear Geometry Affine Quaternion Euler. *)
Import ListNotations.
Local Open Scope R_scope.

(** ** C27 *)
Ltac eu := unfold euler4, euler, e_.
Ltac eu_go := eu; au; intros; change (T RS) with R in *; unlists; symr; rprep; gen_inv; cells ltac:(try ring).
Lemma C27_matrices_ok : forall a, length a = 3%nat ->
  computes RS glm_euler_xyz [In (fl a); Out 16] VVoid [fl (euler4 (0, 1, 2)%nat a)] /\
  computes RS glm_euler_xzy [In (fl a); Out 16] VVoid [fl (euler4 (0, 2, 1)%nat a)] /\
  computes RS glm_euler_yxz [In (fl a); Out 16] VVoid [fl (euler4 (1, 0, 2)%nat a)] /\
  computes RS glm_euler_yzx [In (fl a); Out 16] VVoid [fl (euler4 (1, 2, 0)%nat a)] /\
  computes RS glm_euler_zxy [In (fl a); Out 16] VVoid [fl (euler4 (2, 0, 1)%nat a)] /\
  computes RS glm_euler_zyx [In (fl a); Out 16] VVoid [fl (euler4 (2, 1, 0)%nat a)] /\
  computes RS glm_euler [In (fl a); Out 16] VVoid [fl (euler4 (0, 1, 2)%nat a)].
Proof. intros a L. repeat split; revert a L; eu_go. Qed.
Lemma rotation_mul : forall a b, length a = 9%nat -> length b = 9%nat -> rotation a -> rotation b -> rotation (mmul 3 a b).
Proof.
  intros a b La Lb [Oa Da] [Ob Db]. unfold rotation, orthonormal in *. split.
  - transitivity (mmul 3 (mmul 3 (transp 3 3 b) (mmul 3 (transp 3 3 a) a)) b).
    { clear - La Lb. unlists. lcbv. cells ltac:(ring). }
    rewrite Oa. transitivity (mmul 3 (transp 3 3 b) b); [|exact Ob]. clear - Lb. unlists. lcbv. cells ltac:(ring).
  - transitivity (det 3 a * det 3 b); [clear - La Lb; unlists; lcbv; ring|]. rewrite Da, Db. ring.
Qed.
Lemma rotmat_e : forall i x, (i < 3)%nat -> rotation (rotmat (e_ i) x).
Proof.
  intros i x H. assert (L : length (e_ i) = 3%nat) by (destruct i as [|[|[|]]]; [reflexivity..|exfalso; lia]).
  assert (N : norm2 (e_ i) = 1) by (destruct i as [|[|[|]]]; [unfold e_; lcbv; ring..|exfalso; lia]).
  destruct (C14_rotation_ok (e_ i) x 0 L N) as [A _]. exact A.
Qed.
Lemma rotmat_e_len : forall i x, (i < 3)%nat -> length (rotmat (e_ i) x) = 9%nat.
Proof. intros i x H. destruct i as [|[|[|]]]; try lia; reflexivity. Qed.
Lemma mmul_len : forall a b, length (mmul 3 a b) = 9%nat.
Proof. reflexivity. Qed.
(** each of these is a rotation *)
Lemma C27_rotation_ok : forall o a, List.In o axis_orders -> length a = 3%nat -> rotation (euler o a).
Proof.
  assert (G : forall i j k a, (i < 3)%nat -> (j < 3)%nat -> (k < 3)%nat -> rotation (euler (i, j, k) a)).
  { intros i j k a Hi Hj Hk. unfold euler.
    apply rotation_mul; [apply rotmat_e_len, Hi|apply mmul_len|apply rotmat_e, Hi|].
    apply rotation_mul; [apply rotmat_e_len, Hj|apply rotmat_e_len, Hk|apply rotmat_e, Hj|apply rotmat_e, Hk]. }
  intros o a H L. repeat (destruct H as [<-|H]; [apply G; lia|]). destruct H.
Qed.
Lemma C27_by_order_ok : forall o a, List.In o axis_orders -> length a = 3%nat ->
  computes RS glm_euler_by_order [In (fl a); Val (VI (order_code o)); Out 16] VVoid [fl (euler4 o a)].
Proof.
  intros o a H L.
  destruct H as [<-|[<-|[<-|[<-|[<-|[<-|[]]]]]]]; revert a L; eu; cbv [order_code Z.of_nat Pos.of_succ_nat Z.add Z.mul Pos.add Pos.mul Pos.succ]; eu_go.
Qed.
(** any other value of the order leaves the 3x3 part as it was *)
Lemma C27_no_order_ok : forall z a d, ~ List.In z (map order_code axis_orders) -> length a = 3%nat -> length d = 16%nat ->
  computes RS glm_euler_by_order [In (fl a); Val (VI z); InOut (fl d)] VVoid [fl (aff (lin4 d) [0; 0; 0])].
Proof.
  intros z a d H La Ld. 
  assert (N : z <> 36%Z /\ z <> 24%Z /\ z <> 33%Z /\ z <> 9%Z /\ z <> 18%Z /\ z <> 6%Z).
  { repeat split; intros ->; apply H; simpl; auto 10. }
  clear H. destruct N as (N1 & N2 & N3 & N4 & N5 & N6).
  apply Z.eqb_neq in N1, N2, N3, N4, N5, N6. au. unlists. symr. rprep. unfold icmp. rewrite ?N1, ?N2, ?N3, ?N4, ?N5, ?N6. reflexivity.
Qed.
Lemma C27_no_order_ex : ~ List.In 0%Z (map order_code axis_orders).
Proof. simpl. lia. Qed.
(** the order number of three axis numbers *)
Lemma C27_order_ok : forall i j k, (i < 3)%nat -> (j < 3)%nat -> (k < 3)%nat ->
  computes RS glm_euler_order [In (il [Z.of_nat i; Z.of_nat j; Z.of_nat k])] (VI (order_code (i, j, k))) [].
Proof.
  intros i j k Hi Hj Hk.
  destruct i as [|[|[|]]]; try lia; destruct j as [|[|[|]]]; try lia; destruct k as [|[|[|]]]; try lia; symr; rprep.
Qed.

(** ** C29 *)
Lemma qmat_mul : forall p q, length p = 4%nat -> length q = 4%nat -> qmat (qmul p q) = mmul 3 (qmat p) (qmat q).
Proof. qalg. Qed.
Lemma axis_angle_mat : forall i x, (i < 3)%nat -> qmat (axis_angle (e_ i) x) = rotmat (e_ i) x /\ norm2 (axis_angle (e_ i) x) = 1.
Proof.
  intros i x H.
  assert (C : cos x = cos (x / 2) * cos (x / 2) - sin (x / 2) * sin (x / 2)).
  { replace x with (2 * (x / 2)) at 1 by field. apply cos_2a. }
  assert (S : sin x = 2 * sin (x / 2) * cos (x / 2)).
  { replace x with (2 * (x / 2)) at 1 by field. apply sin_2a. }
  pose proof (sin2_cos2 (x / 2)) as P. unfold Rsqr in P.
  destruct i as [|[|[|]]]; try lia; unfold e_; qu; lcbv; rewrite C, S; revert P; generalize (sin (x / 2)), (cos (x / 2)); intros s c P;
    assert (P' : s * s = 1 - c * c) by lra; (split; [cells ltac:(ring [P']) | ring [P']]).
Qed.
Lemma axis_angle_len : forall i x, (i < 3)%nat -> length (axis_angle (e_ i) x) = 4%nat.
Proof. intros i x H. destruct i as [|[|[|]]]; try lia; reflexivity. Qed.
Lemma qnorm_mul : forall p q, length p = 4%nat -> length q = 4%nat -> norm2 (qmul p q) = norm2 p * norm2 q.
Proof. qalg. Qed.
Lemma qmul_len : forall p q, length p = 4%nat -> length q = 4%nat -> length (qmul p q) = 4%nat.
Proof. intros p q A B. un4 p p0 p1 p2 p3. un4 q q0 q1 q2 q3. reflexivity. Qed.
(** the product quaternion is the rotation of the matrix of the same order *)
Lemma C29_meaning_ok : forall o a, List.In o axis_orders -> length a = 3%nat ->
  norm2 (qeuler o a) = 1 /\ qmat (qeuler o a) = euler o a.
Proof.
  assert (G : forall i j k a, (i < 3)%nat -> (j < 3)%nat -> (k < 3)%nat ->
    norm2 (qeuler (i, j, k) a) = 1 /\ qmat (qeuler (i, j, k) a) = euler (i, j, k) a).
  { intros i j k a Hi Hj Hk. unfold qeuler, euler.
    destruct (axis_angle_mat i (at_ a i) Hi) as [Mi Ni]. destruct (axis_angle_mat j (at_ a j) Hj) as [Mj Nj].
    destruct (axis_angle_mat k (at_ a k) Hk) as [Mk Nk].
    rewrite <- Mi, <- Mj, <- Mk.
    assert (Li := axis_angle_len i (at_ a i) Hi). assert (Lj := axis_angle_len j (at_ a j) Hj). assert (Lk := axis_angle_len k (at_ a k) Hk).
    rewrite !qnorm_mul, !qmat_mul by auto using qmul_len. rewrite Ni, Nj, Nk. split; auto. ring. }
  intros o a H L. repeat (destruct H as [<-|H]; [apply G; lia|]). destruct H.
Qed.
Lemma sin_neg_half : forall x, sin (- x / 2) = - sin (x / 2).
Proof. intros. replace (- x / 2) with (- (x / 2)) by field. apply sin_neg. Qed.
Lemma cos_neg_half : forall x, cos (- x / 2) = cos (x / 2).
Proof. intros. replace (- x / 2) with (- (x / 2)) by field. apply cos_neg. Qed.
Ltac eq_go := unfold qeuler, e_, flip_z; qu; intros; change (T RS) with R in *; unlists; lcbv; rewrite ?sin_neg_half, ?cos_neg_half; symr; rprep;
  repeat match goal with |- context [?x * (1 / 2)] => replace (x * (1 / 2)) with (x / 2) by field end;
  gen_inv; cells ltac:(try ring).
Lemma C29_rh_ok : forall a, length a = 3%nat ->
  computes RS glm_euler_xyz_quat_rh [In (fl a); Out 4] VVoid [fl (qeuler (0, 1, 2)%nat a)] /\
  computes RS glm_euler_xzy_quat_rh [In (fl a); Out 4] VVoid [fl (qeuler (0, 2, 1)%nat a)] /\
  computes RS glm_euler_yxz_quat_rh [In (fl a); Out 4] VVoid [fl (qeuler (1, 0, 2)%nat a)] /\
  computes RS glm_euler_yzx_quat_rh [In (fl a); Out 4] VVoid [fl (qeuler (1, 2, 0)%nat a)] /\
  computes RS glm_euler_zxy_quat_rh [In (fl a); Out 4] VVoid [fl (qeuler (2, 0, 1)%nat a)] /\
  computes RS glm_euler_zyx_quat_rh [In (fl a); Out 4] VVoid [fl (qeuler (2, 1, 0)%nat a)].
Proof. intros a L. repeat split; revert a L; eq_go. Qed.
Lemma C29_lh_ok : forall a, length a = 3%nat ->
  computes RS glm_euler_xyz_quat_lh [In (fl a); Out 4] VVoid [fl (qeuler (0, 1, 2)%nat (flip_z a))] /\
  computes RS glm_euler_xzy_quat_lh [In (fl a); Out 4] VVoid [fl (qeuler (0, 2, 1)%nat (flip_z a))] /\
  computes RS glm_euler_yxz_quat_lh [In (fl a); Out 4] VVoid [fl (qeuler (1, 0, 2)%nat (flip_z a))] /\
  computes RS glm_euler_yzx_quat_lh [In (fl a); Out 4] VVoid [fl (qeuler (1, 2, 0)%nat (flip_z a))] /\
  computes RS glm_euler_zxy_quat_lh [In (fl a); Out 4] VVoid [fl (qeuler (2, 0, 1)%nat (flip_z a))] /\
  computes RS glm_euler_zyx_quat_lh [In (fl a); Out 4] VVoid [fl (qeuler (2, 1, 0)%nat (flip_z a))].
Proof. intros a L. repeat split; revert a L; eq_go. Qed.
(** the names without a suffix are the right-handed ones in the default build *)
Lemma C29_default_ok : forall a, length a = 3%nat ->
  computes RS glm_euler_xyz_quat [In (fl a); Out 4] VVoid [fl (qeuler (0, 1, 2)%nat a)] /\
  computes RS glm_euler_xzy_quat [In (fl a); Out 4] VVoid [fl (qeuler (0, 2, 1)%nat a)] /\
  computes RS glm_euler_yxz_quat [In (fl a); Out 4] VVoid [fl (qeuler (1, 0, 2)%nat a)] /\
  computes RS glm_euler_yzx_quat [In (fl a); Out 4] VVoid [fl (qeuler (1, 2, 0)%nat a)] /\
  computes RS glm_euler_zxy_quat [In (fl a); Out 4] VVoid [fl (qeuler (2, 0, 1)%nat a)] /\
  computes RS glm_euler_zyx_quat [In (fl a); Out 4] VVoid [fl (qeuler (2, 1, 0)%nat a)].
Proof. intros a L. repeat split; revert a L; eq_go. Qed.

(** ** C28 *)
Lemma atan2_polar : forall x y r, 0 < r -> x * x + y * y = r * r ->
  r * cos (Ratan2 y x) = x /\ r * sin (Ratan2 y x) = y.
Proof.
  intros x y r P H.
  assert (Q : x <> 0 -> sqrt (1 + (y / x) * (y / x)) = r / Rabs x).
  { intros N. replace (1 + y / x * (y / x)) with ((r / Rabs x) * (r / Rabs x)).
    - apply sqrt_square. apply Rmult_le_pos; [lra|]. apply Rlt_le, Rinv_0_lt_compat, Rabs_pos_lt; auto.
    - assert (A : Rabs x * Rabs x = x * x) by (rewrite <- Rabs_mult; apply Rabs_pos_eq, Rle_0_sqr).
      pose proof (Rabs_no_R0 x N). transitivity (r * r / (Rabs x * Rabs x)); [field; auto|]. rewrite A, <- H. field; auto. }
  unfold Ratan2. rifs.
  - rewrite cos_atan, sin_atan. unfold Rsqr. rewrite Q by lra. rewrite Rabs_pos_eq by lra. split; field; lra.
  - rewrite neg_cos, neg_sin, cos_atan, sin_atan. unfold Rsqr. rewrite Q by lra. rewrite Rabs_left by lra. split; field; lra.
  - replace (atan (y / x) - PI) with (- (PI - atan (y / x))) by ring. rewrite cos_neg, sin_neg, sin_PI_x, Rtrigo_facts.cos_pi_minus, cos_atan, sin_atan.
    unfold Rsqr. rewrite Q by lra. rewrite Rabs_left by lra. split; field; lra.
  - assert (x = 0) by lra. subst. rewrite cos_PI2, sin_PI2. assert (y = r) by nra. split; lra.
  - assert (x = 0) by lra. subst. replace (- PI / 2) with (- (PI / 2)) by field. rewrite cos_neg, sin_neg, cos_PI2, sin_PI2.
    assert (y = - r) by nra. split; lra.
  - exfalso. assert (x = 0) by lra. assert (y = 0) by lra. subst. nra.
Qed.
Definition xyz_angles (m : list R) : list R :=
  if Rlt_dec (ent 4 m 2 0) 1 then
    if Rlt_dec (-1) (ent 4 m 2 0)
    then [Ratan2 (- ent 4 m 2 1) (ent 4 m 2 2); asin (ent 4 m 2 0); Ratan2 (- ent 4 m 1 0) (ent 4 m 0 0)]
    else [- Ratan2 (ent 4 m 0 1) (ent 4 m 1 1); - (PI / 2); 0]
  else [Ratan2 (ent 4 m 0 1) (ent 4 m 1 1); PI / 2; 0].
Lemma angles_calc : forall m, length m = 16%nat -> computes RS glm_euler_angles [In (fl m); Out 3] VVoid [fl (xyz_angles m)].
Proof. intros. unfold xyz_angles. unlists. symr. rprep. all: lcbv; rifs; try (exfalso; lra); lcbv; cells fieldl; try reflexivity; reqs; lra. Qed.

Lemma transp_len : forall a, length (transp 3 3 a) = 9%nat.
Proof. reflexivity. Qed.
(** a rotation is its own cofactor matrix, and its rows and columns are unit vectors *)
Lemma rotation_facts : forall m00 m01 m02 m10 m11 m12 m20 m21 m22,
  rotation [m00; m01; m02; m10; m11; m12; m20; m21; m22] ->
  m20 * m20 + m21 * m21 + m22 * m22 = 1 /\ m00 * m00 + m10 * m10 + m20 * m20 = 1 /\
  m01 * m01 + m11 * m11 + m21 * m21 = 1 /\ m02 * m02 + m12 * m12 + m22 * m22 = 1 /\
  m00 * m01 + m10 * m11 + m20 * m21 = 0 /\ m00 * m02 + m10 * m12 + m20 * m22 = 0 /\
  m00 * m11 - m10 * m01 = m22 /\ m10 * m02 - m00 * m12 = m21 /\ m01 * m12 - m02 * m11 = m20.
Proof.
  intros m00 m01 m02 m10 m11 m12 m20 m21 m22 [O D]. unfold orthonormal in O.
  set (r := [m00; m01; m02; m10; m11; m12; m20; m21; m22]) in *.
  assert (A : mmul 3 r (transp 3 3 r) = mid 3) by (apply inverse_side; [apply transp_len|reflexivity|exact O]).
  assert (B : transp 3 3 r = adj3 r).
  { transitivity (mmul 3 (mmul 3 (adj3 r) r) (transp 3 3 r)).
    - replace (mmul 3 (adj3 r) r) with (mid 3). unfold r. lcbv. cells ltac:(ring).
      transitivity (mscale (mid 3) (det 3 r)). rewrite D. unfold r; lcbv; cells ltac:(ring). unfold r, adj3. lcbv. cells ltac:(ring).
    - transitivity (mmul 3 (adj3 r) (mmul 3 r (transp 3 3 r))). unfold r, adj3; lcbv; cells ltac:(ring).
      rewrite A. unfold adj3, r. lcbv. cells ltac:(ring). }
  revert O A B. unfold r, adj3. lcbv. intros O A B. injection O. injection A. injection B. clear O A B. intros.
  repeat split; lra.
Qed.
Lemma sqs0 : forall x y, x * x + y * y = 0 -> x = 0 /\ y = 0.
Proof. intros x y H. split; nra. Qed.
(** the result describes the rotation exactly, whatever the translation part; also at gimbal lock *)
Lemma C28_angles_ok : forall r t, length r = 9%nat -> length t = 3%nat -> rotation r ->
  exists a, length a = 3%nat /\ computes RS glm_euler_angles [In (fl (aff r t)); Out 3] VVoid [fl a] /\
  euler (0, 1, 2)%nat a = r.
Proof.
  intros r t Lr Lt H. exists (xyz_angles (aff r t)). split; [unfold xyz_angles; repeat destruct Rlt_dec; reflexivity|].
  split; [apply angles_calc; reflexivity|].
  destruct r as [|m00 [|m01 [|m02 [|m10 [|m11 [|m12 [|m20 [|m21 [|m22 [|? ?]]]]]]]]]]; try discriminate.
  destruct (rotation_facts _ _ _ _ _ _ _ _ _ H) as (C2 & R0 & R1 & R2 & O1 & O2 & F22 & F21 & F20).
  clear H Lr. unfold xyz_angles, aff. cbv [ent at_ nth Nat.add Nat.mul].
  assert (B : -1 <= m20 <= 1) by nra.
  destruct (Rlt_dec m20 1) as [U|U]; [destruct (Rlt_dec (-1) m20) as [V|V]|].
  - set (c := sqrt (1 - m20 * m20)). assert (P : 0 < 1 - m20 * m20) by nra. pose proof (sqrt_lt_R0 _ P) as Pc. fold c in Pc.
    assert (Ec : c * c = 1 - m20 * m20) by (apply sqrt_def; lra).
    destruct (atan2_polar m22 (- m21) c Pc) as [Cx Sx]; [lra|]. destruct (atan2_polar m00 (- m10) c Pc) as [Cz Sz]; [lra|].
    assert (Sy : sin (asin m20) = m20) by (apply sin_asin; lra).
    assert (Cy : cos (asin m20) = c) by (rewrite cos_asin by lra; unfold c, Rsqr; reflexivity).
    eu. lcbv. rewrite Sy, Cy. revert Cx Sx Cz Sz. generalize (cos (Ratan2 (- m21) m22)) (sin (Ratan2 (- m21) m22)) (cos (Ratan2 (- m10) m00)) (sin (Ratan2 (- m10) m00)).
    intros cx sx cz sz Cx Sx Cz Sz. clearbody c. clear Sy Cy U V.
    assert (K : forall x y, c * c * x = c * c * y -> x = y) by (intros x y E; apply Rmult_eq_reg_l with (c * c); nra).
    assert (Q1 : m20 * m21 = - (m00 * m01 + m10 * m11)) by lra. assert (Q2 : m20 * m22 = - (m00 * m02 + m10 * m12)) by lra.
    assert (M01 : m01 = m20 * sx * cz + cx * sz).
    { apply K. rewrite Ec at 1. transitivity (- m20 * m21 * m00 - m10 * m22); [|rewrite <- Cx, <- Cz; replace m21 with (- (c * sx)) by lra; replace m10 with (- (c * sz)) by lra; ring].
      replace (1 - m20 * m20) with (m00 * m00 + m10 * m10) by lra. rewrite <- F22. ring [Q1]. }
    assert (M11 : m11 = cx * cz - sx * (m20 * sz)).
    { apply K. rewrite Ec at 1. transitivity (m00 * m22 - m20 * m21 * m10); [|rewrite <- Cx, <- Cz; replace m21 with (- (c * sx)) by lra; replace m10 with (- (c * sz)) by lra; ring].
      replace (1 - m20 * m20) with (m00 * m00 + m10 * m10) by lra. rewrite <- F22. ring [Q1]. }
    assert (M02 : m02 = - (cx * cz) * m20 + sx * sz).
    { apply K. rewrite Ec at 1. transitivity (m10 * m21 - m20 * m22 * m00); [|rewrite <- Cx, <- Cz; replace m21 with (- (c * sx)) by lra; replace m10 with (- (c * sz)) by lra; ring].
      replace (1 - m20 * m20) with (m00 * m00 + m10 * m10) by lra. rewrite <- F21. ring [Q2]. }
    assert (M12 : m12 = cz * sx + cx * (m20 * sz)).
    { apply K. rewrite Ec at 1. transitivity (- m00 * m21 - m20 * m22 * m10); [|rewrite <- Cx, <- Cz; replace m21 with (- (c * sx)) by lra; replace m10 with (- (c * sz)) by lra; ring].
      replace (1 - m20 * m20) with (m00 * m00 + m10 * m10) by lra. rewrite <- F21. ring [Q2]. }
    clear K. cells ltac:(first [lra | nra]).
  - assert (Em : m20 = -1) by lra. rewrite Em in C2, R0, F20 |- *. destruct (sqs0 m21 m22) as [Z1 Z2]; [lra|]. destruct (sqs0 m00 m10) as [Z3 Z4]; [lra|]. rewrite Z1 in R1. rewrite Z2 in R2. rewrite Z1, Z2, Z3, Z4.
    destruct (atan2_polar m11 m01 1 Rlt_0_1) as [Cx Sx]; [lra|].
    eu. lcbv. rewrite cos_neg, !sin_neg, sin_PI2, cos_0, sin_0, cos_neg, cos_PI2. revert Cx Sx. generalize (cos (Ratan2 m01 m11)) (sin (Ratan2 m01 m11)). intros cx sx Cx Sx.
    destruct (sqs0 (m02 - m11) (m12 + m01)) as [Y Z]; [lra|]. cells ltac:(lra).
  - assert (Em : m20 = 1) by lra. rewrite Em in C2, R0, F20 |- *. destruct (sqs0 m21 m22) as [Z1 Z2]; [lra|]. destruct (sqs0 m00 m10) as [Z3 Z4]; [lra|]. rewrite Z1 in R1. rewrite Z2 in R2. rewrite Z1, Z2, Z3, Z4.
    destruct (atan2_polar m11 m01 1 Rlt_0_1) as [Cx Sx]; [lra|].
    eu. lcbv. rewrite sin_PI2, cos_0, sin_0, cos_PI2. revert Cx Sx. generalize (cos (Ratan2 m01 m11)) (sin (Ratan2 m01 m11)). intros cx sx Cx Sx.
    destruct (sqs0 (m02 + m11) (m12 - m01)) as [Y Z]; [lra|]. cells ltac:(lra).
Qed.
Lemma C28_angles_ex : rotation [0; 1; 0; 0; 0; 1; 1; 0; 0] /\ rotation [2/3; 2/3; -1/3; -1/3; 2/3; 2/3; 2/3; -1/3; 2/3].
Proof. unfold rotation, orthonormal. lcbv. repeat split; cells ltac:(try lra); lra. Qed.
Lemma C28_roundtrip_ok : forall a, length a = 3%nat -> exists b, length b = 3%nat /\
  computes RS glm_euler_xyz [In (fl a); Out 16] VVoid [fl (euler4 (0, 1, 2)%nat a)] /\
  computes RS glm_euler_angles [In (fl (euler4 (0, 1, 2)%nat a)); Out 3] VVoid [fl b] /\
  computes RS glm_euler_xyz [In (fl b); Out 16] VVoid [fl (euler4 (0, 1, 2)%nat a)].
Proof.
  intros a L. destruct (C28_angles_ok (euler (0, 1, 2)%nat a) [0; 0; 0]) as (b & Lb & Cb & Eb); [reflexivity|reflexivity|apply C27_rotation_ok; simpl; auto|].
  exists b. split; [auto|]. destruct (C27_matrices_ok a L) as [A _]. destruct (C27_matrices_ok b Lb) as [B _].
  split; [exact A|]. split; [exact Cb|]. unfold euler4 in *. rewrite Eb in B. exact B.
Qed.
