(** * Quaternion algebra (C21, C22, C24) *)

From Coq Require Import String List ZArith Bool Reals Lra Lia.
From Verif.Proofs Require Import AffTac Affine.
(* props: From Verif.Spec Require Import Linear Geometry Affine Client. *)
From Verif.Spec Require Import Quaternion.
Import ListNotations.
Local Open Scope R_scope.

Ltac qu := unfold qmat, qrot, qmul, qconj, axis_angle, quat, qone, im, re.
Ltac qgo := qu; ago.
Ltac qalg := qu; alg.

(** ** C21 *)
(** the destination is neither factor; the factors may be the same object *)
Lemma C21_mul_ok : forall p q, length p = 4%nat -> length q = 4%nat ->
  computes RS glm_quat_mul [In (fl p); In (fl q); Out 4] VVoid [fl (qmul p q)].
Proof. qgo. Qed.
Lemma C21_laws_ok : forall p q r, length p = 4%nat -> length q = 4%nat -> length r = 4%nat ->
  qmul (qmul p q) r = qmul p (qmul q r) /\ norm2 (qmul p q) = norm2 p * norm2 q /\
  qmul qone p = p /\ qmul p qone = p /\ qconj (qmul p q) = qmul (qconj q) (qconj p) /\
  qmul p (vadd q r) = vadd (qmul p q) (qmul p r).
Proof. qalg. Qed.
(** scalar build, destination = first or second factor: what is written instead of the product *)
Lemma C21_mul_first_ok : forall x y z w a b c d,
  computes RS (call_xyx glm_quat_mul) [InOut (fl [x; y; z; w]); In (fl [a; b; c; d])] VVoid
    [fl (let x' := w * a + x * d + y * c - z * b in
         let y' := w * b - x' * c + y * d + z * a in
         let z' := w * c + x' * b - y' * a + z * d in
         [x'; y'; z'; w * d - x' * a - y' * b - z' * c])].
Proof. ago. Qed.
Lemma C21_mul_second_ok : forall x y z w a b c d,
  computes RS (call_xyy glm_quat_mul) [In (fl [x; y; z; w]); InOut (fl [a; b; c; d])] VVoid
    [fl (let a' := w * a + x * d + y * c - z * b in
         let b' := w * b - x * c + y * d + z * a' in
         let c' := w * c + x * b' - y * a' + z * d in
         [a'; b'; c'; w * d - x * a' - y * b' - z * c'])].
Proof. ago. Qed.
Lemma C21_mul_in_place_refuted_ok :
  (exists p q, length p = 4%nat /\ length q = 4%nat /\
     ~ computes RS (call_xyx glm_quat_mul) [InOut (fl p); In (fl q)] VVoid [fl (qmul p q)]) /\
  (exists p q, length p = 4%nat /\ length q = 4%nat /\
     ~ computes RS (call_xyy glm_quat_mul) [In (fl p); InOut (fl q)] VVoid [fl (qmul p q)]).
Proof.
  split; exists [1; 0; 0; 1], [0; 1; 0; 1]; repeat split; intros H.
  - pose proof (C21_mul_first_ok 1 0 0 1 0 1 0 1) as E. revert H E. qu. lcbv. intros H E. differs H E.
  - pose proof (C21_mul_second_ok 1 0 0 1 0 1 0 1) as E. revert H E. qu. lcbv. intros H E. differs H E.
Qed.
Lemma C21_basic_ok :
  computes RS glm_quat_identity [Out 4] VVoid [fl qone] /\
  (forall p q, length p = 4%nat -> length q = 4%nat -> computes RS glm_quat_add [InA (fl p); InA (fl q); Out 4] VVoid [fl (vadd p q)]) /\
  (forall p q, length p = 4%nat -> length q = 4%nat -> computes RS glm_quat_sub [InA (fl p); InA (fl q); Out 4] VVoid [fl (vsub p q)]) /\
  (forall p q, length p = 4%nat -> length q = 4%nat -> computes RS glm_quat_dot [In (fl p); In (fl q)] (VF (rdot p q)) []) /\
  (forall p, length p = 4%nat -> computes RS glm_quat_real [In (fl p)] (VF (re p)) []) /\
  (forall p, length p = 4%nat -> computes RS glm_quat_imag [In (fl p); Out 3] VVoid [fl (im p)]).
Proof. unfold qone, im, re. repeat split; ago. Qed.
Lemma C21_norm_ok : forall p, length p = 4%nat -> computes RS glm_quat_norm [In (fl p)] (VF (norm p)) [].
Proof. intros p L; un4 p a b c d. symr; rprep; try domain. Qed.

(** ** C22 *)
Lemma C22_conjugate_ok : forall q, length q = 4%nat -> computes RS glm_quat_conjugate [InA (fl q); Out 4] VVoid [fl (qconj q)].
Proof. qgo. Qed.
Lemma C22_inv_ok : forall q, length q = 4%nat -> norm2 q <> 0 -> exists r, length r = 4%nat /\
  computes RS glm_quat_inv [InA (fl q); Out 4] VVoid [fl r] /\ qmul q r = qone /\ qmul r q = qone.
Proof.
  intros q L. un4 q a b c d. qu. lcbv. intros N. refine (ex_intro _ [_;_;_;_] _). split; [reflexivity|]. split.
  - symr; rprep; try (reqs; auto; fail). all: cells reflexivity.
  - split; lcbv; cells ltac:(field; auto).
Qed.
Lemma C22_inv_zero_ok : forall q, length q = 4%nat -> norm2 q = 0 -> aborts RS glm_quat_inv [InA (fl q); Out 4] XFloatDomain.
Proof. intros q L. un4 q a b c d. lcbv. intros N. rabort. Qed.
Lemma C22_inv_ex : norm2 [1; 2; 3; 4] <> 0 /\ norm2 [0; 0; 0; 0] = 0.
Proof. lcbv. lra. Qed.

(** ** C24 *)
Lemma qn_dom : forall n, (if negb (Rleb n 0) then negb (Reqb (sqrt n) 0) else true) = true.
Proof.
  intros n. destruct (Rleb n 0) eqn:E; auto. apply Rleb_false in E. simpl. apply negb_true_iff, Reqb_false.
  intros H. apply sqrt_eq_0 in H; lra.
Qed.
Lemma qn4 : forall a b c d, exists x y z w, qnormalized [a; b; c; d] = [x; y; z; w] /\
  let n := a * a + b * b + c * c + d * d in
  (if Rleb n 0 then 0 else a * (1 / sqrt n)) = x /\ (if Rleb n 0 then 0 else b * (1 / sqrt n)) = y /\
  (if Rleb n 0 then 0 else c * (1 / sqrt n)) = z /\ (if Rleb n 0 then 1 else d * (1 / sqrt n)) = w.
Proof.
  intros. do 4 eexists. split; [|repeat split; reflexivity]. cbv zeta. unfold qnormalized, qone.
  assert (0 <= a * a + b * b + c * c + d * d) by sq0. lcbv. rifs; try (exfalso; lra); unfold Rdiv; cells ltac:(try ring).
Qed.
Ltac qaxis := match goal with |- context [qnormalized [?a; ?b; ?c; ?d]] =>
    let x := fresh "x" in let y := fresh "y" in let z := fresh "z" in let w := fresh "w" in
    let E := fresh "E" in let X := fresh "X" in let Y := fresh "Y" in let Z := fresh "Z" in let W := fresh "W" in
    destruct (qn4 a b c d) as (x & y & z & w & E & X & Y & Z & W); rewrite E; clear E; revert X Y Z W; cbv zeta; intros X Y Z W;
    symr; rprep; try (reqs; sq0); rewrite ?X, ?Y, ?Z, ?W; clear X Y Z W; try apply qn_dom; try domain
  end.
Ltac qrot_go := qu; au; intros; change (T RS) with R in *; unlists; qaxis; gen_inv; cells ltac:(try ring).
(** glm_quat_normalize(_to) *)
Lemma C24_normalize_ok :
  (forall q, length q = 4%nat -> computes RS glm_quat_normalize_to [InA (fl q); Out 4] VVoid [fl (qnormalized q)]) /\
  (forall q, length q = 4%nat -> computes RS glm_quat_normalize [InOut (fl q)] VVoid [fl (qnormalized q)]).
Proof. split; qrot_go. Qed.
Lemma qnormalized_unit : forall q, length q = 4%nat -> norm2 (qnormalized q) = 1.
Proof.
  intros q L. unfold qnormalized. destruct Req_EM_T as [E|E]. unfold qone. lcbv. ring.
  assert (P : 0 < norm q) by (apply sqrt_lt_R0; pose proof (norm2_nonneg q); lra).
  transitivity (norm2 q * / (norm q * norm q)).
  - clear E. generalize dependent (norm q). intros n P. un4 q a b c d. lcbv. field. lra.
  - rewrite norm_sq. field. auto.
Qed.
Lemma qnormalized_len : forall q, length q = 4%nat -> length (qnormalized q) = 4%nat.
Proof. intros q L. unfold qnormalized. destruct Req_EM_T; auto. unfold vscale. rewrite map_length. auto. Qed.
(** unchanged for unit quaternions, and of unit length always *)
Lemma C24_normalized_ok : forall q, length q = 4%nat ->
  norm2 (qnormalized q) = 1 /\ (norm2 q = 1 -> qnormalized q = q).
Proof.
  intros q L. split; [apply qnormalized_unit; auto|]. intros U. unfold qnormalized, norm. rewrite U, sqrt_1. destruct Req_EM_T; [lra|].
  un4 q a b c d. lcbv. cells ltac:(field).
Qed.
(** glm_quat_rotatev: p v p* for the normalised quaternion p; the vector may be rotated in place *)
Lemma C24_rotatev_ok : forall q v, length q = 4%nat -> length v = 3%nat ->
  computes RS glm_quat_rotatev [In (fl q); InA (fl v); Out 3] VVoid [fl (qrot (qnormalized q) v)].
Proof. qrot_go. Qed.
(** for a unit quaternion p v p* is the image of v under the matrix [qmat p], and has the length of v *)
Lemma C24_rotation_ok : forall p v, length p = 4%nat -> length v = 3%nat -> norm2 p = 1 ->
  qrot p v = mvec 3 3 (qmat p) v /\ norm2 (qrot p v) = norm2 v /\ re (qmul (qmul p (quat v 0)) (qconj p)) = 0.
Proof.
  intros p v L1 L2. un4 p x y z w. un3 v a b c. qu. lcbv. intros N. assert (N' : w * w = 1 - x * x - y * y - z * z) by lra.
  repeat split; cells ltac:(try ring [N']).
Qed.
Lemma C24_unit_ex : norm2 [1/2; 1/2; 1/2; 1/2] = 1 /\ norm2 [2/3; 0; 1/3; -2/3] = 1.
Proof. lcbv. lra. Qed.
(** glm_quatv, glm_quat: the quaternion of the rotation by [angle] about the normalised axis *)
Lemma C24_quatv_ok :
  (forall axis angle, length axis = 3%nat ->
     computes RS glm_quatv [Out 4; Val (VF angle); In (fl axis)] VVoid [fl (axis_angle (normalized axis) angle)]) /\
  (forall x y z angle,
     computes RS glm_quat [Out 4; Val (VF angle); Val (VF x); Val (VF y); Val (VF z)] VVoid [fl (axis_angle (normalized [x; y; z]) angle)]).
Proof. split; qu; intros; change (T RS) with R in *; unlists; axis; unfold Rdiv; rewrite ?Rmult_1_l; gen_inv; cells ltac:(try ring). Qed.
(** that quaternion has unit length and rotates exactly as [rotated], i.e. as glm_rotate_make and
    glm_vec3_rotate (C13, C48) *)
Lemma C24_axis_angle_ok : forall k angle v, length k = 3%nat -> length v = 3%nat -> norm2 k = 1 ->
  norm2 (axis_angle k angle) = 1 /\ qrot (axis_angle k angle) v = rotated k angle v /\ qmat (axis_angle k angle) = rotmat k angle.
Proof.
  intros k angle v L1 L2. un3 k x y z. un3 v a b c. unfold rotmat, rotated, qmat, axis_angle.
  assert (C : cos angle = cos (angle / 2) * cos (angle / 2) - sin (angle / 2) * sin (angle / 2)).
  { replace angle with (2 * (angle / 2)) at 1 by field. rewrite cos_2a. ring. }
  assert (S : sin angle = 2 * sin (angle / 2) * cos (angle / 2)).
  { replace angle with (2 * (angle / 2)) at 1 by field. apply sin_2a. }
  rewrite C, S. pose proof (sin2_cos2 (angle / 2)) as SC. unfold Rsqr in SC. clear C S.
  generalize dependent (cos (angle / 2)). generalize dependent (sin (angle / 2)). intros s q SC.
  assert (Q : q * q = 1 - s * s) by lra.
  qu. lcbv. intros N. assert (N' : x * x = 1 - y * y - z * z) by lra.
  repeat split; cells ltac:(try ring [N' Q]).
Qed.
Lemma C24_axis_ex : norm2 [2/3; 1/3; 2/3] = 1.
Proof. lcbv. lra. Qed.
(** glm_quat_rotate and the pivot variants multiply by the rotation matrix of the quaternion *)
