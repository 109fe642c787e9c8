(** * Rotations as matrices (C14, C17, C18, C48) *)

From Coq Require Import String List ZArith Bool Reals Lra Lia.
From Verif.Proofs Require Import AffTac Affine.
(* props: From Verif.Spec Require Import Linear Geometry Affine. *)
Import ListNotations.
Local Open Scope R_scope.

(** ** C14 *)
(** the matrix of a rotation about a unit axis *)
Lemma C14_rotation_ok : forall k a b, length k = 3%nat -> norm2 k = 1 ->
  rotation (rotmat k a) /\ mvec 3 3 (rotmat k a) k = k /\
  mmul 3 (rotmat k b) (rotmat k a) = rotmat k (a + b) /\ rotmat k 0 = mid 3.
Proof.
  intros k a b L. un3 k k0 k1 k2.
  unfold rotation, orthonormal, rotmat, rotated. rewrite cos_plus, sin_plus, cos_0, sin_0.
  pose proof (sin2_cos2 a) as SC. pose proof (sin2_cos2 b) as SD. unfold Rsqr in *.
  set (c := cos a) in *. set (s := sin a) in *. set (d := cos b) in *. set (e := sin b) in *. clearbody c s d e.
  assert (s * s = 1 - c * c) as S2 by lra. assert (e * e = 1 - d * d) as E2 by lra.
  lcbv. intros N. assert (k0 * k0 = 1 - k1 * k1 - k2 * k2) as N' by lra.
  repeat split; cells ltac:(try ring [N' S2 E2]).
Qed.
Lemma C14_unit_ex : norm2 [2/3; 1/3; 2/3] = 1.
Proof. lcbv. lra. Qed.
Lemma normalized_unit : forall k, eps <= norm k -> norm2 (normalized k) = 1.
Proof.
  intros k H. unfold normalized. destruct Rlt_dec; [lra|]. pose proof eps_pos.
  assert (E : forall x y, norm x = y -> 0 < y -> norm2 (map (fun a => a / y) x) = norm2 x / (y * y)).
  { clear. intros x y _ P. unfold norm2, rdot.
    assert (Q : forall l, total (map (fun p => fst p * snd p) (combine (map (fun a => a / y) l) (map (fun a => a / y) l))) = total (map (fun p => fst p * snd p) (combine l l)) / (y * y)).
    { intros l. unfold total. destruct l as [|a l]; simpl. field; lra.
      assert (G : forall l u, fold_left Rplus (map (fun p : R * R => fst p * snd p) (combine (map (fun a0 : R => a0 / y) l) (map (fun a0 : R => a0 / y) l))) (u / (y * y)) =
        fold_left Rplus (map (fun p : R * R => fst p * snd p) (combine l l)) u / (y * y)).
      { clear l a. induction l as [|b l IH]; intros u; simpl; auto. rewrite <- IH. f_equal. field; lra. }
      rewrite <- G. f_equal. field; lra. }
    apply Q. }
  rewrite (E k (norm k)) by (auto; lra). rewrite <- norm_sq. field. lra.
Qed.
(** so the 3x3 part of glm_rotate_make (theorem C13_rotate_make) is a rotation, and
    turning by [a] and then by [b] is turning by their sum *)
Lemma C14_rotate_make_ok : forall axis a b, length axis = 3%nat -> eps <= norm axis ->
  let k := normalized axis in
  computes RS glm_rotate_make [Out 16; Val (VF a); In (fl axis)] VVoid [fl (rot4 k a)] /\
  rotation (lin4 (rot4 k a)) /\ moves (rot4 k a) axis axis /\
  mmul 4 (rot4 k b) (rot4 k a) = rot4 k (a + b) /\
  computes RS glm_rotate [InOut (fl (rot4 k b)); Val (VF a); In (fl axis)] VVoid [fl (rot4 k (a + b))].
Proof.
  intros axis a b L H k. pose proof (normalized_unit axis H) as U. fold k in U.
  assert (Lk : length k = 3%nat) by (unfold k, normalized; destruct Rlt_dec; rewrite map_length; auto).
  destruct (C14_rotation_ok k a b Lk U) as (R1 & R2 & R3 & _).
  assert (M : mmul 4 (rot4 k b) (rot4 k a) = rot4 k (a + b)).
  { unfold rot4. rewrite aff_mul by (auto; apply rotmat_len; auto). rewrite R3. f_equal. generalize (rotmat k b). intros. lcbv. cells ltac:(ring). }
  split; [apply C13_rotate_make_ok; auto|]. split; [exact R1|]. split.
  - unfold moves, rot4. assert (E : vscale (norm axis) k = axis).
    { unfold k, normalized. destruct Rlt_dec; [lra|]. pose proof eps_pos. unfold vscale. rewrite map_map.
      transitivity (map (fun x => x) axis); [apply map_ext; intros; field; lra | apply map_id]. }
    assert (F : mvec 3 3 (rotmat k a) axis = axis).
    { rewrite <- E at 1. transitivity (vscale (norm axis) (mvec 3 3 (rotmat k a) k)); [|rewrite R2; auto].
      generalize (rotmat k a) (rotmat_len k a Lk). intros r Lr. revert Lk. generalize k, (norm axis). clear - Lr. alg. }
    rewrite <- F at 2. generalize (rotmat k a) (rotmat_len k a Lk). clear - L. alg.
  - split; auto. rewrite <- M. destruct C13_rotate_ok as (Q & _). apply Q; auto.
Qed.
Lemma C14_axis_ex : eps <= norm [3; 0; 4].
Proof. unfold norm, eps. replace (norm2 [3; 0; 4]) with (5 * 5) by (lcbv; ring). rewrite sqrt_square; lra. Qed.

(** ** C48: glm_vec3_rotate is the matrix of glm_rotate_make applied to the vector *)
Lemma C48_matrix_ok : forall v axis angle, length v = 3%nat -> length axis = 3%nat ->
  computes RS glm_vec3_rotate [InOut (fl v); Val (VF angle); In (fl axis)] VVoid [fl (mvec 3 3 (lin4 (rot4 (normalized axis) angle)) v)] /\
  computes RS glm_rotate_make [Out 16; Val (VF angle); In (fl axis)] VVoid [fl (rot4 (normalized axis) angle)].
Proof.
  intros v axis angle L1 L2. split; [|apply C13_rotate_make_ok; auto]. revert L1 L2. rot_go.
Qed.

(** ** C17 *)
(** for an affine matrix with linear part [r] the functions return the rotated linear part
    and no translation at all *)
Lemma C17_rotated_any_ok :
  (forall r t angle axis, length r = 9%nat -> length t = 3%nat -> length axis = 3%nat ->
     computes RS glm_rotated [InOut (fl (aff r t)); Val (VF angle); In (fl axis)] VVoid
       [fl (aff (mmul 3 (rotmat (normalized axis) angle) r) [0; 0; 0])]) /\
  (forall r t angle, length r = 9%nat -> length t = 3%nat ->
     computes RS glm_rotated_x [InA (fl (aff r t)); Val (VF angle); Out 16] VVoid [fl (aff (mmul 3 (rotmat [1; 0; 0] angle) r) [0; 0; 0])]) /\
  (forall r t angle, length r = 9%nat -> length t = 3%nat ->
     computes RS glm_rotated_y [InA (fl (aff r t)); Val (VF angle); Out 16] VVoid [fl (aff (mmul 3 (rotmat [0; 1; 0] angle) r) [0; 0; 0])]) /\
  (forall r t angle, length r = 9%nat -> length t = 3%nat ->
     computes RS glm_rotated_z [InA (fl (aff r t)); Val (VF angle); Out 16] VVoid [fl (aff (mmul 3 (rotmat [0; 0; 1] angle) r) [0; 0; 0])]).
Proof. repeat split; [rot_go | ago | ago | ago]. Qed.
(** the documented result, rotation times matrix, agrees with that exactly when the matrix
    has no translation *)
Lemma C17_exactly_ok : forall r t k angle, length r = 9%nat -> length t = 3%nat -> length k = 3%nat -> norm2 k = 1 ->
  (aff (mmul 3 (rotmat k angle) r) [0; 0; 0] = mmul 4 (rot4 k angle) (aff r t) <-> t = [0; 0; 0]).
Proof.
  intros r t k angle Lr Lt Lk U. unfold rot4. rewrite aff_mul by (auto; apply rotmat_len; auto).
  destruct (C14_rotation_ok k angle 0 Lk U) as ((O & _) & _).
  split; intros H.
  - assert (Z : mvec 3 3 (rotmat k angle) t = [0; 0; 0]).
    { revert H. generalize (mmul 3 (rotmat k angle) r). generalize (rotmat k angle) (rotmat_len k angle Lk). intros m Lm q. unfold aff. clear - Lt Lm. unlists. cbv [at_ nth]. lcbv. intros E. injection E. intros. cells ltac:(lra). }
    rewrite <- (mvec_id t Lt), <- O, <- mvec_mul, Z by (auto; apply rotmat_len; auto). clear. generalize (transp 3 3 (rotmat k angle)). intros. lcbv. cells ltac:(ring).
  - rewrite H. f_equal. clear. generalize (rotmat k angle). intros. lcbv. cells ltac:(ring).
Qed.
Lemma C17_refuted_ok : exists r t angle, length r = 9%nat /\ length t = 3%nat /\
  ~ computes RS glm_rotated_z [InA (fl (aff r t)); Val (VF angle); Out 16] VVoid [fl (mmul 4 (rot4 [0; 0; 1] angle) (aff r t))].
Proof.
  exists (mid 3), [1; 0; 0], 0. repeat split. intros H.
  destruct C17_rotated_any_ok as (_ & _ & _ & E). specialize (E (mid 3) [1; 0; 0] 0 eq_refl eq_refl).
  revert H E; unfold rotmat, rotated. au. unfold rotmat, rotated. rewrite cos_0, sin_0. lcbv. intros H E. differs H E.
Qed.

(** ** C18 *)
Lemma rot_about_eq : forall p k a, length p = 3%nat -> length k = 3%nat ->
  rot_about p k a = aff (rotmat k a) (vsub p (mvec 3 3 (rotmat k a) p)).
Proof. unfold rot_about, rot4. intros p k a Lp Lk. generalize (rotmat k a) (rotmat_len k a Lk). alg. Qed.
Lemma normalized_len : forall k n, length k = n -> length (normalized k) = n.
Proof. intros k n H. unfold normalized; destruct Rlt_dec; rewrite map_length; auto. Qed.
Lemma C18_rotate_at_ok : forall m p angle axis, length m = 16%nat -> length p = 3%nat -> length axis = 3%nat ->
  computes RS glm_rotate_at [InOut (fl m); In (fl p); Val (VF angle); In (fl axis)] VVoid
    [fl (mmul 4 m (rot_about p (normalized axis) angle))].
Proof. intros. rewrite rot_about_eq by auto using normalized_len. rot_go. Qed.
Lemma C18_rotate_atm_ok : forall p angle axis, length p = 3%nat -> length axis = 3%nat ->
  computes RS glm_rotate_atm [Out 16; In (fl p); Val (VF angle); In (fl axis)] VVoid
    [fl (rot_about p (normalized axis) angle)].
Proof. intros. rewrite rot_about_eq by auto using normalized_len. rot_go. Qed.
(** the pivot is a fixed point *)
Lemma C18_pivot_ok : forall p k angle, length p = 3%nat -> length k = 3%nat -> moves (rot_about p k angle) p p.
Proof. unfold rot_about, rot4. intros p k angle Lp Lk. generalize (rotmat k angle) (rotmat_len k angle Lk). alg. Qed.
Lemma C18_spinned_ok : forall r t angle axis, length r = 9%nat -> length t = 3%nat -> length axis = 3%nat ->
  let k := normalized axis in
  computes RS glm_spinned [InOut (fl (aff r t)); Val (VF angle); In (fl axis)] VVoid
    [fl (mmul 4 (rot_about t k angle) (aff r t))] /\
  mmul 4 (rot_about t k angle) (aff r t) = aff (mmul 3 (rotmat k angle) r) t.
Proof.
  intros r t angle axis Lr Lt La k. split; [unfold k; rewrite rot_about_eq by auto using normalized_len; rot_go|].
  unfold rot_about, rot4. assert (Lk : length k = 3%nat) by (unfold k, normalized; destruct Rlt_dec; rewrite map_length; auto). clearbody k. generalize (rotmat k angle) (rotmat_len k angle Lk). alg.
Qed.
(** glm_spin multiplies on the right by the rotation about the point (translation of m), which moves
    the position by r(t - Rt) *)
Lemma C18_spin_ok : forall r t angle axis, length r = 9%nat -> length t = 3%nat -> length axis = 3%nat ->
  let k := normalized axis in
  computes RS glm_spin [InOut (fl (aff r t)); Val (VF angle); In (fl axis)] VVoid
    [fl (mmul 4 (aff r t) (rot_about t k angle))] /\
  mmul 4 (aff r t) (rot_about t k angle) =
  aff (mmul 3 r (rotmat k angle)) (vadd t (mvec 3 3 r (vsub t (mvec 3 3 (rotmat k angle) t)))).
Proof.
  intros r t angle axis Lr Lt La k. split; [unfold k; rewrite rot_about_eq by auto using normalized_len; rot_go|].
  unfold rot_about, rot4. assert (Lk : length k = 3%nat) by (unfold k, normalized; destruct Rlt_dec; rewrite map_length; auto). clearbody k. generalize (rotmat k angle) (rotmat_len k angle Lk). alg.
Qed.
Lemma normalized_z : normalized [0; 0; 1] = [0; 0; 1].
Proof.
  unfold normalized, norm. replace (norm2 [0; 0; 1]) with (1 * 1) by (lcbv; ring). rewrite sqrt_square by lra.
  destruct Rlt_dec. unfold eps in *; lra. simpl. cells ltac:(field).
Qed.
(** half a turn about z of the translation by (1,0,0): the position becomes (3,0,0) *)
Lemma C18_spin_refuted_ok : exists r t angle axis r' t', length r = 9%nat /\ length t = 3%nat /\ length axis = 3%nat /\
  eps <= norm axis /\
  computes RS glm_spin [InOut (fl (aff r t)); Val (VF angle); In (fl axis)] VVoid [fl (aff r' t')] /\ t' <> t.
Proof.
  exists (mid 3), [1; 0; 0], PI, [0; 0; 1], (mmul 3 (mid 3) (rotmat [0; 0; 1] PI)), [3; 0; 0].
  destruct (C18_spin_ok (mid 3) [1; 0; 0] PI [0; 0; 1] eq_refl eq_refl eq_refl) as (E & F).
  rewrite F, normalized_z in E. repeat split; auto.
  - unfold norm. replace (norm2 [0; 0; 1]) with (1 * 1) by (lcbv; ring). rewrite sqrt_square by lra. unfold eps; lra.
  - match type of E with context [aff _ (vadd ?u ?v)] => replace [3; 0; 0] with (vadd u v) end. exact E.
    unfold rotmat, rotated. rewrite cos_PI, sin_PI. lcbv. cells ltac:(ring).
  - intros K. injection K. lra.
Qed.
(** glm_rotated_at: the translation of the matrix is lost, and only the opposite of the pivot is left *)
Lemma C18_rotated_at_ok : forall r t p angle axis, length r = 9%nat -> length t = 3%nat -> length p = 3%nat -> length axis = 3%nat ->
  computes RS glm_rotated_at [InOut (fl (aff r t)); In (fl p); Val (VF angle); In (fl axis)] VVoid
    [fl (aff (mmul 3 (rotmat (normalized axis) angle) r) (neg p))].
Proof. rot_go. Qed.
Lemma C18_rotated_at_refuted_ok : exists r t p angle axis, length r = 9%nat /\ length t = 3%nat /\ length p = 3%nat /\ length axis = 3%nat /\
  ~ computes RS glm_rotated_at [InOut (fl (aff r t)); In (fl p); Val (VF angle); In (fl axis)] VVoid
    [fl (mmul 4 (rot_about p (normalized axis) angle) (aff r t))].
Proof.
  exists (mid 3), [1; 0; 0], [0; 0; 0], 0, [0; 0; 1]. repeat split. intros H.
  pose proof (C18_rotated_at_ok (mid 3) [1; 0; 0] [0; 0; 0] 0 [0; 0; 1] eq_refl eq_refl eq_refl eq_refl) as E.
  rewrite normalized_z in *. rewrite rot_about_eq in H by auto. revert H E. au. unfold rotmat, rotated. rewrite cos_0, sin_0. lcbv. intros H E. differs H E.
Qed.
