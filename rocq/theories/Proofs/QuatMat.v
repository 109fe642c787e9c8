(** * Quaternions and rotation matrices (C23) *)

From Coq Require Import String List ZArith Bool Reals Lra Lia.
From Verif.Proofs Require Import AffTac Affine Quat.
(* props: From Verif.Spec Require Import Linear Geometry Affine Client. *)
From Verif.Spec Require Import Quaternion.
Import ListNotations.
Local Open Scope R_scope.

(** unit quaternions: the matrix of v -> q v q*, its transpose *)
Ltac unit_go x y z w := unfold qmat; qu; au; lcbv; intros N; assert (N' : w * w = 1 - x * x - y * y - z * z) by lra;
  symr; rprep; rewrite ?N, ?sqrt_1; try domain; rifs; try (exfalso; lra); unfold Rdiv; rewrite ?Rinv_1; cells ltac:(try ring [N']).
Lemma C23_mat4_ok : forall q, length q = 4%nat -> norm2 q = 1 ->
  computes RS glm_quat_mat4 [In (fl q); Out 16] VVoid [fl (aff (qmat q) [0; 0; 0])].
Proof. intros q L; un4 q x y z w. unit_go x y z w. Qed.
Lemma C23_mat4t_ok : forall q, length q = 4%nat -> norm2 q = 1 ->
  computes RS glm_quat_mat4t [In (fl q); Out 16] VVoid [fl (aff (transp 3 3 (qmat q)) [0; 0; 0])].
Proof. intros q L; un4 q x y z w. unit_go x y z w. Qed.
Lemma C23_mat3_ok : forall q, length q = 4%nat -> norm2 q = 1 ->
  computes RS glm_quat_mat3 [In (fl q); Out 9] VVoid [fl (qmat q)].
Proof. intros q L; un4 q x y z w. unit_go x y z w. Qed.
Lemma C23_mat3t_ok : forall q, length q = 4%nat -> norm2 q = 1 ->
  computes RS glm_quat_mat3t [In (fl q); Out 9] VVoid [fl (transp 3 3 (qmat q))].
Proof. intros q L; un4 q x y z w. unit_go x y z w. Qed.
Lemma C23_rotation_ok : forall q v, length q = 4%nat -> length v = 3%nat -> norm2 q = 1 ->
  rotation (qmat q) /\ mvec 3 3 (qmat q) v = qrot q v.
Proof.
  intros q v L Lv. un4 q x y z w. un3 v a b c. unfold rotation, orthonormal, qmat. qu. lcbv. intros N. assert (N' : w * w = 1 - x * x - y * y - z * z) by lra.
  repeat split; cells ltac:(try ring [N']).
Qed.
Lemma C23_unit_ex : norm2 [1/2; 1/2; 1/2; 1/2] = 1 /\ norm2 [2/3; 0; 1/3; -2/3] = 1.
Proof. lcbv. lra. Qed.
(** a non-unit quaternion: the matrix written is not orthogonal *)
Lemma C23_nonunit_refuted_ok : exists q m, length q = 4%nat /\ norm2 q <> 0 /\ length m = 9%nat /\
  computes RS glm_quat_mat3 [In (fl q); Out 9] VVoid [fl m] /\ ~ orthonormal m.
Proof.
  exists [2; 0; 0; 0], [1; 0; 0; 0; -3; 0; 0; 0; -3]. split; [reflexivity|]. split; [lcbv; lra|]. split; [reflexivity|]. split.
  - symr; rprep; replace (2 * 2 + 0 * 0 + 0 * 0 + 0 * 0) with (2 * 2) by ring; rewrite ?sqrt_square by lra; try domain.
    rifs; try (exfalso; lra). cells ltac:(try field).
  - unfold orthonormal. lcbv. intros E. injection E. intros. lra.
Qed.

(** ** and back *)
Lemma sqrt_4sq : forall n x, n = 4 * (x * x) -> exists sg, (sg = 1 \/ sg = -1) /\ sqrt n = 2 * (sg * x) /\ 0 <= sg * x.
Proof.
  intros n x ->. destruct (Rle_dec 0 x).
  - exists 1. split; [auto|]. split; [|lra]. replace (4 * (x * x)) with ((2 * (1 * x)) * (2 * (1 * x))) by ring. apply sqrt_square. lra.
  - exists (-1). split; [auto|]. split; [|lra]. replace (4 * (x * x)) with ((2 * (-1 * x)) * (2 * (-1 * x))) by ring. apply sqrt_square. lra.
Qed.
Lemma quarter : forall sg u v k, sg * sg = 1 -> 0 < sg * u -> k = 4 * (u * v) -> 1 / 2 / (2 * (sg * u)) * k = sg * v.
Proof.
  intros sg u v k S P ->. assert (sg <> 0) by (intro; subst; lra). assert (u <> 0) by (intro; subst; lra).
  transitivity (v / sg); [field; auto|]. apply Rmult_eq_reg_l with sg; auto. transitivity v; [field; auto|]. rewrite <- Rmult_assoc, S. ring.
Qed.
Lemma back : forall x y z w, norm2 [x; y; z; w] = 1 -> exists a b c d e f g h i sg,
  qmat [x; y; z; w] = [a; b; c; d; e; f; g; h; i] /\ (sg = 1 \/ sg = -1) /\
  computes RS glm_mat3_quat [In (fl [a; b; c; d; e; f; g; h; i]); Out 4] VVoid [fl (vscale sg [x; y; z; w])] /\
  computes RS glm_mat4_quat [In (fl (aff [a; b; c; d; e; f; g; h; i] [0; 0; 0])); Out 4] VVoid [fl (vscale sg [x; y; z; w])].
Proof.
  intros x y z w N.
  assert (exists a b c d e f g h i, qmat [x; y; z; w] = [a; b; c; d; e; f; g; h; i] /\
    a = x * x + w * w - y * y - z * z /\ e = y * y + w * w - x * x - z * z /\ i = z * z + w * w - x * x - y * y /\
    b + d = 4 * (x * y) /\ b - d = 4 * (z * w) /\ c + g = 4 * (x * z) /\ g - c = 4 * (y * w) /\ f + h = 4 * (y * z) /\ f - h = 4 * (x * w))
    as (a & b & c & d & e & f & g & h & i & E & A1 & A2 & A3 & B1 & B2 & B3 & B4 & B5 & B6).
  { do 9 eexists. split. unfold qmat; qu; lcbv; reflexivity. repeat split; ring. }
  revert N. lcbv. intros N.
  destruct (sqrt_4sq (1 + (a + e + i)) w) as (sw & Sw & Qw & Pw); [lra|].
  destruct (sqrt_4sq (1 - e - i + a) x) as (sx & Sx & Qx & Px); [lra|].
  destruct (sqrt_4sq (1 - a - i + e) y) as (sy & Sy & Qy & Py); [lra|].
  destruct (sqrt_4sq (1 - a - e + i) z) as (sz & Sz & Qz & Pz); [lra|].
  assert (SQ : forall s u, (s = 1 \/ s = -1) -> 0 <= s * u -> 1 / 4 <= u * u -> s * s = 1 /\ 0 < s * u).
  { intros s u [->| ->] H K; split; try lra; nra. }
  exists a, b, c, d, e, f, g, h, i.
  exists (if Rle_dec 0 (a + e + i) then sw else if Rle_dec e a then if Rle_dec i a then sx else if Rle_dec i e then sy else sz else if Rle_dec i e then sy else sz).
  split; [auto|]. split; [repeat destruct Rle_dec; auto|].
  split; unfold aff; lcbv; symr; rprep; rewrite ?Qw, ?Qx, ?Qy, ?Qz; clear Qw Qx Qy Qz; rifs; try reflexivity; try (exfalso; lra);
    repeat match goal with
    | |- negb _ = true => apply negb_true_iff
    | |- Reqb _ _ = false => apply Reqb_false
    | |- Rleb _ _ = true => apply Rleb_true; nra
    end;
    first [ destruct (SQ _ _ Sw Pw) as [K1 K2]; [lra|] | destruct (SQ _ _ Sx Px) as [K1 K2]; [lra|]
          | destruct (SQ _ _ Sy Py) as [K1 K2]; [lra|] | destruct (SQ _ _ Sz Pz) as [K1 K2]; [lra|] ];
    try lra; cells ltac:(first [apply quarter; auto; lra | field]).
Qed.
(** the quaternion is recovered up to sign in every branch of the conversion, and the conversion
    never divides by zero nor takes the root of a negative number *)
Lemma C23_back_ok : forall q, length q = 4%nat -> norm2 q = 1 -> exists sg, (sg = 1 \/ sg = -1) /\
  computes RS glm_mat3_quat [In (fl (qmat q)); Out 4] VVoid [fl (vscale sg q)] /\
  computes RS glm_mat4_quat [In (fl (aff (qmat q) [0; 0; 0])); Out 4] VVoid [fl (vscale sg q)].
Proof.
  intros q L N. un4 q x y z w. destruct (back x y z w N) as (a & b & c & d & e & f & g & h & i & sg & E & H). rewrite E. exists sg. exact H.
Qed.

Lemma qmat_len : forall q, length q = 4%nat -> length (qmat q) = 9%nat.
Proof. intros q L. un4 q x y z w. reflexivity. Qed.
(** ** C24: transforming by a quaternion *)
Ltac unit_q x y z w := unfold qmat; qu; au; lcbv; intros N; assert (N' : w * w = 1 - x * x - y * y - z * z) by lra;
  symr; rprep; rewrite ?N, ?sqrt_1; try domain; rifs; try (exfalso; lra); unfold Rdiv; rewrite ?Rinv_1; cells ltac:(try ring [N']).
Lemma C24_rotate_ok : forall m q, length m = 16%nat -> length q = 4%nat -> norm2 q = 1 ->
  computes RS glm_quat_rotate [InA (fl m); In (fl q); Out 16] VVoid [fl (mmul 4 m (aff (qmat q) [0; 0; 0]))].
Proof. intros m q Lm L; un4 q x y z w. unlists. unit_q x y z w. Qed.
Lemma C24_rotate_at_ok : forall m q p, length m = 16%nat -> length q = 4%nat -> length p = 3%nat -> norm2 q = 1 ->
  computes RS glm_quat_rotate_at [InOut (fl m); In (fl q); In (fl p)] VVoid
    [fl (mmul 4 m (aff (qmat q) (vsub p (qrot q p))))].
Proof. intros m q p Lm L Lp; un4 q x y z w. unlists. unit_q x y z w. Qed.
Lemma C24_rotate_atm_ok : forall q p, length q = 4%nat -> length p = 3%nat -> norm2 q = 1 ->
  computes RS glm_quat_rotate_atm [Out 16; In (fl q); In (fl p)] VVoid [fl (aff (qmat q) (vsub p (qrot q p)))] /\
  moves (aff (qmat q) (vsub p (qrot q p))) p p.
Proof.
  intros q p L Lp N. split.
  - revert N. un4 q x y z w. unlists. unit_q x y z w.
  - destruct (C24_rotation_ok q p L Lp N) as (E & _). rewrite E. pose proof (qmat_len q L) as Lm.
    clear - Lm Lp. generalize dependent (qmat q). alg.
Qed.
(** glm_quat_look: world to view transform of a viewer at [eye] with orientation [q] *)
Lemma C24_look_ok : forall eye q, length eye = 3%nat -> length q = 4%nat -> norm2 q = 1 ->
  let r := transp 3 3 (qmat q) in
  computes RS glm_quat_look [In (fl eye); In (fl q); Out 16] VVoid [fl (aff r (neg (mvec 3 3 r eye)))] /\
  moves (aff r (neg (mvec 3 3 r eye))) eye [0; 0; 0].
Proof.
  intros eye q Le L N r. split.
  - unfold r. revert N. un4 q x y z w. unlists. unit_q x y z w.
  - assert (Lm : length r = 9%nat) by reflexivity. clear - Lm Le. generalize dependent r. alg.
Qed.
