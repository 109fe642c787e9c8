(** * Decomposition and Euler angle extraction give back what was composed (C19, C28) *)

From Coq Require Import String List ZArith Bool Reals Lra Lia Psatz.
From Verif Require Import MiniC RScalar Contract Cglm Sym SymCall.
From Verif.Spec Require Import Linear Geometry Affine Quaternion Euler.
From Verif.Proofs Require Import RTac AffTac Affine AffineMul Euler.
(* props: From Verif.Spec Require Import Linear Geometry Affine Quaternion Euler. *)
Import ListNotations.
Local Open Scope R_scope.

Lemma cos_pos_range : forall x, -PI < x <= PI -> 0 < cos x -> - (PI / 2) < x < PI / 2.
Proof.
  intros x Hx H. pose proof PI_RGT_0. split; apply Rnot_le_lt; intros L.
  - assert (cos x <= 0); [|lra]. rewrite <- cos_neg. apply cos_le_0; lra.
  - assert (cos x <= 0); [|lra]. apply cos_le_0; lra.
Qed.
Lemma tan_pi : forall x, cos x <> 0 -> tan (x + PI) = tan x.
Proof. intros x H. unfold tan. rewrite neg_sin, neg_cos. field. auto. Qed.
Lemma atan2_unique : forall c x, 0 < c -> -PI < x <= PI -> Ratan2 (c * sin x) (c * cos x) = x.
Proof.
  intros c x Hc Hx. pose proof PI_RGT_0 as HP. pose proof (sin2_cos2 x) as S2. unfold Rsqr in S2. unfold Ratan2, Rltb, Rleb.
  destruct (Rlt_dec 0 (c * cos x)) as [P|P].
  - assert (Pc : 0 < cos x) by nra. pose proof (cos_pos_range x Hx Pc) as B.
    replace (c * sin x / (c * cos x)) with (tan x) by (unfold tan; field; split; lra). apply atan_tan. lra.
  - assert (Pc : cos x <= 0) by nra. destruct (Rlt_dec (c * cos x) 0) as [Q|Q].
    + assert (Qc : cos x < 0) by nra. replace (c * sin x / (c * cos x)) with (tan x) by (unfold tan; field; split; lra).
      assert (B : PI / 2 < x \/ x < - (PI / 2)).
      { destruct (Rlt_dec (PI / 2) x); [left; auto|]. right. apply Rnot_le_lt. intros L. assert (0 <= cos x); [|lra]. apply cos_ge_0; lra. }
      destruct (Rle_dec 0 (c * sin x)) as [V|V].
      * assert (Vs : 0 <= sin x) by nra. destruct B as [B|B].
        -- replace (tan x) with (tan (x - PI)). { rewrite atan_tan; lra. } rewrite <- (tan_pi (x - PI)); [f_equal; ring|rewrite cos_minus, cos_PI, sin_PI; lra].
        -- exfalso. assert (sin x < 0); [|lra]. apply sin_lt_0_var; lra.
      * assert (Vs : sin x < 0) by nra. destruct B as [B|B].
        -- exfalso. assert (0 <= sin x); [|lra]. apply sin_ge_0; lra.
        -- replace (tan x) with (tan (x + PI)). { rewrite atan_tan; lra. } rewrite tan_pi; [reflexivity|lra].
    + assert (Cc : cos x = 0) by nra. destruct (Rlt_dec 0 (c * sin x)) as [V|V].
      * assert (Vs : 0 < sin x) by nra.
        assert (G0 : 0 < x). { apply Rnot_le_lt. intros L. assert (sin x <= 0); [|lra]. destruct (Req_dec x 0); [subst; rewrite sin_0; lra|]. apply Rlt_le, sin_lt_0_var; lra. }
        destruct (Rtotal_order x (PI / 2)) as [L|[L|L]]; [|lra|].
        -- exfalso. assert (0 < cos x); [|lra]. apply cos_gt_0; lra.
        -- exfalso. assert (cos x < 0); [|lra]. apply cos_lt_0; lra.
      * destruct (Rlt_dec (c * sin x) 0) as [W|W].
        -- assert (Vs : sin x < 0) by nra.
           assert (G0 : x < 0). { apply Rnot_le_lt. intros L. assert (0 <= sin x); [|lra]. apply sin_ge_0; lra. }
           destruct (Rtotal_order x (- (PI / 2))) as [L|[L|L]]; [|lra|].
           ++ exfalso. assert (cos x < 0); [|lra]. rewrite <- cos_neg. apply cos_lt_0; lra.
           ++ exfalso. assert (0 < cos x); [|lra]. apply cos_gt_0; lra.
        -- assert (sin x = 0) by nra. nra.
Qed.

(** angles in the usual ranges are extracted exactly, whatever the translation part *)
Lemma C28_exact_ok : forall a t, length a = 3%nat -> length t = 3%nat ->
  -PI < at_ a 0 <= PI -> - (PI / 2) < at_ a 1 < PI / 2 -> -PI < at_ a 2 <= PI ->
  computes RS glm_euler_angles [In (fl (aff (euler (0, 1, 2)%nat a) t)); Out 3] VVoid [fl a].
Proof.
  intros a t La Lt HX HY HZ. replace a with (xyz_angles (aff (euler (0, 1, 2)%nat a) t)) at 2; [apply angles_calc; reflexivity|].
  destruct a as [|x [|y [|z [|? ?]]]]; try discriminate. cbv [at_ nth] in HX, HY, HZ.
  assert (M : euler (0, 1, 2)%nat [x; y; z] =
    [cos y * cos z; cos z * sin x * sin y + cos x * sin z; - cos x * cos z * sin y + sin x * sin z;
     - cos y * sin z; cos x * cos z - sin x * sin y * sin z; cos z * sin x + cos x * sin y * sin z;
     sin y; - cos y * sin x; cos x * cos y]).
  { eu. lcbv. cells ltac:(try ring). }
  rewrite M. unfold xyz_angles, aff. cbv [ent at_ nth Nat.add Nat.mul].
  assert (Cy : 0 < cos y) by (apply cos_gt_0; lra). pose proof (sin2_cos2 y) as S2. unfold Rsqr in S2.
  destruct (Rlt_dec (sin y) 1) as [U|U]; [|exfalso; nra]. destruct (Rlt_dec (-1) (sin y)) as [V|V]; [|exfalso; nra].
  replace (- (- cos y * sin x)) with (cos y * sin x) by ring. replace (cos x * cos y) with (cos y * cos x) by ring.
  replace (- (- cos y * sin z)) with (cos y * sin z) by ring. rewrite !atan2_unique by auto. rewrite asin_sin by lra. reflexivity.
Qed.
Lemma C28_exact_ex : -PI < PI <= PI /\ - (PI / 2) < PI / 6 < PI / 2 /\ -PI < 0 <= PI.
Proof. pose proof PI_RGT_0. lra. Qed.

(** ** C19 *)
Definition dec_sign (r : list R) : R := if Rlt_dec (det 3 r) 0 then -1 else 1.
Definition dec_rot (r : list R) : list R :=
  vscale (dec_sign r / norm (firstn 3 r)) (firstn 3 r) ++ vscale (dec_sign r / norm (firstn 3 (skipn 3 r))) (firstn 3 (skipn 3 r)) ++ vscale (dec_sign r / norm (skipn 6 r)) (skipn 6 r).
Definition dec_scale (r : list R) : list R := [dec_sign r * norm (firstn 3 r); dec_sign r * norm (firstn 3 (skipn 3 r)); dec_sign r * norm (skipn 6 r)].
Lemma dec_calc : forall r t, length r = 9%nat -> length t = 3%nat ->
  norm2 (firstn 3 r) <> 0 -> norm2 (firstn 3 (skipn 3 r)) <> 0 -> norm2 (skipn 6 r) <> 0 ->
  computes RS glm_decompose [In (fl (aff r t)); Out 4; Out 16; Out 3] VVoid [fl (t ++ [1]); fl (aff (dec_rot r) [0; 0; 0]); fl (dec_scale r)] /\
  computes RS glm_decompose_rs [In (fl (aff r t)); Out 16; Out 3] VVoid [fl (aff (dec_rot r) [0; 0; 0]); fl (dec_scale r)].
Proof.
  intros r t Lr Lt X Y Z.
  assert (D1 : det 3 r = rdot (vcross (firstn 3 r) (firstn 3 (skipn 3 r))) (skipn 6 r)) by (clear - Lr; alg).
  assert (G : forall v, norm2 v <> 0 -> 0 < norm v).
  { intros v N. unfold norm. apply sqrt_lt_R0. pose proof (norm2_nonneg v). lra. }
  pose proof (G _ X) as Px. pose proof (G _ Y) as Py. pose proof (G _ Z) as Pz. clear G.
  unfold dec_rot, dec_scale, dec_sign. rewrite D1. clear D1. revert X Y Z Px Py Pz. au. unlists. lcbv. intros.
  split; symr; rprep; try domain; rifs; try (exfalso; lra); unfold Rdiv; cells ltac:(try ring).
Qed.
(** translation, rotation and scale factors of one sign come back as they were *)
Lemma C19_exact_ok : forall q t s, length q = 9%nat -> length t = 3%nat -> length s = 3%nat -> rotation q ->
  Forall (fun x => 0 < x) s \/ Forall (fun x => x < 0) s ->
  let m := mmul 4 (transl t) (mmul 4 (aff q [0; 0; 0]) (scaling s)) in
  computes RS glm_decompose [In (fl m); Out 4; Out 16; Out 3] VVoid [fl (t ++ [1]); fl (aff q [0; 0; 0]); fl s] /\
  computes RS glm_decompose_rs [In (fl m); Out 16; Out 3] VVoid [fl (aff q [0; 0; 0]); fl s].
Proof.
  intros q t s Lq Lt Ls [O D] Hs m.
  destruct q as [|a [|b [|c [|d [|e [|f [|g [|h [|i [|? ?]]]]]]]]]]; try discriminate.
  destruct t as [|t0 [|t1 [|t2 [|? ?]]]]; try discriminate. destruct s as [|x [|y [|z [|? ?]]]]; try discriminate.
  set (r := [a * x; b * x; c * x; d * y; e * y; f * y; g * z; h * z; i * z]).
  assert (Em : m = aff r [t0; t1; t2]). { unfold m, r. clear. au. lcbv. cells ltac:(try ring). }
  assert (N : a * a + b * b + c * c = 1 /\ d * d + e * e + f * f = 1 /\ g * g + h * h + i * i = 1).
  { revert O. unfold orthonormal. lcbv. intros O. injection O. intros. repeat split; lra. }
  destruct N as (N1 & N2 & N3).
  assert (Dr : det 3 r = x * y * z). { transitivity (x * y * z * det 3 [a; b; c; d; e; f; g; h; i]); [unfold r; lcbv; ring|rewrite D; ring]. }
  assert (Q1 : norm2 (firstn 3 r) = x * x). { unfold r. lcbv. nra. } assert (Q2 : norm2 (firstn 3 (skipn 3 r)) = y * y). { unfold r. lcbv. nra. }
  assert (Q3 : norm2 (skipn 6 r) = z * z). { unfold r. lcbv. nra. }
  assert (Sx : exists sg, sg * sg = 1 /\ dec_sign r = sg /\ norm (firstn 3 r) = sg * x /\ norm (firstn 3 (skipn 3 r)) = sg * y /\ norm (skipn 6 r) = sg * z /\ x <> 0 /\ y <> 0 /\ z <> 0).
  { unfold norm. rewrite Q1, Q2, Q3. unfold dec_sign. rewrite Dr. destruct Hs as [H|H]; inversion_clear H as [|? ? A1 B1]; inversion_clear B1 as [|? ? A2 B2]; inversion_clear B2 as [|? ? A3 B3].
    - exists 1. assert (0 < x * y * z) by (repeat apply Rmult_lt_0_compat; auto). destruct Rlt_dec; [exfalso; lra|]. rewrite !sqrt_square by lra. repeat split; lra.
    - exists (-1). assert (0 < (-x) * (-y) * (-z)) by (repeat apply Rmult_lt_0_compat; lra). destruct Rlt_dec; [|exfalso; lra].
      replace (x * x) with ((-x) * (-x)) by ring. replace (y * y) with ((-y) * (-y)) by ring. replace (z * z) with ((-z) * (-z)) by ring.
      rewrite !sqrt_square by lra. repeat split; lra. }
  destruct Sx as (sg & S1 & E0 & E1 & E2 & E3 & Nx & Ny & Nz).
  assert (Sn : sg <> 0) by nra.
  rewrite Em. replace [a; b; c; d; e; f; g; h; i] with (dec_rot r). replace [x; y; z] with (dec_scale r).
  - apply dec_calc; try reflexivity; rewrite ?Q1, ?Q2, ?Q3; nra.
  - unfold dec_scale. rewrite E0, E1, E2, E3. f_equal; [|f_equal; [|f_equal]]; rewrite <- Rmult_assoc, S1; ring.
  - unfold dec_rot. rewrite E0, E1, E2, E3. unfold r. cbv [firstn skipn app vscale map]. repeat (f_equal; [field; auto|]). f_equal; field; auto.
Qed.
Lemma C19_exact_ex : rotation [0; 1; 0; 0; 0; 1; 1; 0; 0] /\ Forall (fun x => 0 < x) [1; 2; 3] /\ Forall (fun x => x < 0) [-1; -2; -3].
Proof. split; [|split; repeat constructor; lra]. split; [unfold orthonormal; lcbv; cells ltac:(try ring)|lcbv; ring]. Qed.
