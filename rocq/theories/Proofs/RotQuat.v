(** * Every rotation matrix comes from a unit quaternion; axis, angle and direction of quaternions (C23, C67) *)

From Coq Require Import String List ZArith Bool Reals Lra Lia.
From Verif Require Import Cglm.
From Verif.Spec Require Import Linear Geometry Affine Quaternion.
From Verif.Proofs Require Import AffTac Affine Quat QuatMat Euler View.
(* props: From Verif.Spec Require Import Linear Geometry Affine Quaternion. *)
Import ListNotations.
Local Open Scope R_scope.

Lemma squares0 : forall p q r, p * p + q * q + r * r = 0 -> p = 0 /\ q = 0 /\ r = 0.
Proof.
  intros p q r H. pose proof (Rle_0_sqr p). pose proof (Rle_0_sqr q). pose proof (Rle_0_sqr r). unfold Rsqr in *.
  repeat split; apply Rsqr_0_uniq; unfold Rsqr; lra.
Qed.
(** three unit vectors, pairwise orthogonal, of determinant 1: the first is the cross product of the others *)
Lemma cofactor : forall a b c d e f g h i, a * a + b * b + c * c = 1 -> d * d + e * e + f * f = 1 -> g * g + h * h + i * i = 1 ->
  d * g + e * h + f * i = 0 -> a * (e * i - f * h) + b * (f * g - d * i) + c * (d * h - e * g) = 1 ->
  a = e * i - f * h /\ b = f * g - d * i /\ c = d * h - e * g.
Proof.
  intros a b c d e f g h i U V W D E.
  destruct (squares0 (a - (e * i - f * h)) (b - (f * g - d * i)) (c - (d * h - e * g))) as (X & Y & Z); [|lra].
  transitivity (a * a + b * b + c * c - 2 * (a * (e * i - f * h) + b * (f * g - d * i) + c * (d * h - e * g)) +
    ((d * d + e * e + f * f) * (g * g + h * h + i * i) - (d * g + e * h + f * i) * (d * g + e * h + f * i))); [ring|].
  rewrite U, V, W, D, E. ring.
Qed.
Lemma prod4 : forall p t m k n, p <> 0 -> p * p = t / 4 -> t * n = m * k -> m / (4 * p) * (k / (4 * p)) = n / 4.
Proof.
  intros p t m k n P Q H. assert (t <> 0) by (intro; subst; assert (p * p = 0) by lra; apply P; apply Rsqr_0_uniq; unfold Rsqr; auto).
  replace (m / (4 * p) * (k / (4 * p))) with (m * k / (16 * (p * p))) by (field; auto). rewrite Q, <- H. field. auto.
Qed.
Lemma prod1 : forall p m, p <> 0 -> p * (m / (4 * p)) = m / 4.
Proof. intros. field. auto. Qed.
Lemma root4 : forall t, 1 <= t -> exists p, p <> 0 /\ p * p = t / 4.
Proof.
  intros t H. exists (sqrt t / 2). assert (0 < sqrt t) by (apply sqrt_lt_R0; lra). split; [lra|].
  transitivity (sqrt t * sqrt t / 4); [field|]. rewrite sqrt_sqrt by lra. reflexivity.
Qed.
Ltac rqc P Q :=
  first [ exact Q | eapply prod4; [exact P|exact Q|lra] | rewrite (Rmult_comm (_ / _)); apply prod1; exact P | apply prod1; exact P ].
Lemma rotation_quat : forall m, length m = 9%nat -> rotation m -> exists q, length q = 4%nat /\ norm2 q = 1 /\ qmat q = m.
Proof.
  intros m L. do 9 (destruct m as [|?r m]; [discriminate|]). destruct m; [|discriminate]. clear L.
  rename r into a, r0 into b, r1 into c, r2 into d, r3 into e, r4 into f, r5 into g, r6 into h, r7 into i.
  intros [O D]. unfold orthonormal in O. revert O D. lcbv. intros O D. injection O as U1 U2 U3 U4 U5 U6 U7 U8 U9.
  destruct (cofactor a b c d e f g h i) as (A1 & A2 & A3); [lra..|].
  destruct (cofactor d e f g h i a b c) as (B1 & B2 & B3); [lra..|].
  destruct (cofactor g h i a b c d e f) as (C1 & C2 & C3); [lra..|].
  assert (R00 : a * a + d * d + g * g = 1) by (transitivity (a * (e * i - f * h) + d * (h * c - i * b) + g * (b * f - c * e)); [rewrite <- A1, <- B1, <- C1; reflexivity|lra]).
  assert (R11 : b * b + e * e + h * h = 1) by (transitivity (b * (f * g - d * i) + e * (i * a - g * c) + h * (c * d - a * f)); [rewrite <- A2, <- B2, <- C2; reflexivity|lra]).
  assert (R22 : c * c + f * f + i * i = 1) by (transitivity (c * (d * h - e * g) + f * (g * b - h * a) + i * (a * e - b * d)); [rewrite <- A3, <- B3, <- C3; reflexivity|lra]).
  assert (R01 : b * a + e * d + h * g = 0) by (transitivity (b * (e * i - f * h) + e * (h * c - i * b) + h * (b * f - c * e)); [rewrite <- A1, <- B1, <- C1; reflexivity|lra]).
  assert (R02 : c * a + f * d + i * g = 0) by (transitivity (c * (e * i - f * h) + f * (h * c - i * b) + i * (b * f - c * e)); [rewrite <- A1, <- B1, <- C1; reflexivity|lra]).
  assert (R12 : c * b + f * e + i * h = 0) by (transitivity (c * (f * g - d * i) + f * (i * a - g * c) + i * (c * d - a * f)); [rewrite <- A2, <- B2, <- C2; reflexivity|lra]).
  assert (G : forall x y z w, x * x = (1 + a - e - i) / 4 -> y * y = (1 - a + e - i) / 4 -> z * z = (1 - a - e + i) / 4 -> w * w = (1 + a + e + i) / 4 ->
    x * y = (b + d) / 4 -> x * z = (c + g) / 4 -> y * z = (f + h) / 4 -> w * x = (f - h) / 4 -> w * y = (g - c) / 4 -> w * z = (b - d) / 4 ->
    exists q, length q = 4%nat /\ norm2 q = 1 /\ qmat q = [a; b; c; d; e; f; g; h; i]).
  { intros x y z w X Y Z W XY XZ YZ WX WY WZ. exists [x; y; z; w]. split; [reflexivity|]. split; [lcbv; lra|].
    qu. lcbv. repeat (apply f_equal2; [lra|]). reflexivity. }
  assert (T : 1 <= 1 + a + e + i \/ 1 <= 1 + a - e - i \/ 1 <= 1 - a + e - i \/ 1 <= 1 - a - e + i) by lra.
  destruct T as [T|[T|[T|T]]]; destruct (root4 _ T) as (p & P & Q).
  - apply (G ((f - h) / (4 * p)) ((g - c) / (4 * p)) ((b - d) / (4 * p)) p); clear G T; rqc P Q.
  - apply (G p ((b + d) / (4 * p)) ((c + g) / (4 * p)) ((f - h) / (4 * p))); clear G T; rqc P Q.
  - apply (G ((b + d) / (4 * p)) p ((f + h) / (4 * p)) ((g - c) / (4 * p))); clear G T; rqc P Q.
  - apply (G ((c + g) / (4 * p)) ((f + h) / (4 * p)) p ((b - d) / (4 * p))); clear G T; rqc P Q.
Qed.
(** ** C23: every rotation matrix *)
Lemma C23_from_rotation_ok : forall m, length m = 9%nat -> rotation m -> exists q, length q = 4%nat /\ norm2 q = 1 /\ qmat q = m /\
  computes RS glm_mat3_quat [In (fl m); Out 4] VVoid [fl q] /\ computes RS glm_mat4_quat [In (fl (aff m [0; 0; 0])); Out 4] VVoid [fl q].
Proof.
  intros m L H. destruct (rotation_quat m L H) as (q & Lq & N & E). destruct (C23_back_ok q Lq N) as (sg & S & A & B). rewrite E in A, B.
  exists (vscale sg q). un4 q x y z w. split; [reflexivity|]. split; [|split; [|auto]].
  - revert N. lcbv. intros N. destruct S as [->| ->]; lra.
  - rewrite <- E. qu. lcbv. destruct S as [->| ->]; repeat (apply f_equal2; [ring|]); reflexivity.
Qed.
Lemma C23_from_rotation_ex : rotation [0; 1; 0; -1; 0; 0; 0; 0; 1] /\ rotation [-1; 0; 0; 0; 1; 0; 0; 0; -1].
Proof. unfold rotation, orthonormal. lcbv. split; (split; [cells ltac:(ring)|ring]). Qed.

(** ** C67: axis and angle *)
Lemma angle_calc : forall q, length q = 4%nat -> computes RS glm_quat_angle [In (fl q)] (VF (2 * Ratan2 (norm (im q)) (re q))) [].
Proof. intros q L. un4 q x y z w. unfold im, re. lcbv. symr; rprep; try (reqs; sq0); try domain; try reflexivity. Qed.
Lemma C67_imag_ok : forall q, length q = 4%nat ->
  computes RS glm_quat_imagn [InA (fl q); Out 3] VVoid [fl (normalized (im q))] /\
  computes RS glm_quat_axis [InA (fl q); Out 3] VVoid [fl (normalized (im q))] /\
  computes RS glm_quat_imaglen [In (fl q)] (VF (norm (im q))) [].
Proof.
  intros q L. un4 q x y z w. unfold im, re. cbv [firstn]. split; [|split].
  - destruct (norm3 x y z) as (a & b & c & E & X & Y & Z). rewrite E. clear E. revert X Y Z. cbv zeta. intros X Y Z.
    symr; rprep; rewrite ?X, ?Y, ?Z; try (reqs; sq0); try domain; reflexivity.
  - destruct (norm3 x y z) as (a & b & c & E & X & Y & Z). rewrite E. clear E. revert X Y Z. cbv zeta. intros X Y Z.
    symr; rprep; rewrite ?X, ?Y, ?Z; try (reqs; sq0); try domain; reflexivity.
  - lcbv. symr; rprep; try (reqs; sq0); try domain; try reflexivity.
Qed.
Lemma atan2_range : forall y x, 0 <= y -> 0 <= Ratan2 y x <= PI.
Proof.
  intros y x H. pose proof PI_RGT_0. pose proof (atan_bound (y / x)).
  unfold Ratan2. rifs; try lra.
  - assert (0 <= y / x) by (apply Rmult_le_pos; [lra|apply Rlt_le, Rinv_0_lt_compat; lra]).
    destruct (Req_dec (y / x) 0) as [K|K]; [rewrite K, atan_0; lra|]. assert (atan 0 < atan (y / x)) by (apply atan_increasing; lra). rewrite atan_0 in *. lra.
  - assert (y / x <= 0). { assert (0 <= y * / - x) by (apply Rmult_le_pos; [lra|apply Rlt_le, Rinv_0_lt_compat; lra]). replace (y / x) with (- (y * / - x)) by (field; lra). lra. }
    destruct (Req_dec (y / x) 0) as [K|K]; [rewrite K, atan_0; lra|]. assert (atan (y / x) < atan 0) by (apply atan_increasing; lra). rewrite atan_0 in *. lra.
Qed.
Lemma re_im : forall q, length q = 4%nat -> re q * re q + norm (im q) * norm (im q) = norm2 q /\ q = quat (im q) (re q).
Proof.
  intros q L. rewrite norm_sq. un4 q x y z w. unfold quat, im, re. lcbv. split; [ring|reflexivity].
Qed.
(** glm_quat_axis and glm_quat_angle recover the axis and the angle of a unit quaternion *)
Lemma C67_axis_angle_ok : forall q, length q = 4%nat -> norm2 q = 1 -> eps <= norm (im q) -> exists k a,
  computes RS glm_quat_axis [InA (fl q); Out 3] VVoid [fl k] /\ computes RS glm_quat_angle [In (fl q)] (VF a) [] /\
  length k = 3%nat /\ norm2 k = 1 /\ 0 <= a <= 2 * PI /\ axis_angle k a = q.
Proof.
  intros q L N H. exists (normalized (im q)), (2 * Ratan2 (norm (im q)) (re q)).
  destruct (C67_imag_ok q L) as (_ & A & _). split; [exact A|]. split; [apply angle_calc; auto|].
  destruct (re_im q L) as (P & Q). assert (Li : length (im q) = 3%nat) by (clear - L; un4 q x y z w; reflexivity).
  destruct (norm3_unit (im q) Li H) as (Lk & Nk & Ek). split; [auto|]. split; [auto|].
  pose proof eps_pos. pose proof (atan2_range (norm (im q)) (re q)). split; [lra|].
  destruct (atan2_polar (re q) (norm (im q)) 1 Rlt_0_1) as [C S]; [lra|].
  unfold axis_angle. replace (2 * Ratan2 (norm (im q)) (re q) / 2) with (Ratan2 (norm (im q)) (re q)) by field.
  rewrite Rmult_1_l in C, S. rewrite C, S, <- Ek. symmetry. exact Q.
Qed.
Lemma C67_axis_angle_ex : let q := [0; 3/5; 0; -(4/5)] in norm2 q = 1 /\ eps <= norm (im q).
Proof.
  cbv zeta. split; [lcbv; lra|]. unfold norm, im, eps. lcbv. replace (0 * 0 + 3 / 5 * (3 / 5) + 0 * 0) with ((3 / 5) * (3 / 5)) by ring.
  rewrite sqrt_square; lra.
Qed.
(** and conversely return the arguments of glm_quatv, for angles between 0 and a full turn *)
Lemma C67_of_axis_angle_ok : forall k a, length k = 3%nat -> norm2 k = 1 -> 0 <= a <= 2 * PI ->
  computes RS glm_quat_angle [In (fl (axis_angle k a))] (VF a) [] /\
  (eps <= sin (a / 2) -> computes RS glm_quat_axis [InA (fl (axis_angle k a)); Out 3] VVoid [fl k]).
Proof.
  intros k a L N H. assert (S0 : 0 <= sin (a / 2)) by (apply sin_ge_0; lra).
  assert (Lq : length (axis_angle k a) = 4%nat) by (un3 k x y z; reflexivity).
  assert (I : im (axis_angle k a) = vscale (sin (a / 2)) k /\ re (axis_angle k a) = cos (a / 2)) by (un3 k x y z; split; reflexivity).
  destruct I as [I J].
  assert (M : norm (vscale (sin (a / 2)) k) = sin (a / 2)).
  { unfold norm. replace (norm2 (vscale (sin (a / 2)) k)) with (sin (a / 2) * sin (a / 2) * norm2 k) by (clear - L; un3 k x y z; lcbv; ring).
    rewrite N, Rmult_1_r. apply sqrt_square. auto. }
  split.
  - pose proof (angle_calc (axis_angle k a) Lq) as C. rewrite I, J, M in C.
    destruct (atan2_polar (cos (a / 2)) (sin (a / 2)) 1 Rlt_0_1) as [X _]. { pose proof (sin2_cos2 (a / 2)) as T. unfold Rsqr in T. lra. }
    pose proof (atan2_range (sin (a / 2)) (cos (a / 2)) S0) as B. rewrite Rmult_1_l in X.
    replace (Ratan2 (sin (a / 2)) (cos (a / 2))) with (a / 2) in C. replace (2 * (a / 2)) with a in C by field. exact C.
    rewrite <- (acos_cos _ B), X. rewrite acos_cos; lra.
  - intros E. destruct (C67_imag_ok _ Lq) as (_ & A & _). rewrite I in A.
    replace (normalized (vscale (sin (a / 2)) k)) with k in A; [exact A|].
    unfold normalized. rewrite M. destruct (Rlt_dec (sin (a / 2)) eps); [lra|]. pose proof eps_pos. clear - L H0 E.
    un3 k x y z. lcbv. cells ltac:(field; lra).
Qed.
Lemma C67_of_axis_angle_ex : norm2 [0; 1; 0] = 1 /\ 0 <= PI <= 2 * PI /\ eps <= sin (PI / 2).
Proof. pose proof PI_RGT_0. rewrite sin_PI2. unfold eps. lcbv. lra. Qed.
(** ** glm_quat_for *)
(** the matrix glm_quat_for builds, and the conversion of glm_mat3_quat run on it *)
Lemma for_calc : forall dir up, length dir = 3%nat -> length up = 3%nat ->
  let z := neg (normalized dir) in let x := normalized (vcross up z) in
  rotation (x ++ vcross z x ++ z) -> exists q, length q = 4%nat /\ norm2 q = 1 /\ qmat q = x ++ vcross z x ++ z /\
  computes RS glm_quat_for [In (fl dir); In (fl up); Out 4] VVoid [fl q].
Proof.
  intros dir up Ld Lu. un3 dir e0 e1 e2. un3 up u0 u1 u2. cbv zeta.
  destruct (norm3 e0 e1 e2) as (n0 & n1 & n2 & E & X & Y & Z). rewrite E. clear E. cbv zeta in X, Y, Z.
  change (neg [n0; n1; n2]) with [- n0; - n1; - n2].
  set (g := - n0) in *. set (h := - n1) in *. set (i := - n2) in *.
  change (vcross [u0; u1; u2] [g; h; i]) with [u1 * i - u2 * h; u2 * g - u0 * i; u0 * h - u1 * g].
  destruct (norm3 (u1 * i - u2 * h) (u2 * g - u0 * i) (u0 * h - u1 * g)) as (a & b & c & E & A & B & C). rewrite E. clear E. cbv zeta in A, B, C.
  change ([a; b; c] ++ vcross [g; h; i] [a; b; c] ++ [g; h; i]) with [a; b; c; h * c - i * b; i * a - g * c; g * b - h * a; g; h; i].
  remember (h * c - i * b) as d eqn:D1. remember (i * a - g * c) as e eqn:D2. remember (g * b - h * a) as f eqn:D3. symmetry in D1, D2, D3.
  intros H. destruct (rotation_quat [a; b; c; d; e; f; g; h; i] eq_refl H) as (q & Lq & N & Q). clear H. un4 q x y z w.
  assert (F : a = x * x + w * w - y * y - z * z /\ e = y * y + w * w - x * x - z * z /\ i = z * z + w * w - x * x - y * y /\
    b + d = 4 * (x * y) /\ b - d = 4 * (z * w) /\ c + g = 4 * (x * z) /\ g - c = 4 * (y * w) /\ f + h = 4 * (y * z) /\ f - h = 4 * (x * w)).
  { revert Q. clear. qu. lcbv. intros Q. injection Q. intros. lra. }
  destruct F as (A1 & A2 & A3 & B1 & B2 & B3 & B4 & B5 & B6). revert N. lcbv. intros N.
  destruct (sqrt_4sq (1 + (a + e + i)) w) as (sw & Sw & Qw & Pw); [lra|].
  destruct (sqrt_4sq (1 - e - i + a) x) as (sx & Sx & Qx & Px); [lra|].
  destruct (sqrt_4sq (1 - a - i + e) y) as (sy & Sy & Qy & Py); [lra|].
  destruct (sqrt_4sq (1 - a - e + i) z) as (sz & Sz & Qz & Pz); [lra|].
  assert (SQ : forall s u, (s = 1 \/ s = -1) -> 0 <= s * u -> 1 / 4 <= u * u -> s * s = 1 /\ 0 < s * u).
  { intros s u [->| ->] H K; split; try lra; nra. }
  set (sg := if Rle_dec 0 (a + e + i) then sw else if Rle_dec e a then if Rle_dec i a then sx else if Rle_dec i e then sy else sz else if Rle_dec i e then sy else sz).
  assert (Sg : sg = 1 \/ sg = -1) by (unfold sg; repeat destruct Rle_dec; auto).
  exists (vscale sg [x; y; z; w]). split; [reflexivity|]. split; [lcbv; destruct Sg as [->| ->]; lra|].
  split; [rewrite <- Q; clear - Sg; qu; lcbv; destruct Sg as [->| ->]; repeat (apply f_equal2; [ring|]); reflexivity|].
  unfold sg. clear sg Sg Q. lcbv. symr; rprep; rewrite ?X, ?Y, ?Z; fold g h i; rewrite ?A, ?B, ?C, ?D1, ?D2, ?D3, ?Qw, ?Qx, ?Qy, ?Qz;
    try (reqs; sq0); try (solve [domain]); clear A B C X Y Z Qw Qx Qy Qz; clearbody g h i; clear D1 D2 D3.
  all: (rifs; try reflexivity; try (exfalso; lra);
    repeat match goal with
    | |- negb _ = true => apply negb_true_iff
    | |- Reqb _ _ = false => apply Reqb_false
    | |- Rleb _ _ = true => apply Rleb_true; nra
    end;
    first [ destruct (SQ _ _ Sw Pw) as [K1 K2]; [lra|] | destruct (SQ _ _ Sx Px) as [K1 K2]; [lra|]
          | destruct (SQ _ _ Sy Py) as [K1 K2]; [lra|] | destruct (SQ _ _ Sz Pz) as [K1 K2]; [lra|] ];
    try lra; cells ltac:(first [apply quarter; auto; lra | field])).
Qed.
(** a rotation built from [dir] and [up] as glm_quat_for does *)
Lemma for_acts : forall dir up, length dir = 3%nat -> length up = 3%nat -> eps <= norm dir -> eps <= norm (vcross (normalized dir) up) ->
  let z := neg (normalized dir) in let x := normalized (vcross up z) in
  rotation (x ++ vcross z x ++ z) /\ forall q, length q = 4%nat -> qmat q = x ++ vcross z x ++ z ->
  vscale (norm dir) (qrot q [0; 0; -1]) = dir /\ rdot (qrot q [1; 0; 0]) up = 0 /\ 0 < rdot (qrot q [0; 1; 0]) up.
Proof.
  intros dir up Ld Lu H1 H2. cbv zeta.
  destruct (norm3_unit dir Ld H1) as (Lf & Nf & Ef). set (f := normalized dir) in *. clearbody f.
  assert (E : vcross up (neg f) = vcross f up) by (clear - Lf Lu; un3 f f0 f1 f2; un3 up u0 u1 u2; unfold neg; lcbv; cells ltac:(ring)). rewrite E.
  destruct (norm3_unit (vcross f up) eq_refl H2) as (Ls & Ns & Es). set (s := normalized (vcross f up)) in *. clearbody s.
  assert (D : rdot f s = 0 /\ rdot up s = 0 /\ rdot (vcross f up) s = norm (vcross f up)).
  { pose proof eps_pos. assert (P : 0 < norm (vcross f up)) by lra. clear H2. revert P Es. generalize (norm (vcross f up)). intros k P Es.
    assert (F0 : rdot f (vcross f up) = 0 /\ rdot up (vcross f up) = 0) by (clear - Lf Lu; un3 f f0 f1 f2; un3 up u0 u1 u2; lcbv; split; ring).
    rewrite Es in F0 |- *. clear - F0 P Ns Lf Lu Ls. un3 f f0 f1 f2. un3 up u0 u1 u2. un3 s s0 s1 s2. revert F0 Ns. lcbv. intros [F0 F1] Ns.
    split; [|split].
    - apply Rmult_eq_reg_l with k; lra.
    - apply Rmult_eq_reg_l with k; lra.
    - transitivity (k * (s0 * s0 + s1 * s1 + s2 * s2)). ring. rewrite Ns. ring. }
  destruct D as (D1 & D2 & D3).
  assert (Rt : rotation (s ++ vcross (neg f) s ++ neg f)).
  { destruct (frame_rotation false f s Lf Ls Nf Ns D1) as [O T]. cbv iota in O, T. unfold orthonormal in O.
    apply inverse_side in O; [|reflexivity|reflexivity]. revert O T. clear - Lf Ls. un3 f f0 f1 f2. un3 s s0 s1 s2. unfold rotation, orthonormal, neg, rows3. lcbv. intros O T.
    split; [|lra]. injection O. intros. cells ltac:(lra). }
  split; [exact Rt|]. intros q Lq Q.
  assert (G : qrot q [1; 0; 0] = s /\ qrot q [0; 1; 0] = vcross (neg f) s /\ qrot q [0; 0; -1] = f).
  { clear - Q Lq Lf Ls. un3 f f0 f1 f2. un3 s s0 s1 s2. un4 q x y z w. revert Q. qu. unfold neg. lcbv. intros Q. injection Q. intros.
    repeat split; (repeat (apply f_equal2; [lra|]); reflexivity). }
  destruct G as (G1 & G2 & G3). rewrite G1, G2, G3. split; [auto|]. split.
  - clear - D2 Lu Ls. un3 up u0 u1 u2. un3 s s0 s1 s2. revert D2. lcbv. intros. lra.
  - pose proof eps_pos. apply Rlt_le_trans with (norm (vcross f up)); [lra|]. rewrite <- D3. clear - Lu Ls Lf.
    un3 f f0 f1 f2. un3 up u0 u1 u2. un3 s s0 s1 s2. unfold neg. lcbv. lra.
Qed.
(** viewer axes: the negative z axis goes to [dir], the x axis becomes orthogonal to [up] and the
    y axis lies on the side of [up] *)
Lemma C67_for_ok : forall dir up, length dir = 3%nat -> length up = 3%nat -> eps <= norm dir -> eps <= norm (vcross (normalized dir) up) ->
  exists q, length q = 4%nat /\ computes RS glm_quat_for [In (fl dir); In (fl up); Out 4] VVoid [fl q] /\
  norm2 q = 1 /\ vscale (norm dir) (qrot q [0; 0; -1]) = dir /\ rdot (qrot q [1; 0; 0]) up = 0 /\ 0 < rdot (qrot q [0; 1; 0]) up.
Proof.
  intros dir up Ld Lu H1 H2. destruct (for_acts dir up Ld Lu H1 H2) as [Rt A]. destruct (for_calc dir up Ld Lu Rt) as (q & Lq & Nq & Q & C).
  exists q. split; [auto|]. split; [exact C|]. split; [auto|]. apply A; auto.
Qed.
Lemma C67_for_ex : let dir := [0; 0; 2] in let up := [0; 3; 1] in
  eps <= norm dir /\ eps <= norm (vcross (normalized dir) up).
Proof.
  cbv zeta. assert (N : norm [0; 0; 2] = 2) by (unfold norm; lcbv; replace (0 * 0 + 0 * 0 + 2 * 2) with (2 * 2) by ring; apply sqrt_square; lra).
  unfold normalized. rewrite N. unfold eps. split; [lra|]. destruct (Rlt_dec 2 (1 / 8388608)); [lra|].
  lcbv. match goal with |- _ <= sqrt ?t => replace t with (3 * 3) by field end. rewrite sqrt_square; lra.
Qed.
(** glm_quat_make copies *)
Lemma C67_make_ok : forall (S : Scalar) q, length q = 4%nat -> computes S glm_quat_make [In (fl q); Out 4] VVoid [fl q].
Proof. intros S q L. unlists. sym_with 40%nat; try exact I; repeat split. Qed.
