(** * glm_quat_forp (C67) *)

From Coq Require Import String List ZArith Bool Reals Lra Lia.
From Verif Require Import Cglm.
From Verif.Spec Require Import Linear Geometry Affine Quaternion.
From Verif.Proofs Require Import AffTac Affine Quat QuatMat Euler View RotQuat.
(* props: From Verif.Spec Require Import Linear Geometry Affine Quaternion. *)
Import ListNotations.
Local Open Scope R_scope.

(** the matrix glm_quat_forp builds, and the conversion of glm_mat3_quat run on it *)
Lemma forp_calc : forall from to up, length from = 3%nat -> length to = 3%nat -> length up = 3%nat ->
  let z := neg (normalized (vsub to from)) in let x := normalized (vcross up z) in
  rotation (x ++ vcross z x ++ z) -> exists q, length q = 4%nat /\ norm2 q = 1 /\ qmat q = x ++ vcross z x ++ z /\
  computes RS glm_quat_forp [In (fl from); In (fl to); In (fl up); Out 4] VVoid [fl q].
Proof.
  intros from to up Lf Lt Lu. un3 from p0 p1 p2. un3 to t0 t1 t2. un3 up u0 u1 u2. cbv zeta.
  change (vsub [t0; t1; t2] [p0; p1; p2]) with [t0 - p0; t1 - p1; t2 - p2].
  destruct (norm3 (t0 - p0) (t1 - p1) (t2 - p2)) as (n0 & n1 & n2 & E & X & Y & Z). rewrite E. clear E. cbv zeta in X, Y, Z.
  change (neg [n0; n1; n2]) with [- n0; - n1; - n2].
  set (g := - n0) in *. set (h := - n1) in *. set (i := - n2) in *.
  change (vcross [u0; u1; u2] [g; h; i]) with [u1 * i - u2 * h; u2 * g - u0 * i; u0 * h - u1 * g].
  destruct (norm3 (u1 * i - u2 * h) (u2 * g - u0 * i) (u0 * h - u1 * g)) as (a & b & c & E & A & B & C). rewrite E. clear E. cbv zeta in A, B, C.
  change ([a; b; c] ++ vcross [g; h; i] [a; b; c] ++ [g; h; i]) with [a; b; c; h * c - i * b; i * a - g * c; g * b - h * a; g; h; i].
  remember (h * c - i * b) as d eqn:D1. remember (i * a - g * c) as e eqn:D2. remember (g * b - h * a) as f eqn:D3. symmetry in D1, D2, D3.
  intros H. destruct (rotation_quat [a; b; c; d; e; f; g; h; i] eq_refl H) as (q & Lq & N & Q). clear H. un4 q x y z w.
  assert (F : a = x * x + w * w - y * y - z * z /\ e = y * y + w * w - x * x - z * z /\ i = z * z + w * w - x * x - y * y /\
    b + d = 4 * (x * y) /\ b - d = 4 * (z * w) /\ c + g = 4 * (x * z) /\ g - c = 4 * (y * w) /\ f + h = 4 * (y * z) /\ f - h = 4 * (x * w)).
  { revert Q. clear. qu. lcbv. intros Q. injection Q. intros. lra. }
  destruct F as (A1 & A2 & A3 & B1 & B2 & B3 & B4 & B5 & B6). revert N. lcbv. intros N.
  destruct (sqrt_4sq (1 + (a + e + i)) w) as (sw & Sw & Qw & Pw); [lra|].
  destruct (sqrt_4sq (1 - e - i + a) x) as (sx & Sx & Qx & Px); [lra|].
  destruct (sqrt_4sq (1 - a - i + e) y) as (sy & Sy & Qy & Py); [lra|].
  destruct (sqrt_4sq (1 - a - e + i) z) as (sz & Sz & Qz & Pz); [lra|].
  assert (SQ : forall s u, (s = 1 \/ s = -1) -> 0 <= s * u -> 1 / 4 <= u * u -> s * s = 1 /\ 0 < s * u).
  { intros s u [->| ->] H K; split; try lra; nra. }
  set (sg := if Rle_dec 0 (a + e + i) then sw else if Rle_dec e a then if Rle_dec i a then sx else if Rle_dec i e then sy else sz else if Rle_dec i e then sy else sz).
  assert (Sg : sg = 1 \/ sg = -1) by (unfold sg; repeat destruct Rle_dec; auto).
  exists (vscale sg [x; y; z; w]). split; [reflexivity|]. split; [lcbv; destruct Sg as [->| ->]; lra|].
  split; [rewrite <- Q; clear - Sg; qu; lcbv; destruct Sg as [->| ->]; repeat (apply f_equal2; [ring|]); reflexivity|].
  unfold sg. clear sg Sg Q. lcbv. symr; rprep; rewrite ?X, ?Y, ?Z; fold g h i; rewrite ?A, ?B, ?C, ?D1, ?D2, ?D3, ?Qw, ?Qx, ?Qy, ?Qz;
    try (reqs; sq0); try (solve [domain]); clear A B C X Y Z Qw Qx Qy Qz; clearbody g h i; clear D1 D2 D3.
  all: (rifs; try reflexivity; try (exfalso; lra);
    repeat match goal with
    | |- negb _ = true => apply negb_true_iff
    | |- Reqb _ _ = false => apply Reqb_false
    | |- Rleb _ _ = true => apply Rleb_true; nra
    end;
    first [ destruct (SQ _ _ Sw Pw) as [K1 K2]; [lra|] | destruct (SQ _ _ Sx Px) as [K1 K2]; [lra|]
          | destruct (SQ _ _ Sy Py) as [K1 K2]; [lra|] | destruct (SQ _ _ Sz Pz) as [K1 K2]; [lra|] ];
    try lra; cells ltac:(first [apply quarter; auto; lra | field])).
Qed.
Lemma C67_forp_ok : forall from to up, length from = 3%nat -> length to = 3%nat -> length up = 3%nat ->
  let dir := vsub to from in eps <= norm dir -> eps <= norm (vcross (normalized dir) up) ->
  exists q, length q = 4%nat /\ computes RS glm_quat_forp [In (fl from); In (fl to); In (fl up); Out 4] VVoid [fl q] /\
  norm2 q = 1 /\ vscale (norm dir) (qrot q [0; 0; -1]) = dir /\ rdot (qrot q [1; 0; 0]) up = 0 /\ 0 < rdot (qrot q [0; 1; 0]) up.
Proof.
  intros from to up L1 L2 Lu dir H1 H2. assert (Ld : length dir = 3%nat) by (unfold dir; clear - L1 L2; un3 from p0 p1 p2; un3 to t0 t1 t2; reflexivity).
  destruct (for_acts dir up Ld Lu H1 H2) as [Rt A]. destruct (forp_calc from to up L1 L2 Lu Rt) as (q & Lq & Nq & Q & C).
  exists q. split; [auto|]. split; [exact C|]. split; [auto|]. apply A; auto.
Qed.
Lemma C67_forp_ex : let from := [1; 1; 1] in let to := [1; 1; 3] in let dir := vsub to from in
  eps <= norm dir /\ eps <= norm (vcross (normalized dir) [0; 3; 1]).
Proof.
  cbv zeta. replace (vsub [1; 1; 3] [1; 1; 1]) with [0; 0; 2] by (lcbv; cells ltac:(ring)). exact C67_for_ex.
Qed.
