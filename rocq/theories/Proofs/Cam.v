(** * Projection matrices (C31, C32, C33) *)

From Coq Require Import String List ZArith Bool Reals Lra Lia.
From Verif.Spec Require Export Clip.
From Verif.Proofs Require Import AffTac.
(* props: From Verif.Spec Require Import Linear Geometry Clip. *)
Import ListNotations.
Local Open Scope R_scope.

(** the matrices the functions write *)
Definition ortho_mat (lh zo : bool) (l r b t n f : R) : list R :=
  [2 / (r - l); 0; 0; 0;  0; 2 / (t - b); 0; 0;
   0; 0; (if zo then 1 else 2) * (if lh then 1 else -1) / (f - n); 0;
   - (r + l) / (r - l); - (t + b) / (t - b); (if zo then - n else - (f + n)) / (f - n); 1].
Definition frustum_mat (lh zo : bool) (l r b t n f : R) : list R :=
  [2 * n / (r - l); 0; 0; 0;  0; 2 * n / (t - b); 0; 0;
   (r + l) / (r - l); (t + b) / (t - b); (if lh then 1 else -1) * (if zo then f else f + n) / (f - n); if lh then 1 else -1;
   0; 0; - ((if zo then 1 else 2) * f * n) / (f - n); 0].
Definition persp_mat (lh zo : bool) (c a n f : R) : list R :=
  [/ c / a; 0; 0; 0;  0; / c; 0; 0;
   0; 0; (if lh then 1 else -1) * (if zo then f else f + n) / (f - n); if lh then 1 else -1;
   0; 0; - ((if zo then 1 else 2) * f * n) / (f - n); 0].

(** guards: non-zero denominators *)
Ltac nz := reqs; try (intro; lra); try lra.
Ltac camgo := symr; rprep; try (solve [nz]); cells ltac:(try (field; repeat split; try lra; nz)).
Lemma ortho_calc : forall lh zo l r b t n f, l <> r -> b <> t -> n <> f ->
  computes RS (ortho_fn lh zo) [Val (VF l); Val (VF r); Val (VF b); Val (VF t); Val (VF n); Val (VF f); Out 16] VVoid
    [fl (ortho_mat lh zo l r b t n f)].
Proof. intros lh zo l r b t n f H1 H2 H3. unfold ortho_mat. destruct lh, zo; unfold ortho_fn; camgo. Qed.
Lemma frustum_calc : forall lh zo l r b t n f, l <> r -> b <> t -> n <> f ->
  computes RS (frustum_fn lh zo) [Val (VF l); Val (VF r); Val (VF b); Val (VF t); Val (VF n); Val (VF f); Out 16] VVoid
    [fl (frustum_mat lh zo l r b t n f)].
Proof. intros lh zo l r b t n f H1 H2 H3. unfold frustum_mat. destruct lh, zo; unfold frustum_fn; camgo. Qed.
Lemma half : forall x, x * (1 / 2) = x / 2.
Proof. intros. field. Qed.
Lemma persp_calc : forall lh zo fovy a n f, cos (fovy / 2) <> 0 -> tan (fovy / 2) <> 0 -> a <> 0 -> n <> f ->
  computes RS (perspective_fn lh zo) [Val (VF fovy); Val (VF a); Val (VF n); Val (VF f); Out 16] VVoid
    [fl (persp_mat lh zo (tan (fovy / 2)) a n f)].
Proof.
  intros lh zo fovy a n f H1 H2 H3 H4. unfold persp_mat. destruct lh, zo; unfold perspective_fn; symr; rprep; rewrite ?half; revert H2; generalize (tan (fovy / 2)); intros c H2.
  all: try (solve [nz]).
  all: cells ltac:(try (field; repeat split; try lra; nz)).
Qed.
Lemma le_div : forall x y a d, 0 < d -> y - x = a / d -> (x <= y <-> 0 <= a).
Proof.
  intros x y a d P E. assert (a = (y - x) * d) by (rewrite E; field; lra). split; intros; [rewrite H; apply Rmult_le_pos; lra|].
  assert (0 <= a / d) by (apply Rmult_le_pos; [lra | apply Rlt_le, Rinv_0_lt_compat; lra]). lra.
Qed.
Ltac by_div a d := apply (le_div _ _ a d); [lra | field; lra].

Lemma ortho_acts : forall lh zo l r b t n f, l < r -> b < t -> n < f -> let M := ortho_mat lh zo l r b t n f in
  forall p, length p = 3%nat ->
    at_ (clip M p) 0 = 2 * (at_ p 0 - l) / (r - l) - 1 /\ at_ (clip M p) 1 = 2 * (at_ p 1 - b) / (t - b) - 1 /\
    at_ (clip M p) 3 = 1 /\
    (ahead lh p = n -> at_ (clip M p) 2 = near_depth zo 1) /\ (ahead lh p = f -> at_ (clip M p) 2 = 1) /\
    (in_clip zo (clip M p) <-> in_box l r b t n f (at_ p 0) (at_ p 1) (ahead lh p)).
Proof.
  intros lh zo l r b t n f H1 H2 H3 M. unfold M.
  intros p L. un3 p x y z. unfold ortho_mat, clip, in_clip, in_box, ahead, near_depth. lcbv.
  repeat match goal with |- context [?a + ?c / ?d * 1] => idtac end.
  assert (A : 2 / (r - l) * x + 0 * y + 0 * z + - (r + l) / (r - l) * 1 = (2 * x - (r + l)) / (r - l)) by (field; lra).
  assert (B : 0 * x + 2 / (t - b) * y + 0 * z + - (t + b) / (t - b) * 1 = (2 * y - (t + b)) / (t - b)) by (field; lra).
  assert (D : 0 * x + 0 * y + 0 * z + 1 * 1 = 1) by ring.
  rewrite A, B, D.
  split; [field; lra|]. split; [field; lra|]. split; [reflexivity|].
  destruct lh, zo.
  all: split; [intros E; first [rewrite E | replace z with (- n) by lra]; field; lra|].
  all: split; [intros E; first [rewrite E | replace z with (- f) by lra]; field; lra|].
  all: assert (X1 : - (1) <= (2 * x - (r + l)) / (r - l) <-> 0 <= 2 * (x - l)) by by_div (2 * (x - l)) (r - l).
  all: assert (X2 : (2 * x - (r + l)) / (r - l) <= 1 <-> 0 <= 2 * (r - x)) by by_div (2 * (r - x)) (r - l).
  all: assert (Y1 : - (1) <= (2 * y - (t + b)) / (t - b) <-> 0 <= 2 * (y - b)) by by_div (2 * (y - b)) (t - b).
  all: assert (Y2 : (2 * y - (t + b)) / (t - b) <= 1 <-> 0 <= 2 * (t - y)) by by_div (2 * (t - y)) (t - b).
  all: rewrite X1, X2, Y1, Y2.
  - assert (Z1 : 0 <= 0 * x + 0 * y + 1 * 1 / (f - n) * z + - n / (f - n) * 1 <-> 0 <= z - n) by by_div (z - n) (f - n).
    assert (Z2 : 0 * x + 0 * y + 1 * 1 / (f - n) * z + - n / (f - n) * 1 <= 1 <-> 0 <= f - z) by by_div (f - z) (f - n).
    rewrite Z1, Z2. lra.
  - assert (Z1 : - (1) <= 0 * x + 0 * y + 2 * 1 / (f - n) * z + - (f + n) / (f - n) * 1 <-> 0 <= 2 * (z - n)) by by_div (2 * (z - n)) (f - n).
    assert (Z2 : 0 * x + 0 * y + 2 * 1 / (f - n) * z + - (f + n) / (f - n) * 1 <= 1 <-> 0 <= 2 * (f - z)) by by_div (2 * (f - z)) (f - n).
    rewrite Z1, Z2. lra.
  - assert (Z1 : 0 <= 0 * x + 0 * y + 1 * -1 / (f - n) * z + - n / (f - n) * 1 <-> 0 <= - z - n) by by_div (- z - n) (f - n).
    assert (Z2 : 0 * x + 0 * y + 1 * -1 / (f - n) * z + - n / (f - n) * 1 <= 1 <-> 0 <= f + z) by by_div (f + z) (f - n).
    rewrite Z1, Z2. lra.
  - assert (Z1 : - (1) <= 0 * x + 0 * y + 2 * -1 / (f - n) * z + - (f + n) / (f - n) * 1 <-> 0 <= 2 * (- z - n)) by by_div (2 * (- z - n)) (f - n).
    assert (Z2 : 0 * x + 0 * y + 2 * -1 / (f - n) * z + - (f + n) / (f - n) * 1 <= 1 <-> 0 <= 2 * (f + z)) by by_div (2 * (f + z)) (f - n).
    rewrite Z1, Z2. lra.
Qed.
(** ** C31 *)
(** the orthographic matrix is the affine map taking the box onto the clip volume *)
Lemma C31_ortho_ok : forall lh zo l r b t n f, l < r -> b < t -> n < f ->
  exists M, length M = 16%nat /\
  computes RS (ortho_fn lh zo) [Val (VF l); Val (VF r); Val (VF b); Val (VF t); Val (VF n); Val (VF f); Out 16] VVoid [fl M] /\
  forall p, length p = 3%nat ->
    at_ (clip M p) 0 = 2 * (at_ p 0 - l) / (r - l) - 1 /\ at_ (clip M p) 1 = 2 * (at_ p 1 - b) / (t - b) - 1 /\
    at_ (clip M p) 3 = 1 /\
    (ahead lh p = n -> at_ (clip M p) 2 = near_depth zo 1) /\ (ahead lh p = f -> at_ (clip M p) 2 = 1) /\
    (in_clip zo (clip M p) <-> in_box l r b t n f (at_ p 0) (at_ p 1) (ahead lh p)).
Proof.
  intros lh zo l r b t n f H1 H2 H3. exists (ortho_mat lh zo l r b t n f). split; [reflexivity|]. split; [apply ortho_calc; lra|].
  apply ortho_acts; lra.
Qed.
(** an empty range is a division by zero *)
Lemma C31_degenerate_ok : forall lh zo l r b t n f, l = r \/ b = t \/ n = f ->
  aborts RS (ortho_fn lh zo) [Val (VF l); Val (VF r); Val (VF b); Val (VF t); Val (VF n); Val (VF f); Out 16] XFloatDomain /\
  aborts RS (frustum_fn lh zo) [Val (VF l); Val (VF r); Val (VF b); Val (VF t); Val (VF n); Val (VF f); Out 16] XFloatDomain.
Proof.
  intros lh zo l r b t n f H. destruct lh, zo; unfold ortho_fn, frustum_fn; split; symx_with 20%nat; useeqs; rcbv; lcbv; rifs; simpl; try reflexivity; exfalso; lra.
Qed.
(** how a frustum matrix acts *)
Lemma frustum_acts : forall lh zo l r b t n f p, l < r -> b < t -> 0 < n -> n < f -> length p = 3%nat ->
  let M := frustum_mat lh zo l r b t n f in let d := ahead lh p in
  let l' := if lh then - r else l in let r' := if lh then - l else r in
  let b' := if lh then - t else b in let t' := if lh then - b else t in
  at_ (clip M p) 0 = 2 * (n * at_ p 0 - l' * d) / (r - l) - d /\
  at_ (clip M p) 1 = 2 * (n * at_ p 1 - b' * d) / (t - b) - d /\
  at_ (clip M p) 3 = d /\
  at_ (clip M p) 2 = (if zo then f * (d - n) else (f + n) * d - 2 * f * n) / (f - n).
Proof.
  intros lh zo l r b t n f p H1 H2 H3 H4 L. un3 p x y z. unfold frustum_mat, clip, ahead. lcbv.
  destruct lh, zo; repeat split; try ring; field; lra.
Qed.
Lemma frustum_volume : forall (zo : bool) l r b t n f x y d c, l < r -> b < t -> 0 < n -> n < f -> length c = 4%nat ->
  at_ c 0 = 2 * (n * x - l * d) / (r - l) - d ->  at_ c 1 = 2 * (n * y - b * d) / (t - b) - d -> at_ c 3 = d ->
  at_ c 2 = (if zo then f * (d - n) else (f + n) * d - 2 * f * n) / (f - n) ->
  (in_clip zo c <-> in_frustum l r b t n f x y d) /\
  (d = n -> at_ c 2 = near_depth zo d) /\ (d = f -> at_ c 2 = d) /\
  (n * x = l * d -> at_ c 0 = - d) /\ (n * x = r * d -> at_ c 0 = d) /\
  (n * y = b * d -> at_ c 1 = - d) /\ (n * y = t * d -> at_ c 1 = d).
Proof.
  intros zo l r b t n f x y d c H1 H2 H3 H4 L A B D C. un4 c k0 k1 k2 k3. revert A B C D. unfold in_clip, in_frustum, near_depth. lcbv. intros A B C D.
  subst k0 k1 k2 k3.
  assert (X1 : - d <= 2 * (n * x - l * d) / (r - l) - d <-> 0 <= 2 * (n * x - l * d)) by by_div (2 * (n * x - l * d)) (r - l).
  assert (X2 : 2 * (n * x - l * d) / (r - l) - d <= d <-> 0 <= 2 * (r * d - n * x)) by by_div (2 * (r * d - n * x)) (r - l).
  assert (Y1 : - d <= 2 * (n * y - b * d) / (t - b) - d <-> 0 <= 2 * (n * y - b * d)) by by_div (2 * (n * y - b * d)) (t - b).
  assert (Y2 : 2 * (n * y - b * d) / (t - b) - d <= d <-> 0 <= 2 * (t * d - n * y)) by by_div (2 * (t * d - n * y)) (t - b).
  rewrite X1, X2, Y1, Y2. clear X1 X2 Y1 Y2. split.
  - assert (P : forall u, 0 <= f * u <-> 0 <= u) by (intros u; split; nra).
    assert (Q : forall u, 0 <= n * u <-> 0 <= u) by (intros u; split; nra).
    pose proof (P (d - n)). pose proof (Q (f - d)).
    destruct zo.
    + assert (Z1 : 0 <= f * (d - n) / (f - n) <-> 0 <= f * (d - n)) by by_div (f * (d - n)) (f - n).
      assert (Z2 : f * (d - n) / (f - n) <= d <-> 0 <= n * (f - d)) by by_div (n * (f - d)) (f - n).
      rewrite Z1, Z2, P, Q. lra.
    + assert (Z1 : - d <= ((f + n) * d - 2 * f * n) / (f - n) <-> 0 <= f * (2 * (d - n))) by by_div (f * (2 * (d - n))) (f - n).
      assert (Z2 : ((f + n) * d - 2 * f * n) / (f - n) <= d <-> 0 <= n * (2 * (f - d))) by by_div (n * (2 * (f - d))) (f - n).
      rewrite Z1, Z2, P, Q. lra.
  - split; [intros ->; destruct zo; field; lra|]. split; [intros ->; destruct zo; field; lra|].
    split; [intros ->; field; lra|]. split; [intros ->; field; lra|]. split; [intros ->; field; lra|intros ->; field; lra].
Qed.
(** right-handed: w is the distance, the clip volume is the image of the frustum, near and far
    planes get the documented depths and the side planes go to |x| = w, |y| = w *)
Lemma C31_frustum_rh_ok : forall zo l r b t n f, l < r -> b < t -> 0 < n -> n < f ->
  exists M, length M = 16%nat /\
  computes RS (frustum_fn false zo) [Val (VF l); Val (VF r); Val (VF b); Val (VF t); Val (VF n); Val (VF f); Out 16] VVoid [fl M] /\
  forall p, length p = 3%nat -> let d := ahead false p in let c := clip M p in let x := at_ p 0 in let y := at_ p 1 in
    at_ c 3 = d /\ (in_clip zo c <-> in_frustum l r b t n f x y d) /\
    (d = n -> at_ c 2 = near_depth zo d) /\ (d = f -> at_ c 2 = d) /\
    (n * x = l * d -> at_ c 0 = - d) /\ (n * x = r * d -> at_ c 0 = d) /\
    (n * y = b * d -> at_ c 1 = - d) /\ (n * y = t * d -> at_ c 1 = d).
Proof.
  intros zo l r b t n f H1 H2 H3 H4. exists (frustum_mat false zo l r b t n f). split; [reflexivity|]. split; [apply frustum_calc; lra|].
  intros p L d c x y. destruct (frustum_acts false zo l r b t n f p H1 H2 H3 H4 L) as (A & B & D & C).
  split; [exact D|]. apply frustum_volume; auto.
Qed.
(** left-handed: the mirror image of the requested frustum, in x and in y, is what is mapped to
    the clip volume ... *)
Lemma C31_frustum_lh_ok : forall zo l r b t n f, l < r -> b < t -> 0 < n -> n < f ->
  exists M, length M = 16%nat /\
  computes RS (frustum_fn true zo) [Val (VF l); Val (VF r); Val (VF b); Val (VF t); Val (VF n); Val (VF f); Out 16] VVoid [fl M] /\
  forall p, length p = 3%nat -> let d := ahead true p in let c := clip M p in let x := at_ p 0 in let y := at_ p 1 in
    at_ c 3 = d /\ (in_clip zo c <-> in_frustum (- r) (- l) (- t) (- b) n f x y d) /\
    (d = n -> at_ c 2 = near_depth zo d) /\ (d = f -> at_ c 2 = d).
Proof.
  intros zo l r b t n f H1 H2 H3 H4. exists (frustum_mat true zo l r b t n f). split; [reflexivity|]. split; [apply frustum_calc; lra|].
  intros p L d c x y. destruct (frustum_acts true zo l r b t n f p H1 H2 H3 H4 L) as (A & B & D & C).
  split; [exact D|].
  destruct (frustum_volume zo (- r) (- l) (- t) (- b) n f x y d c) as (V1 & V2 & V3 & _); auto; try lra.
  unfold c, x, d; rewrite A; field; lra. unfold c, y, d; rewrite B; field; lra.
Qed.
(** ... so for an off-centre frustum it is wrong *)
Lemma C31_frustum_lh_refuted_ok : forall zo, exists l r b t n f M p, l < r /\ b < t /\ 0 < n /\ n < f /\ length p = 3%nat /\ length M = 16%nat /\
  computes RS (frustum_fn true zo) [Val (VF l); Val (VF r); Val (VF b); Val (VF t); Val (VF n); Val (VF f); Out 16] VVoid [fl M] /\
  in_frustum l r b t n f (at_ p 0) (at_ p 1) (ahead true p) /\ ~ in_clip zo (clip M p).
Proof.
  intros zo. exists 0, 2, (-1), 1, 1, 3. destruct (C31_frustum_lh_ok zo 0 2 (-1) 1 1 3) as (M & L & C & H); try lra.
  exists M, [1; 0; 1]. repeat split; try lra; auto; try (lcbv; unfold ahead; lcbv; lra).
  destruct (H [1; 0; 1] eq_refl) as (_ & V & _). rewrite V. unfold in_frustum, ahead. lcbv. lra.
Qed.
Lemma half_turn : forall fovy, 0 < fovy < PI -> cos (fovy / 2) <> 0 /\ 0 < tan (fovy / 2).
Proof.
  intros fovy H. split; [assert (0 < cos (fovy / 2)) by (apply cos_gt_0; lra); lra | apply tan_gt_0; lra].
Qed.
(** the perspective matrix: the symmetric frustum with vertical opening angle [fovy] *)
Lemma C31_perspective_ok : forall lh zo fovy a n f, 0 < fovy < PI -> 0 < a -> 0 < n -> n < f ->
  exists M, length M = 16%nat /\
  computes RS (perspective_fn lh zo) [Val (VF fovy); Val (VF a); Val (VF n); Val (VF f); Out 16] VVoid [fl M] /\
  let t := n * tan (fovy / 2) in let r := a * t in
  computes RS (frustum_fn lh zo) [Val (VF (- r)); Val (VF r); Val (VF (- t)); Val (VF t); Val (VF n); Val (VF f); Out 16] VVoid [fl M] /\
  forall p, length p = 3%nat -> let d := ahead lh p in let c := clip M p in let x := at_ p 0 in let y := at_ p 1 in
    at_ c 3 = d /\ (in_clip zo c <-> in_frustum (- r) r (- t) t n f x y d) /\
    (d = n -> at_ c 2 = near_depth zo d) /\ (d = f -> at_ c 2 = d).
Proof.
  intros lh zo fovy a n f H1 H2 H3 H4. destruct (half_turn fovy H1) as [C0 T0].
  exists (persp_mat lh zo (tan (fovy / 2)) a n f). split; [reflexivity|]. split; [apply persp_calc; lra|]. intros t r.
  assert (Pt : 0 < t) by (unfold t; apply Rmult_lt_0_compat; auto). assert (Pr : 0 < r) by (unfold r; apply Rmult_lt_0_compat; auto).
  assert (E : persp_mat lh zo (tan (fovy / 2)) a n f = frustum_mat lh zo (- r) r (- t) t n f).
  { unfold persp_mat, frustum_mat. unfold r, t in *. clear Pr Pt r t. revert T0. generalize (tan (fovy / 2)). intros c T0. assert (0 < a * (n * c)) by (repeat apply Rmult_lt_0_compat; auto).
    assert (0 < n * c) by (repeat apply Rmult_lt_0_compat; auto).
    replace (a * (n * c) - - (a * (n * c))) with (2 * (a * (n * c))) by ring. replace (n * c - - (n * c)) with (2 * (n * c)) by ring.
    cells ltac:(first [reflexivity | field; repeat split; lra]). }
  split; [rewrite E; apply frustum_calc; lra|]. rewrite E.
  intros p L d c x y. destruct (frustum_acts lh zo (- r) r (- t) t n f p) as (A & B & D & C); auto; try lra.
  split; [exact D|].
  destruct (frustum_volume zo (- r) r (- t) t n f x y d c) as (V1 & V2 & V3 & _); auto; try lra.
  unfold c, x, d; rewrite A; destruct lh; field; lra. unfold c, y, d; rewrite B; destruct lh; field; lra.
Qed.
Lemma C31_perspective_ex : 0 < 1 < PI.
Proof. pose proof PI_RGT_0. pose proof PI2_1. lra. Qed.
(** the functions with default parameters *)
Lemma C31_defaults_ok : forall lh zo a s, 0 < a ->
  let w := if Rle_dec 1 a then a else 1 in let h := if Rle_dec 1 a then 1 else 1 / a in
  (exists M, length M = 16%nat /\ computes RS (ortho_default_fn lh zo) [Val (VF a); Out 16] VVoid [fl M] /\
     computes RS (ortho_fn lh zo) [Val (VF (- w)); Val (VF w); Val (VF (- h)); Val (VF h); Val (VF (-100)); Val (VF 100); Out 16] VVoid [fl M]) /\
  (0 < s -> exists M, length M = 16%nat /\ computes RS (ortho_default_s_fn lh zo) [Val (VF a); Val (VF s); Out 16] VVoid [fl M] /\
     computes RS (ortho_fn lh zo) [Val (VF (- (s * w))); Val (VF (s * w)); Val (VF (- (s * h))); Val (VF (s * h)); Val (VF (- s - 100)); Val (VF (s + 100)); Out 16] VVoid [fl M]) /\
  (exists M, length M = 16%nat /\ computes RS (persp_default_fn lh zo) [Val (VF a); Out 16] VVoid [fl M] /\
     computes RS (perspective_fn lh zo) [Val (VF (PI / 4)); Val (VF a); Val (VF (1 / 100)); Val (VF 100); Out 16] VVoid [fl M]).
Proof.
  intros lh zo a s Ha w h. pose proof (Rinv_0_lt_compat a Ha) as Hi. assert (Hw : 0 < w) by (unfold w; destruct Rle_dec; lra).
  assert (Hh : 0 < h) by (unfold h; destruct Rle_dec; [lra|apply Rmult_lt_0_compat; [lra|apply Rinv_0_lt_compat; auto]]).
  split; [|split].
  - exists (ortho_mat lh zo (- w) w (- h) h (-100) 100). split; [reflexivity|]. split; [|apply ortho_calc; lra].
    unfold ortho_mat, w, h in *. clear w h. destruct lh, zo; unfold ortho_default_fn.
    all: symr; rprep.
    all: rifs; try (exfalso; unfold Rdiv in *; lra); simpl; try reflexivity; try (cells ltac:(try (field; lra))).
  - intros Hs. assert (0 < s * w) by (apply Rmult_lt_0_compat; auto). assert (0 < s * h) by (apply Rmult_lt_0_compat; auto).
    exists (ortho_mat lh zo (- (s * w)) (s * w) (- (s * h)) (s * h) (- s - 100) (s + 100)). split; [reflexivity|]. split; [|apply ortho_calc; lra].
    unfold ortho_mat, w, h in *. clear w h. destruct lh, zo; unfold ortho_default_s_fn.
    all: symr; rprep.
    all: revert H H0; rifs; intros; try (exfalso; nra); simpl; try reflexivity; try (cells ltac:(try (field; repeat split; nra))).
  - destruct (half_turn (PI / 4)) as [C0 T0]; [pose proof PI_RGT_0; lra|].
    exists (persp_mat lh zo (tan (PI / 4 / 2)) a (1 / 100) 100). split; [reflexivity|]. split; [|apply persp_calc; lra].
    unfold persp_mat. destruct lh, zo; unfold persp_default_fn; symr; rprep.
    all: repeat match goal with |- context [tan ?e] => lazymatch e with PI / 4 / 2 => fail | _ => replace (tan e) with (tan (PI / 4 / 2)) by (f_equal; field) end end.
    all: repeat match goal with |- context [cos ?e] => lazymatch e with PI / 4 / 2 => fail | _ => replace (cos e) with (cos (PI / 4 / 2)) by (f_equal; field) end end.
    all: revert T0; generalize (tan (PI / 4 / 2)); intros c T0.
    all: try (solve [nz]); cells ltac:(try (field; repeat split; lra)).
Qed.
(** changing the aspect ratio and the far plane of a perspective matrix *)
Lemma C31_resize_ok : forall lh zo fovy a a' n f, 0 < fovy < PI -> 0 < a -> 0 < a' -> 0 < n -> n < f ->
  exists M M', length M = 16%nat /\ length M' = 16%nat /\
  computes RS (perspective_fn lh zo) [Val (VF fovy); Val (VF a); Val (VF n); Val (VF f); Out 16] VVoid [fl M] /\
  computes RS (perspective_fn lh zo) [Val (VF fovy); Val (VF a'); Val (VF n); Val (VF f); Out 16] VVoid [fl M'] /\
  computes RS (persp_resize_fn lh zo) [Val (VF a'); InOut (fl M)] VVoid [fl M'].
Proof.
  intros lh zo fovy a a' n f H1 H2 H2' H3 H4. destruct (half_turn fovy H1) as [C0 T0].
  exists (persp_mat lh zo (tan (fovy / 2)) a n f), (persp_mat lh zo (tan (fovy / 2)) a' n f).
  split; [reflexivity|]. split; [reflexivity|]. split; [apply persp_calc; lra|]. split; [apply persp_calc; lra|].
  unfold persp_mat. revert T0. generalize (tan (fovy / 2)). intros c T0.
  assert (N : / c / a <> 0). { assert (0 < / c / a) by (apply Rmult_lt_0_compat; apply Rinv_0_lt_compat; auto). lra. }
  destruct lh, zo; unfold persp_resize_fn; symr; rprep; rifs; simpl; try reflexivity; try contradiction; try lra.
Qed.

(** ** C32 *)
(** what the decompositions rely on: near and far distance from two entries of the matrix *)
Definition depth_entries (lh zo : bool) (A B n f : R) : Prop :=
  let A' := if lh then - A else A in
  (if zo then A' else A' - 1) <> 0 /\ A' + 1 <> 0 /\ B / (if zo then A' else A' - 1) = n /\ B / (A' + 1) = f.
Lemma depth_entries_mat : forall lh zo n f, 0 < n -> n < f ->
  depth_entries lh zo ((if lh then 1 else -1) * (if zo then f else f + n) / (f - n)) (- ((if zo then 1 else 2) * f * n) / (f - n)) n f.
Proof.
  intros lh zo n f H1 H2. unfold depth_entries.
  assert (K : forall u v, u <> 0 -> v = u / (f - n) -> v <> 0).
  { intros u v Hu -> E. apply Hu. replace u with (u / (f - n) * (f - n)) by (field; lra). rewrite E. ring. }
  destruct lh, zo; cbv zeta beta iota.
  - assert (A : - (1 * f / (f - n)) <> 0) by (apply (K (- f)); [lra|field; lra]).
    assert (B : - (1 * f / (f - n)) + 1 <> 0) by (apply (K (- n)); [lra|field; lra]).
    repeat split; auto; apply Rmult_eq_reg_r with (- (1 * f / (f - n)) + 1); auto; try (field; repeat split; lra).
  - assert (A : - (1 * (f + n) / (f - n)) - 1 <> 0) by (apply (K (- (2 * f))); [lra|field; lra]).
    assert (B : - (1 * (f + n) / (f - n)) + 1 <> 0) by (apply (K (- (2 * n))); [lra|field; lra]).
    repeat split; auto; field; repeat split; lra.
  - assert (A : -1 * f / (f - n) <> 0) by (apply (K (- f)); [lra|field; lra]).
    assert (B : -1 * f / (f - n) + 1 <> 0) by (apply (K (- n)); [lra|field; lra]).
    repeat split; auto; field; repeat split; lra.
  - assert (A : -1 * (f + n) / (f - n) - 1 <> 0) by (apply (K (- (2 * f))); [lra|field; lra]).
    assert (B : -1 * (f + n) / (f - n) + 1 <> 0) by (apply (K (- (2 * n))); [lra|field; lra]).
    repeat split; auto; field; repeat split; lra.
Qed.
Ltac depth H := unfold depth_entries in H; cbv beta iota zeta in H; destruct H as (? & ? & ? & ?); subst.
Ltac dgo := symr; rprep; try (solve [nz]); rifs; try contradiction; try reflexivity; try (exfalso; lra).
Lemma C32_move_far_ok : forall lh zo fovy a n f e, 0 < fovy < PI -> 0 < a -> 0 < n -> n < f -> n < f + e ->
  exists M M', length M = 16%nat /\ length M' = 16%nat /\
  computes RS (perspective_fn lh zo) [Val (VF fovy); Val (VF a); Val (VF n); Val (VF f); Out 16] VVoid [fl M] /\
  computes RS (perspective_fn lh zo) [Val (VF fovy); Val (VF a); Val (VF n); Val (VF (f + e)); Out 16] VVoid [fl M'] /\
  computes RS (move_far_fn lh zo) [InOut (fl M); Val (VF e)] VVoid [fl M'].
Proof.
  intros lh zo fovy a n f e H1 H2 H3 H4 H5. destruct (half_turn fovy H1) as [C0 T0].
  exists (persp_mat lh zo (tan (fovy / 2)) a n f), (persp_mat lh zo (tan (fovy / 2)) a n (f + e)).
  split; [reflexivity|]. split; [reflexivity|]. split; [apply persp_calc; lra|]. split; [apply persp_calc; lra|].
  unfold persp_mat. generalize (/ tan (fovy / 2) / a) (/ tan (fovy / 2)). intros c0 c.
  generalize (depth_entries_mat lh zo n f H3 H4).
  generalize ((if lh then 1 else -1) * (if zo then f else f + n) / (f - n)) (- ((if zo then 1 else 2) * f * n) / (f - n)). intros A B D.
  clear - D H3 H4 H5. destruct lh, zo; unfold move_far_fn, depth_entries in *; cbv beta iota zeta in D; destruct D as (D1 & D2 & D3 & D4).
  all: symr; rprep; rewrite ?D3, ?D4; try (solve [nz]); cells ltac:(try (field; repeat split; lra)).
Qed.
(** near and far distance of every frustum and perspective matrix *)
Lemma C32_depth_ok : forall lh zo l r b t n f, l < r -> b < t -> 0 < n -> n < f ->
  exists M, length M = 16%nat /\
  computes RS (frustum_fn lh zo) [Val (VF l); Val (VF r); Val (VF b); Val (VF t); Val (VF n); Val (VF f); Out 16] VVoid [fl M] /\
  computes RS (decomp_z_fn lh zo) [In (fl M); Out 1; Out 1] VVoid [fl [n]; fl [f]] /\
  computes RS (decomp_near_fn lh zo) [In (fl M); Out 1] VVoid [fl [n]] /\
  computes RS (decomp_far_fn lh zo) [In (fl M); Out 1] VVoid [fl [f]].
Proof.
  intros lh zo l r b t n f H1 H2 H3 H4. exists (frustum_mat lh zo l r b t n f). split; [reflexivity|]. split; [apply frustum_calc; lra|].
  unfold frustum_mat. generalize (2 * n / (r - l)) (2 * n / (t - b)) ((r + l) / (r - l)) ((t + b) / (t - b)). intros c0 c c1 c2.
  generalize (depth_entries_mat lh zo n f H3 H4).
  generalize ((if lh then 1 else -1) * (if zo then f else f + n) / (f - n)) (- ((if zo then 1 else 2) * f * n) / (f - n)). intros A B D.
  clear - D H3 H4. destruct lh, zo; unfold decomp_z_fn, decomp_near_fn, decomp_far_fn, depth_entries in *; cbv beta iota zeta in D; destruct D as (D1 & D2 & D3 & D4).
  all: repeat split; symr; rprep; rewrite ?D3, ?D4; try reflexivity; try (solve [nz]).
Qed.
(** the decompositions give the six planes back *)
Lemma side_entries : forall l r n, l < r -> 0 < n -> 2 * n / (r - l) <> 0 /\
  n / (2 * n / (r - l)) * ((r + l) / (r - l) - 1) = l /\ n / (2 * n / (r - l)) * ((r + l) / (r - l) + 1) = r.
Proof.
  intros l r n H1 H2. assert (0 < 2 * n / (r - l)) by (apply Rmult_lt_0_compat; [lra | apply Rinv_0_lt_compat; lra]).
  split; [lra|]. split; field; lra.
Qed.
Lemma side_entries' : forall n m c, n / m * c = n * c / m.
Proof. intros. unfold Rdiv. ring. Qed.
Lemma C32_decomp_ok : forall lh zo l r b t n f, l < r -> b < t -> 0 < n -> n < f ->
  exists M, length M = 16%nat /\
  computes RS (frustum_fn lh zo) [Val (VF l); Val (VF r); Val (VF b); Val (VF t); Val (VF n); Val (VF f); Out 16] VVoid [fl M] /\
  computes RS (decomp_fn lh zo) [In (fl M); Out 1; Out 1; Out 1; Out 1; Out 1; Out 1] VVoid [fl [n]; fl [f]; fl [t]; fl [b]; fl [l]; fl [r]] /\
  computes RS (decompv_fn lh zo) [In (fl M); Out 6] VVoid [fl [n; f; t; b; l; r]] /\
  (lh && zo = false ->
   computes RS (decomp_x_fn lh zo) [In (fl M); Out 1; Out 1] VVoid [fl [l]; fl [r]] /\
   computes RS (decomp_y_fn lh zo) [In (fl M); Out 1; Out 1] VVoid [fl [t]; fl [b]]).
Proof.
  intros lh zo l r b t n f H1 H2 H3 H4. exists (frustum_mat lh zo l r b t n f). split; [reflexivity|]. split; [apply frustum_calc; lra|].
  unfold frustum_mat. generalize (side_entries l r n H1 H3) (side_entries b t n H2 H3).
  generalize (2 * n / (r - l)) (2 * n / (t - b)) ((r + l) / (r - l)) ((t + b) / (t - b)). intros c0 c c1 c2.
  generalize (depth_entries_mat lh zo n f H3 H4).
  generalize ((if lh then 1 else -1) * (if zo then f else f + n) / (f - n)) (- ((if zo then 1 else 2) * f * n) / (f - n)). intros A B D (X1 & X2 & X3) (Y1 & Y2 & Y3).
  clear - D H3 H4 X1 X2 X3 Y1 Y2 Y3. destruct lh, zo; unfold decomp_fn, decompv_fn, decomp_x_fn, decomp_y_fn, depth_entries in *; cbv beta iota zeta in D; destruct D as (D1 & D2 & D3 & D4).
  all: split; [|split]; [| |intros Q; try discriminate Q; split]; symr; rprep; rewrite ?D3, ?D4, <- ?side_entries', ?X2, ?X3, ?Y2, ?Y3; try reflexivity; try (solve [nz]).
Qed.
(** but in the left-handed zero-to-one convention the separate x and y decompositions divide by
    the last entry of the matrix, which is zero *)
Lemma C32_decomp_xy_lh_zo_ok : forall l r b t n f, l < r -> b < t -> 0 < n -> n < f ->
  exists M, length M = 16%nat /\
  computes RS glm_frustum_lh_zo [Val (VF l); Val (VF r); Val (VF b); Val (VF t); Val (VF n); Val (VF f); Out 16] VVoid [fl M] /\
  aborts RS glm_persp_decomp_x_lh_zo [In (fl M); Out 1; Out 1] XFloatDomain /\
  aborts RS glm_persp_decomp_y_lh_zo [In (fl M); Out 1; Out 1] XFloatDomain.
Proof.
  intros l r b t n f H1 H2 H3 H4. exists (frustum_mat true true l r b t n f). split; [reflexivity|]. split; [apply (frustum_calc true true); lra|].
  unfold frustum_mat. generalize (2 * n / (r - l)) (2 * n / (t - b)) ((r + l) / (r - l)) ((t + b) / (t - b)). intros c0 c c1 c2.
  generalize (1 * f / (f - n)) (- (1 * f * n) / (f - n)). intros A B.
  split; symx_with 20%nat; useeqs; rcbv; lcbv; rifs; simpl; try reflexivity; exfalso; lra.
Qed.
(** opening angle, aspect ratio and sizes of the near and far rectangles of a perspective matrix *)
Lemma C32_fovy_ok : forall lh zo fovy a n f, 0 < fovy < PI -> 0 < a -> 0 < n -> n < f ->
  exists M, length M = 16%nat /\
  computes RS (perspective_fn lh zo) [Val (VF fovy); Val (VF a); Val (VF n); Val (VF f); Out 16] VVoid [fl M] /\
  computes RS (fovy_fn lh zo) [In (fl M)] (VF fovy) [] /\
  computes RS (aspect_fn lh zo) [In (fl M)] (VF a) [] /\
  let h := fun d => 2 * d * tan (fovy / 2) in
  computes RS (sizes_fn lh zo) [In (fl M); Val (VF fovy); Out 4] VVoid [fl [a * h n; h n; a * h f; h f]].
Proof.
  intros lh zo fovy a n f H1 H2 H3 H4. destruct (half_turn fovy H1) as [C0 T0].
  exists (persp_mat lh zo (tan (fovy / 2)) a n f). split; [reflexivity|]. split; [apply persp_calc; lra|].
  assert (E : 2 * atan (1 / / tan (fovy / 2)) = fovy).
  { replace (1 / / tan (fovy / 2)) with (tan (fovy / 2)) by (field; lra). rewrite atan_tan by lra. field. }
  unfold persp_mat. generalize (depth_entries_mat lh zo n f H3 H4).
  generalize ((if lh then 1 else -1) * (if zo then f else f + n) / (f - n)) (- ((if zo then 1 else 2) * f * n) / (f - n)). intros A B D.
  assert (Z : / tan (fovy / 2) <> 0) by (assert (0 < / tan (fovy / 2)) by (apply Rinv_0_lt_compat; auto); lra).
  assert (Y : / tan (fovy / 2) / a <> 0). { assert (0 < / tan (fovy / 2) / a) by (apply Rmult_lt_0_compat; apply Rinv_0_lt_compat; auto). lra. }
  assert (X : / tan (fovy / 2) / (/ tan (fovy / 2) / a) = a) by (field; lra).
  revert T0 Z Y X E. generalize (/ tan (fovy / 2)). intros c T0 Z Y X E. revert Y X. generalize (c / a). intros c' Y X.
  destruct lh, zo; unfold fovy_fn, aspect_fn, sizes_fn, depth_entries in *; cbv beta iota zeta in D; destruct D as (D1 & D2 & D3 & D4).
  all: split; [|split]; symr; rprep; rewrite ?half, ?D3, ?D4, ?X, ?E; try reflexivity; try (solve [nz]); cells ltac:(ring).
Qed.

(** ** C33 *)
(** Right-handed: the box is exactly the part of space mapped into the clip volume.  Left-handed:
    it is the mirror image of the box behind the viewer. *)
Lemma C33_volume_ok : forall lh zo lo hi, length lo = 3%nat -> length hi = 3%nat -> at_ lo 0 < at_ hi 0 -> at_ lo 1 < at_ hi 1 -> at_ lo 2 < at_ hi 2 ->
  exists M, length M = 16%nat /\ computes RS (ortho_aabb_fn lh zo) [In (fl (lo ++ hi)); Out 16] VVoid [fl M] /\
  forall p, length p = 3%nat -> (in_clip zo (clip M p) <->
    at_ lo 0 <= at_ p 0 <= at_ hi 0 /\ at_ lo 1 <= at_ p 1 <= at_ hi 1 /\
    at_ lo 2 <= (if lh then - at_ p 2 else at_ p 2) <= at_ hi 2).
Proof.
  intros lh zo lo hi L1 L2 H1 H2 H3. un3 lo x0 y0 z0. un3 hi x1 y1 z1. revert H1 H2 H3. lcbv. intros H1 H2 H3.
  pose proof (ortho_acts lh zo x0 x1 y0 y1 (- z1) (- z0) H1 H2 ltac:(lra)) as V. cbv zeta in V.
  exists (ortho_mat lh zo x0 x1 y0 y1 (- z1) (- z0)). split; [reflexivity|]. split.
  - clear V. unfold ortho_mat. destruct lh, zo; unfold ortho_aabb_fn; camgo.
  - intros p Lp. destruct (V p Lp) as (_ & _ & _ & _ & _ & W). rewrite W. un3 p x y z. unfold in_box, ahead. lcbv. destruct lh; lra.
Qed.
(** the padded forms: the box grown by the padding in every direction, or in depth only *)
Lemma C33_padded_ok : forall lh zo (all : bool) lo hi e, length lo = 3%nat -> length hi = 3%nat -> at_ lo 0 < at_ hi 0 -> at_ lo 1 < at_ hi 1 -> at_ lo 2 < at_ hi 2 ->
  0 <= e ->
  exists M, length M = 16%nat /\
  computes RS ((if all then ortho_aabb_p_fn else ortho_aabb_pz_fn) lh zo) [In (fl (lo ++ hi)); Val (VF e); Out 16] VVoid [fl M] /\
  forall p, length p = 3%nat -> (in_clip zo (clip M p) <->
    let g := if all then e else 0 in
    at_ lo 0 - g <= at_ p 0 <= at_ hi 0 + g /\ at_ lo 1 - g <= at_ p 1 <= at_ hi 1 + g /\
    at_ lo 2 - e <= (if lh then - at_ p 2 else at_ p 2) <= at_ hi 2 + e).
Proof.
  intros lh zo all lo hi e L1 L2 H1 H2 H3 He. un3 lo x0 y0 z0. un3 hi x1 y1 z1. revert H1 H2 H3. lcbv. intros H1 H2 H3.
  pose (X0 := if all then x0 - e else x0). pose (X1 := if all then x1 + e else x1).
  pose (Y0 := if all then y0 - e else y0). pose (Y1 := if all then y1 + e else y1).
  pose proof (ortho_acts lh zo X0 X1 Y0 Y1 (- (z1 + e)) (- (z0 - e)) ltac:(unfold X0, X1; destruct all; lra) ltac:(unfold Y0, Y1; destruct all; lra) ltac:(lra)) as V. cbv zeta in V.
  exists (ortho_mat lh zo X0 X1 Y0 Y1 (- (z1 + e)) (- (z0 - e))). split; [reflexivity|]. split.
  - clear V. unfold ortho_mat, X0, X1, Y0, Y1. destruct all, lh, zo; unfold ortho_aabb_p_fn, ortho_aabb_pz_fn; camgo.
  - intros p Lp. destruct (V p Lp) as (_ & _ & _ & _ & _ & W). rewrite W. unfold X0, X1, Y0, Y1. un3 p x y z. unfold in_box, ahead. lcbv. destruct all, lh; lra.
Qed.
(** so a box wholly in front of a left-handed viewer is wholly clipped away *)
Lemma C33_lh_refuted_ok : exists lo hi M, at_ lo 0 < at_ hi 0 /\ at_ lo 1 < at_ hi 1 /\ 0 < at_ lo 2 < at_ hi 2 /\
  computes RS glm_ortho_aabb_lh_zo [In (fl (lo ++ hi)); Out 16] VVoid [fl M] /\
  forall p, length p = 3%nat -> (forall i, (i < 3)%nat -> at_ lo i <= at_ p i <= at_ hi i) -> ~ in_clip true (clip M p).
Proof.
  destruct (C33_volume_ok true true [-1; -1; 1] [1; 1; 2]) as (M & LM & CM & HM); try reflexivity; lcbv; try lra.
  exists [-1; -1; 1], [1; 1; 2], M. lcbv. repeat split; try lra; [exact CM|].
  intros p L H Q. rewrite (HM p L) in Q. un3 p x y z. specialize (H 2%nat ltac:(lia)). revert H Q. lcbv. lra.
Qed.
Lemma C32_decomp_ex : -1 < 2 /\ -3 < 1 /\ 0 < 1 /\ 1 < 10.
Proof. lra. Qed.
Lemma C33_volume_ex : let lo := [-1; 2; -5] in let hi := [3; 4; -1] in
  length lo = 3%nat /\ length hi = 3%nat /\ at_ lo 0 < at_ hi 0 /\ at_ lo 1 < at_ hi 1 /\ at_ lo 2 < at_ hi 2.
Proof. lcbv. repeat split; lra. Qed.
