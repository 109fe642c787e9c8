(** * Functions next to those of C20, C25, C30 and C35 *)

From Coq Require Import String List ZArith Bool Reals Lra Lia.
From Verif Require Import Cglm.
(* props: From Verif.Spec Require Import Linear Geometry Affine Client Clip Frustum Limits Types Agree Builds View. *)
From Verif.Spec Require Import Quaternion ScalarSpec Clip Frustum Limits Types Agree Builds View.
From Verif.Proofs Require Import Safe RNorm SimdTac AffTac Affine Quat QuatSlerp Rest.
Import ListNotations.
Local Open Scope R_scope.

(** ** C20 *)
(** glm_mat4_textrans: as glm_mat3_textrans, in the plane of the first two coordinates *)
Lemma C20_textrans4_ok : forall sx sy a tx ty,
  computes RS glm_mat4_textrans [Val (VF sx); Val (VF sy); Val (VF a); Val (VF tx); Val (VF ty); Out 16] VVoid
    [fl (mmul 4 (transl [tx; ty; 0]) (mmul 4 (scaling [sx; sy; 1]) (rot4 [0; 0; 1] (- a))))].
Proof. intros. unfold transl, scaling, diag3, rot4, aff, rotmat, rotated. rewrite cos_neg, sin_neg. lcbv. symr; rprep; try domain; cells ltac:(ring).
  all: change (T RS) with R in *; f_equal; ring.
Qed.


(** ** C25 *)
Lemma C25_lerpc_ok : forall p q t, length p = 4%nat -> length q = 4%nat ->
  computes RS glm_quat_lerpc [InA (fl p); InA (fl q); Val (VF t); Out 4] VVoid [fl (mix p q (clamped 0 1 t))].
Proof. intros p q t L1 L2. un4 p a b c d. un4 q x y z w. unfold mix, clamped. symr; rprep; rifs; try (exfalso; lra); cells ltac:(try ring).
  all: try (replace t with 0 by lra); try (replace t with 1 by lra); try ring.
Qed.

(** the interpolation along the longer arc *)
Lemma C25_longest_ok : forall p q t, length p = 4%nat -> length q = 4%nat -> Rabs (rdot p q) < 1 ->
  1 / 1000 <= sqrt (1 - Rabs (rdot p q) * Rabs (rdot p q)) ->
  computes RS glm_quat_slerp_longest [InA (fl p); InA (fl q); Val (VF t); Out 4] VVoid [fl (long_mix p q t)].
Proof.
  intros p q t L1 L2. un4 p a b c d. un4 q x y z w. unfold long_mix. cbv zeta. intros H1 H2.
  assert (0 <= Rabs (rdot [a; b; c; d] [x; y; z; w])) as P by apply Rabs_pos.
  rewrite sin_acos by lra.
  unfold Rsqr, sign_of. revert H1 H2 P. lcbv. intros H1 H2 P.
  symr; rprep; (lazymatch type of H1 with Rabs ?u < 1 => generalize dependent u end); intros u H1 H2 P;
  assert (U : (if negb (Rltb u 0) then - u else u) = - Rabs u) by (rifs; simpl; [rewrite Rabs_left | rewrite Rabs_right]; lra);
  rewrite ?U; replace (1 - - Rabs u * - Rabs u) with (1 - Rabs u * Rabs u) by ring;
  assert (S : sqrt (1 - Rabs u * Rabs u) >= 0) by lra; rewrite ?(Rabs_right _ S); clear U S.
  all: try (generalize dependent (acos (- Rabs u)); intros th).
  all:  assert (D : 0 <= 1 - Rabs u * Rabs u) by nra.
  all:  generalize dependent (sqrt (1 - Rabs u * Rabs u)); intros s H2; generalize dependent (Rabs u); intros v H1 P D.
  all: rifs; simpl; try reflexivity; try (exfalso; lra); unfold Rdiv; cells ltac:(try ring).
Qed.
Lemma C25_longest_unit_ok : forall p q t, length p = 4%nat -> length q = 4%nat -> norm2 p = 1 -> norm2 q = 1 -> Rabs (rdot p q) < 1 ->
  norm2 (long_mix p q t) = 1 /\ long_mix p q 0 = vscale (- sign_of (rdot p q)) p /\ long_mix p q 1 = q /\ rdot (long_mix p q 0) q <= 0.
Proof.
  intros p q t L1 L2 N1 N2 H. assert (P : 0 <= Rabs (rdot p q)) by apply Rabs_pos.
  assert (C : cos (acos (- Rabs (rdot p q))) = - Rabs (rdot p q)) by (apply cos_acos; lra).
  assert (S : 0 < sin (acos (- Rabs (rdot p q)))).
  { rewrite sin_acos by lra. apply sqrt_lt_R0. unfold Rsqr. nra. }
  assert (G : sign_of (rdot p q) * rdot p q = Rabs (rdot p q)).
  { unfold sign_of. destruct Rlt_dec; [rewrite Rabs_left | rewrite Rabs_right]; lra. }
  assert (G2 : sign_of (rdot p q) * sign_of (rdot p q) = 1) by (unfold sign_of; destruct Rlt_dec; lra).
  assert (E0 : long_mix p q 0 = vscale (- sign_of (rdot p q)) p).
  { unfold long_mix. cbv zeta. set (th := acos (- Rabs (rdot p q))) in *.
    replace ((1 - 0) * th) with th by ring. replace (0 * th) with 0 by ring. rewrite sin_0. unfold Rdiv. rewrite Rinv_r by lra.
    clear - L1 L2. generalize (/ sin th), (sign_of (rdot p q)). intros. un4 p a b c d. un4 q x y z w. lcbv. cells ltac:(ring). }
  split; [|split; [exact E0|split]].
  - unfold long_mix. cbv zeta. set (th := acos (- Rabs (rdot p q))) in *.
    pose proof (sine_weights ((1 - t) * th) (t * th)) as W. replace ((1 - t) * th + t * th) with th in W by ring. rewrite C in W.
    set (A := sin ((1 - t) * th)) in *. set (B := sin (t * th)) in *. set (s := sin th) in *. clearbody A B s.
    transitivity ((A * A * norm2 p * (sign_of (rdot p q) * sign_of (rdot p q)) + B * B * norm2 q - 2 * A * B * (sign_of (rdot p q) * rdot p q)) / (s * s)).
    + clearbody th. clear - L1 L2 S. generalize (sign_of (rdot p q)). intros g. un4 p a b c d. un4 q x y z w. lcbv. field. lra.
    + rewrite N1, N2, G, G2. replace (A * A * 1 * 1 + B * B * 1 - 2 * A * B * Rabs (rdot p q)) with (s * s) by lra. field. lra.
  - unfold long_mix. cbv zeta. set (th := acos (- Rabs (rdot p q))) in *.
    replace ((1 - 1) * th) with 0 by ring. replace (1 * th) with th by ring. rewrite sin_0. unfold Rdiv. rewrite Rinv_r by lra.
    clear - L1 L2. generalize (/ sin th), (sign_of (rdot p q)). intros. un4 p a b c d. un4 q x y z w. lcbv. cells ltac:(ring).
  - rewrite E0. replace (rdot (vscale (- sign_of (rdot p q)) p) q) with (- (sign_of (rdot p q) * rdot p q)); [lra|].
    clear - L1 L2. generalize (sign_of (rdot p q)). intros g. un4 p a b c d. un4 q x y z w. lcbv. ring.
Qed.
Lemma C25_longest_parallel_ok : forall p q t, length p = 4%nat -> length q = 4%nat -> 1 <= Rabs (rdot p q) ->
  computes RS glm_quat_slerp_longest [InA (fl p); InA (fl q); Val (VF t); Out 4] VVoid [fl p].
Proof.
  intros p q t L1 L2. un4 p a b c d. un4 q x y z w. lcbv. intros H.
  symr; rprep; rifs; try (exfalso; lra); try reflexivity.
Qed.
Lemma C25_longest_nearly_ok : forall p q t, length p = 4%nat -> length q = 4%nat -> Rabs (rdot p q) < 1 ->
  sqrt (1 - Rabs (rdot p q) * Rabs (rdot p q)) < 1 / 1000 ->
  computes RS glm_quat_slerp_longest [InA (fl p); InA (fl q); Val (VF t); Out 4] VVoid [fl (mix p q t)].
Proof.
  intros p q t L1 L2. un4 p a b c d. un4 q x y z w. unfold mix. intros H1 H2.
  assert (0 <= Rabs (rdot [a; b; c; d] [x; y; z; w])) as P by apply Rabs_pos.
  revert H1 H2 P. lcbv. intros H1 H2 P.
  symr; rprep; (lazymatch type of H1 with Rabs ?u < 1 => generalize dependent u end); intros u H1 H2 P;
  assert (U : (if negb (Rltb u 0) then - u else u) = - Rabs u) by (rifs; simpl; [rewrite Rabs_left | rewrite Rabs_right]; lra);
  rewrite ?U; replace (1 - - Rabs u * - Rabs u) with (1 - Rabs u * Rabs u) by ring;
  assert (S : sqrt (1 - Rabs u * Rabs u) >= 0) by (apply Rle_ge, sqrt_pos); rewrite ?(Rabs_right _ S); clear U.
  all: try (generalize dependent (acos (- Rabs u)); intros th).
  all: assert (D : 0 <= 1 - Rabs u * Rabs u) by nra.
  all: generalize dependent (sqrt (1 - Rabs u * Rabs u)); intros s H2 S; generalize dependent (Rabs u); intros v H1 P D.
  all: rifs; simpl; try reflexivity; try (exfalso; lra); unfold Rdiv; cells ltac:(try ring).
Qed.
(** the hypotheses hold for the two quaternions of C25_ex *)
Lemma C25_init_copy_ok :
  (forall x y z w, computes RS glm_quat_init [Out 4; Val (VF x); Val (VF y); Val (VF z); Val (VF w)] VVoid [fl [x; y; z; w]]) /\
  (forall q, length q = 4%nat -> computes RS glm_quat_copy [InA (fl q); Out 4] VVoid [fl q]).
Proof. split; ago. Qed.

(** ** C30 *)
Lemma C30_variants_ok : Forall (fun p => forall S, agree_on S p) view_variants.
Proof. exact_all 30%nat. Qed.
Lemma C30_variants_ex : length view_variants = 15%nat.
Proof. reflexivity. Qed.

(** ** C35 *)
(** the box of the images of eight points; all coordinates have to be in the range of float *)
Definition fmax : R := 340282346638528859811704183484516925440.
Definition lesser (a b : R) : R := if Rltb a b then a else b.
Definition greater (a b : R) : R := if Rltb b a then a else b.
Definition least (x : R) (l : list R) := fold_left lesser l x.
Definition greatest (x : R) (l : list R) := fold_left greater l x.
Lemma box_calc : forall k M, length k = 32%nat -> length M = 16%nat ->
  let co i := map (fun j => at_ (mvec 4 4 M (firstn 4 (skipn (4 * j) k))) i) (seq 0 8) in
  computes RS glm_frustum_box [In (fl k); In (fl M); Out 6] VVoid
   [fl [least fmax (co 0%nat); least fmax (co 1%nat); least fmax (co 2%nat);
        greatest (- fmax) (co 0%nat); greatest (- fmax) (co 1%nat); greatest (- fmax) (co 2%nat)]].
Proof.
  intros k M Lk LM. cbv zeta. unlists. unfold least, greatest. cbn [fold_left map seq].
  symr.
  intros. repeat match goal with
  | H : ?t = (if s_cmp RS CLt ?x ?y then _ else _) |- _ => change (t = lesser x y) in H
  | H : ?t = (if s_cmp RS CGt ?x ?y then _ else _) |- _ => change (t = greater x y) in H end.
  subst; repeat split.
Qed.
Lemma least_spec : forall l x, l <> [] -> (forall y, List.In y l -> y <= x) -> (forall y, List.In y l -> least x l <= y) /\ List.In (least x l) l.
Proof.
  assert (G : forall l x, (forall y, List.In y l -> least x l <= y) /\ least x l <= x /\ (least x l = x \/ List.In (least x l) l)).
  { induction l as [|a l IH]; intros x; [simpl; repeat split; auto; try lra; tauto|].
    change (least x (a :: l)) with (least (lesser x a) l). destruct (IH (lesser x a)) as (A & B & C).
    assert (lesser x a <= x /\ lesser x a <= a /\ (lesser x a = x \/ lesser x a = a)) as (D & E & F) by (unfold lesser; rifs; lra).
    repeat split; [|lra|].
    - intros y [<-|H]; [lra|auto].
    - destruct C as [C|C]; [|right; right; exact C]. destruct F as [F|F]; rewrite C, F; [auto|right; left; auto]. }
  intros l x N H. destruct (G l x) as (A & B & C). split; [exact A|]. destruct C as [C|C]; [|exact C].
  destruct l as [|a l]; [congruence|]. assert (a = x). { specialize (A a (or_introl eq_refl)). specialize (H a (or_introl eq_refl)). lra. }
  left. lra.
Qed.
Lemma greatest_spec : forall l x, l <> [] -> (forall y, List.In y l -> x <= y) -> (forall y, List.In y l -> y <= greatest x l) /\ List.In (greatest x l) l.
Proof.
  assert (G : forall l x, (forall y, List.In y l -> y <= greatest x l) /\ x <= greatest x l /\ (greatest x l = x \/ List.In (greatest x l) l)).
  { induction l as [|a l IH]; intros x; [simpl; repeat split; auto; try lra; tauto|].
    change (greatest x (a :: l)) with (greatest (greater x a) l). destruct (IH (greater x a)) as (A & B & C).
    assert (x <= greater x a /\ a <= greater x a /\ (greater x a = x \/ greater x a = a)) as (D & E & F) by (unfold greater; rifs; lra).
    repeat split; [|lra|].
    - intros y [<-|H]; [lra|auto].
    - destruct C as [C|C]; [|right; right; exact C]. destruct F as [F|F]; rewrite C, F; [auto|right; left; auto]. }
  intros l x N H. destruct (G l x) as (A & B & C). split; [exact A|]. destruct C as [C|C]; [|exact C].
  destruct l as [|a l]; [congruence|]. assert (a = x). { specialize (A a (or_introl eq_refl)). specialize (H a (or_introl eq_refl)). lra. }
  left. lra.
Qed.
Lemma C35_box_ok : forall k M, length k = 32%nat -> length M = 16%nat ->
  (forall p i, List.In p (images M k) -> (i < 3)%nat -> - flt_max <= at_ p i <= flt_max) ->
  exists b, length b = 6%nat /\ computes RS glm_frustum_box [In (fl k); In (fl M); Out 6] VVoid [fl b] /\ tight (images M k) b.
Proof.
  intros k M Lk LM H. rewrite flt_max_eq in H. eexists. split; [|split; [apply box_calc; auto|]]; [reflexivity|].
  intros i Hi.
  assert (Q : map (fun j => at_ (mvec 4 4 M (firstn 4 (skipn (4 * j) k))) i) (seq 0 8) = map (fun p => at_ p i) (images M k)) by (unfold images; rewrite map_map; reflexivity).
  destruct (least_spec (map (fun p => at_ p i) (images M k)) fmax) as [A B]; [discriminate| |].
  { intros y Hy. apply in_map_iff in Hy. destruct Hy as (p & <- & Hp). apply (H p i Hp Hi). }
  destruct (greatest_spec (map (fun p => at_ p i) (images M k)) (- fmax)) as [C D]; [discriminate| |].
  { intros y Hy. apply in_map_iff in Hy. destruct Hy as (p & <- & Hp). apply (H p i Hp Hi). }
  apply in_map_iff in B. apply in_map_iff in D.
  assert (forall l u, (forall p, List.In p (images M k) -> l <= at_ p i) -> (exists p, at_ p i = l /\ List.In p (images M k)) ->
     (forall p, List.In p (images M k) -> at_ p i <= u) -> (exists p, at_ p i = u /\ List.In p (images M k)) -> 
   (forall p, List.In p (images M k) -> l <= at_ p i <= u) /\
  (exists p, List.In p (images M k) /\ at_ p i = l) /\ (exists p, List.In p (images M k) /\ at_ p i = u)) as Z.
  { intros l u X1 (p & E & I) X2 (q & F & J). repeat split; auto; [exists p | exists q]; auto. }
  rewrite <- Q in A, C.
  assert (A' : forall p, List.In p (images M k) -> least fmax (map (fun j => at_ (mvec 4 4 M (firstn 4 (skipn (4 * j) k))) i) (seq 0 8)) <= at_ p i).
  { intros p Hp. apply A. rewrite Q. apply in_map_iff. eauto. }
  assert (C' : forall p, List.In p (images M k) -> at_ p i <= greatest (- fmax) (map (fun j => at_ (mvec 4 4 M (firstn 4 (skipn (4 * j) k))) i) (seq 0 8))).
  { intros p Hp. apply C. rewrite Q. apply in_map_iff. eauto. }
  rewrite <- Q in B, D. specialize (Z _ _ A' B C' D). clear - Z Hi.
  do 3 (destruct i as [|i]; [exact Z|]). lia.
Qed.
Lemma C35_box_ex : let M := [1;0;0;0; 0;1;0;0; 0;0;1;0; 1;2;3;1] in let k := flat_map (fun i => cube_corner i ++ [1]) (seq 0 8) in
  length k = 32%nat /\ length M = 16%nat /\ (forall p i, List.In p (images M k) -> (i < 3)%nat -> - flt_max <= at_ p i <= flt_max) /\
  tight (images M k) [0; 1; 2; 2; 3; 4].
Proof.
  cbv zeta. rewrite flt_max_eq. unfold images, cube_corner. lcbv. split; [reflexivity|]. split; [reflexivity|]. split.
  - intros p i H Hi. repeat (destruct H as [<-|H]; [do 3 (destruct i as [|i]; [lcbv; lra|]); lia|]). destruct H.
  - intros i Hi. do 3 (destruct i as [|i]; [split; [intros p H; repeat (destruct H as [<-|H]; [lcbv; lra|]); destruct H | split; [eexists; split; [left; reflexivity|lcbv; lra] | eexists; split; [right; right; right; right; right; right; left; reflexivity|lcbv; lra]]]|]).
    lia.
Qed.
