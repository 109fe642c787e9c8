(** * Interpolation of quaternions; shortest rotations (C25, C26) *)

From Coq Require Import String List ZArith Bool Reals Lra Lia.
From Verif.Proofs Require Import AffTac Affine Quat.
(* props: From Verif.Spec Require Import Linear Geometry Affine Client. *)
From Verif.Spec Require Import Quaternion ScalarSpec.
Import ListNotations.
Local Open Scope R_scope.

(** ** C25 *)
(** away from parallel: the combination of (plus or minus) [from] and [to] with sine weights *)
Lemma C25_slerp_ok : forall p q t, length p = 4%nat -> length q = 4%nat -> Rabs (rdot p q) < 1 ->
  1 / 1000 <= sqrt (1 - Rabs (rdot p q) * Rabs (rdot p q)) ->
  computes RS glm_quat_slerp [InA (fl p); InA (fl q); Val (VF t); Out 4] VVoid [fl (sphere_mix p q t)].
Proof.
  intros p q t L1 L2. un4 p a b c d. un4 q x y z w. unfold sphere_mix. cbv zeta. intros H1 H2.
  assert (0 <= Rabs (rdot [a; b; c; d] [x; y; z; w])) as P by apply Rabs_pos.
  rewrite sin_acos by lra.
  unfold Rsqr, sign_of. revert H1 H2 P. lcbv. intros H1 H2 P.
  symr; rprep; (lazymatch type of H1 with Rabs ?u < 1 => generalize dependent u end); intros u H1 H2 P;
  assert (U : (if Rltb u 0 then - u else u) = Rabs u) by (rifs; [rewrite Rabs_left | rewrite Rabs_right]; lra);
  rewrite ?U; assert (S : sqrt (1 - Rabs u * Rabs u) >= 0) by lra; rewrite ?(Rabs_right _ S); clear U S;
  generalize dependent (acos (Rabs u)); intros th;
  assert (D : 0 <= 1 - Rabs u * Rabs u) by nra;
  generalize dependent (sqrt (1 - Rabs u * Rabs u)); intros s H2; generalize dependent (Rabs u); intros v H1 P D;
  rifs; simpl; try reflexivity; try (exfalso; lra); unfold Rdiv; cells ltac:(try ring).
Qed.
Lemma sine_weights : forall a b, sin a * sin a + sin b * sin b + 2 * sin a * sin b * cos (a + b) = sin (a + b) * sin (a + b).
Proof.
  intros. rewrite cos_plus, sin_plus. pose proof (sin2_cos2 a) as A. pose proof (sin2_cos2 b) as B. unfold Rsqr in *.
  assert (cos a * cos a = 1 - sin a * sin a) as A' by lra. assert (cos b * cos b = 1 - sin b * sin b) as B' by lra.
  ring [A' B'].
Qed.
(** which for unit quaternions has unit length, starts at (plus or minus) [from] and ends at [to] *)
Lemma C25_unit_ok : forall p q t, length p = 4%nat -> length q = 4%nat -> norm2 p = 1 -> norm2 q = 1 -> Rabs (rdot p q) < 1 ->
  norm2 (sphere_mix p q t) = 1 /\ sphere_mix p q 0 = vscale (sign_of (rdot p q)) p /\ sphere_mix p q 1 = q.
Proof.
  intros p q t L1 L2 N1 N2 H. assert (P : 0 <= Rabs (rdot p q)) by apply Rabs_pos.
  assert (C : cos (acos (Rabs (rdot p q))) = Rabs (rdot p q)) by (apply cos_acos; lra).
  assert (S : 0 < sin (acos (Rabs (rdot p q)))).
  { rewrite sin_acos by lra. apply sqrt_lt_R0. unfold Rsqr. nra. }
  assert (G : sign_of (rdot p q) * rdot p q = Rabs (rdot p q)).
  { unfold sign_of. destruct Rlt_dec; [rewrite Rabs_left | rewrite Rabs_right]; lra. }
  assert (G2 : sign_of (rdot p q) * sign_of (rdot p q) = 1) by (unfold sign_of; destruct Rlt_dec; lra).
  unfold sphere_mix. cbv zeta. set (th := acos (Rabs (rdot p q))) in *.
  split; [|split].
  - pose proof (sine_weights ((1 - t) * th) (t * th)) as W. replace ((1 - t) * th + t * th) with th in W by ring. rewrite C in W.
    set (A := sin ((1 - t) * th)) in *. set (B := sin (t * th)) in *. set (s := sin th) in *. clearbody A B s.
    transitivity ((A * A * norm2 p * (sign_of (rdot p q) * sign_of (rdot p q)) + B * B * norm2 q + 2 * A * B * (sign_of (rdot p q) * rdot p q)) / (s * s)).
    + clearbody th. clear - L1 L2 S. generalize (sign_of (rdot p q)). intros g. un4 p a b c d. un4 q x y z w. lcbv. field. lra.
    + rewrite N1, N2, G, G2. replace (A * A * 1 * 1 + B * B * 1 + 2 * A * B * Rabs (rdot p q)) with (s * s) by lra. field. lra.
  - replace ((1 - 0) * th) with th by ring. replace (0 * th) with 0 by ring. rewrite sin_0. unfold Rdiv. rewrite Rinv_r by lra.
    clear - L1 L2. generalize (/ sin th), (sign_of (rdot p q)). intros. un4 p a b c d. un4 q x y z w. lcbv. cells ltac:(ring).
  - replace ((1 - 1) * th) with 0 by ring. replace (1 * th) with th by ring. rewrite sin_0. unfold Rdiv. rewrite Rinv_r by lra.
    clear - L1 L2. generalize (/ sin th), (sign_of (rdot p q)). intros. un4 p a b c d. un4 q x y z w. lcbv. cells ltac:(ring).
Qed.
Lemma C25_ex : let p := [1; 0; 0; 0] in let q := [-3/5; 4/5; 0; 0] in
  norm2 p = 1 /\ norm2 q = 1 /\ Rabs (rdot p q) < 1 /\ 1 / 1000 <= sqrt (1 - Rabs (rdot p q) * Rabs (rdot p q)).
Proof.
  cbv zeta. assert (E : rdot [1; 0; 0; 0] [-3/5; 4/5; 0; 0] = - (3/5)) by (lcbv; field). rewrite E, Rabs_Ropp, Rabs_right by lra.
  replace (1 - 3/5 * (3/5)) with (4/5 * (4/5)) by field. rewrite sqrt_square by lra. repeat split; lcbv; lra.
Qed.
(** parallel: [from]; nearly parallel or nearly opposite: straight-line interpolation of [from] and [to] *)
Lemma C25_parallel_ok : forall p q t, length p = 4%nat -> length q = 4%nat -> 1 <= Rabs (rdot p q) ->
  computes RS glm_quat_slerp [InA (fl p); InA (fl q); Val (VF t); Out 4] VVoid [fl p].
Proof.
  intros p q t L1 L2. un4 p a b c d. un4 q x y z w. lcbv. intros H.
  symr; rprep; rifs; try (exfalso; lra); try reflexivity.
Qed.
Lemma C25_nearly_ok : forall p q t, length p = 4%nat -> length q = 4%nat -> Rabs (rdot p q) < 1 ->
  sqrt (1 - Rabs (rdot p q) * Rabs (rdot p q)) < 1 / 1000 ->
  computes RS glm_quat_slerp [InA (fl p); InA (fl q); Val (VF t); Out 4] VVoid [fl (mix p q t)].
Proof.
  intros p q t L1 L2. un4 p a b c d. un4 q x y z w. unfold mix. intros H1 H2.
  assert (0 <= Rabs (rdot [a; b; c; d] [x; y; z; w])) as P by apply Rabs_pos.
  revert H1 H2 P. lcbv. intros H1 H2 P.
  symr; rprep; (lazymatch type of H1 with Rabs ?u < 1 => generalize dependent u end); intros u H1 H2 P;
  assert (U : (if Rltb u 0 then - u else u) = Rabs u) by (rifs; [rewrite Rabs_left | rewrite Rabs_right]; lra);
  rewrite ?U; assert (S : sqrt (1 - Rabs u * Rabs u) >= 0) by (apply Rle_ge, sqrt_pos); rewrite ?(Rabs_right _ S); clear U;
  generalize dependent (acos (Rabs u)); intros th;
  assert (D : 0 <= 1 - Rabs u * Rabs u) by nra;
  generalize dependent (sqrt (1 - Rabs u * Rabs u)); intros s H2 S; generalize dependent (Rabs u); intros v H1 P D;
  rifs; simpl; try reflexivity; try (exfalso; lra); unfold Rdiv; cells ltac:(try ring).
Qed.
(** so for nearly opposite unit quaternions the result can be far from unit length *)
Lemma C25_antipodal_refuted_ok : exists p q t r, length p = 4%nat /\ length q = 4%nat /\ length r = 4%nat /\ norm2 p = 1 /\ norm2 q = 1 /\
  computes RS glm_quat_slerp [InA (fl p); InA (fl q); Val (VF t); Out 4] VVoid [fl r] /\ norm2 r < 1 / 1000000.
Proof.
  set (u := 100000001). exists [1; 0; 0; 0], [- (99999999 / u); 20000 / u; 0; 0], (1/2), (mix [1; 0; 0; 0] [- (99999999 / u); 20000 / u; 0; 0] (1/2)).
  assert (Q : rdot [1; 0; 0; 0] [- (99999999 / u); 20000 / u; 0; 0] = - (99999999 / u)) by (lcbv; unfold u; field).
  repeat split.
  - lcbv; ring.
  - unfold u; lcbv; field.
  - apply C25_nearly_ok; auto; rewrite Q, Rabs_Ropp, Rabs_right by (unfold u; lra). unfold u; lra.
    replace (1 - 99999999 / u * (99999999 / u)) with ((20000 / u) * (20000 / u)) by (unfold u; field).
    rewrite sqrt_square by (unfold u; lra). unfold u; lra.
  - unfold mix, u. lcbv. lra.
Qed.
Lemma C25_lerp_ok :
  (forall p q t, length p = 4%nat -> length q = 4%nat ->
     computes RS glm_quat_lerp [InA (fl p); InA (fl q); Val (VF t); Out 4] VVoid [fl (mix p q t)]).
Proof. unfold mix. ago. Qed.
(** glm_quat_nlerp: normalised straight-line interpolation with the sign flip *)
Lemma C25_nlerp_ok : forall p q t, length p = 4%nat -> length q = 4%nat ->
  computes RS glm_quat_nlerp [In (fl p); In (fl q); Val (VF t); Out 4] VVoid
    [fl (qnormalized (mix p (vscale (sign_of (rdot p q)) q) t))].
Proof.
  intros p q t L1 L2. un4 p a b c d. un4 q x y z w. unfold mix, sign_of. lcbv.
  match goal with |- context [qnormalized [?a; ?b; ?c; ?d]] => destruct (qn4 a b c d) as (e & f & g & h & E & X & Y & Z & W) end.
  rewrite E. clear E. revert X Y Z W. cbv zeta. intros X Y Z W. subst e f g h.
  assert (V : Rleb 0 (a * x + b * y + c * z + d * w) = if Rlt_dec (a * x + b * y + c * z + d * w) 0 then false else true).
  { destruct Rlt_dec; [apply Rleb_false | apply Rleb_true]; lra. }
  symr; rprep; rewrite ?V; destruct Rlt_dec; try apply qn_dom; try domain;
    replace (-1 * x) with (x * - (1)) by ring; replace (-1 * y) with (y * - (1)) by ring;
    replace (-1 * z) with (z * - (1)) by ring; replace (-1 * w) with (w * - (1)) by ring;
    rewrite ?(Rmult_comm 1); rifs; cells ltac:(try ring); try reflexivity.
Qed.
(** ** C26 *)
Lemma Int_part_spec : forall r z, IZR z <= r < IZR z + 1 -> z = Int_part r.
Proof.
  intros r z H. destruct (base_Int_part r) as [A B]. apply Z.le_antisymm; apply Zlt_succ_le, lt_IZR; rewrite succ_IZR; lra.
Qed.
Lemma squares3 : forall p q r, p * p + q * q + r * r = 0 -> p = 0 /\ q = 0.
Proof.
  intros p q r H. pose proof (Rle_0_sqr p). pose proof (Rle_0_sqr q). pose proof (Rle_0_sqr r). unfold Rsqr in *.
  split; apply Rsqr_0_uniq; unfold Rsqr; lra.
Qed.
Definition hface (v : list R) : R := Rabs (at_ v 0) + 1 / 2 - Rtrunc (Rabs (at_ v 0) + 1 / 2).
Definition ortho (v : list R) : list R := [- at_ v 1; at_ v 0 - hface v * at_ v 2; hface v * at_ v 1].
Lemma ortho_calc : forall v, length v = 3%nat -> computes RS glm_vec3_ortho [InA (fl v); Out 3] VVoid [fl (ortho v)].
Proof. intros v L. un3 v x y z. unfold ortho, hface. symr; rprep. Qed.
Lemma ortho_facts : forall v, length v = 3%nat -> rdot v (ortho v) = 0 /\ (norm2 v = 1 -> norm2 (ortho v) <> 0).
Proof.
  intros v L. un3 v x y z. unfold ortho.
  assert (F : (Rabs x < 1/2 -> hface [x; y; z] = Rabs x + 1/2) /\ (1/2 <= Rabs x < 3/2 -> hface [x; y; z] = Rabs x - 1/2)).
  { unfold hface. lcbv. assert (P : 0 <= Rabs x) by apply Rabs_pos. generalize dependent (Rabs x). intros a P.
    unfold Rtrunc, Rfloor. rewrite (proj2 (Rltb_false _ _)) by lra.
    split; intros H.
    - replace (Int_part (a + 1/2)) with 0%Z; [lra|]. apply Int_part_spec. lra.
    - replace (Int_part (a + 1/2)) with 1%Z; [lra|]. apply Int_part_spec. lra. }
  generalize dependent (hface [x; y; z]). intros f [F1 F2]. lcbv. split; [ring|]. intros U Z.
  apply squares3 in Z. destruct Z as [Y X]. assert (y = 0) by lra. subst y. assert (x = f * z) as X' by lra. clear X Y. rename X' into X.
  assert (Q : Rabs x = f * Rabs z \/ Rabs x = - (f * Rabs z)).
  { rewrite X, Rabs_mult. destruct (Rcase_abs f); [right; rewrite (Rabs_left f) by auto | left; rewrite (Rabs_right f) by auto]; ring. }
  assert (A : Rabs x * Rabs x + Rabs z * Rabs z = 1).
  { rewrite <- !Rabs_mult, !Rabs_right by nra. lra. }
  assert (Px : 0 <= Rabs x) by apply Rabs_pos. assert (Pz : 0 <= Rabs z) by apply Rabs_pos.
  generalize dependent (Rabs x). generalize dependent (Rabs z). intros c Pc a. intros.
  destruct (Rlt_dec a (1/2)) as [K|K].
  - rewrite (F1 K) in Q. destruct Q; nra.
  - assert (a <= 1) by nra. rewrite F2 in Q by lra. assert (c <= 1) by nra. destruct Q; nra.
Qed.
(** glm_vec3_ortho: orthogonal to its input (also in place), and not zero if the input is a unit vector *)
Lemma C26_ortho_ok : forall v, length v = 3%nat -> exists o, length o = 3%nat /\
  computes RS glm_vec3_ortho [InA (fl v); Out 3] VVoid [fl o] /\ rdot v o = 0 /\ (norm2 v = 1 -> norm2 o <> 0).
Proof.
  intros v L. exists (ortho v). split; [reflexivity|]. split; [apply ortho_calc; auto|]. apply ortho_facts; auto.
Qed.
(** but it is zero for some non-zero vectors *)
Lemma C26_ortho_zero_refuted_ok : exists v, length v = 3%nat /\ norm2 v <> 0 /\
  computes RS glm_vec3_ortho [InA (fl v); Out 3] VVoid [fl [0; 0; 0]].
Proof.
  exists [1/4; 0; 1/3]. split; [reflexivity|]. split; [lcbv; lra|].
  replace [0; 0; 0] with (ortho [1/4; 0; 1/3]). apply ortho_calc; auto.
  unfold ortho, hface, Rtrunc, Rfloor. lcbv. rewrite Rabs_right by lra. rewrite (proj2 (Rltb_false _ _)) by lra.
  replace (Int_part (1/4 + 1/2)) with 0%Z by (apply Int_part_spec; lra). cells ltac:(field).
Qed.
(** unit vectors that are neither nearly equal nor nearly opposite: a unit quaternion rotating the
    first onto the second *)
Lemma C26_from_vecs_ok : forall a b, length a = 3%nat -> length b = 3%nat -> norm2 a = 1 -> norm2 b = 1 ->
  -1 + tol <= rdot a b < 1 - tol -> exists q, length q = 4%nat /\
  computes RS glm_quat_from_vecs [In (fl a); In (fl b); Out 4] VVoid [fl q] /\ norm2 q = 1 /\ qrot q a = b.
Proof.
  intros a b La Lb Na Nb H.
  set (u := quat (vcross a b) (1 + rdot a b)).
  assert (N : norm2 u = 2 * (1 + rdot a b)).
  { clear H. unfold u. revert Na Nb. un3 a a0 a1 a2. un3 b b0 b1 b2. qu. lcbv. intros Na Nb.
    assert (A : a0 * a0 = 1 - a1 * a1 - a2 * a2) by lra. assert (B : b0 * b0 = 1 - b1 * b1 - b2 * b2) by lra. ring [A B]. }
  assert (Lu : length u = 4%nat) by reflexivity.
  assert (P : 0 < norm2 u) by (rewrite N; unfold tol in H; lra).
  exists (qnormalized u). split; [apply qnormalized_len; auto|]. split; [|split; [apply qnormalized_unit; auto|]].
  - clear N P. unfold u in *. clear Lu. revert H. un3 a a0 a1 a2. un3 b b0 b1 b2. qu. lcbv. unfold tol. intros H.
    match goal with |- context [qnormalized [?a; ?b; ?c; ?d]] => destruct (qn4 a b c d) as (e & f & g & h & E & X & Y & Z & W) end.
    rewrite E. clear E. revert X Y Z W. cbv zeta. intros X Y Z W.
    assert (O1 : Rleb (1 - 1 / 100000) (a0 * b0 + a1 * b1 + a2 * b2) = false) by (apply Rleb_false; lra).
    assert (O2 : Rltb (- (1) + 1 / 100000) 0 = true) by (apply Rltb_true; lra).
    assert (O3 : Rltb (a0 * b0 + a1 * b1 + a2 * b2) (- (1) + 1 / 100000) = false) by (apply Rltb_false; lra).
    symr; rprep; rewrite ?O1, ?O3; try apply qn_dom; try reflexivity; try (reqs; sq0); rewrite ?X, ?Y, ?Z, ?W; try reflexivity.
    all: try domain.
  - unfold qnormalized. destruct Req_EM_T; [lra|].
    transitivity (vscale (/ (norm u * norm u)) (qrot u a)).
    + generalize (/ norm u) (/ (norm u * norm u)) (Rinv_mult (norm u) (norm u)). intros i j Ej. rewrite Ej. clear - La Lu.
      generalize dependent u. intros. qalg.
    + rewrite norm_sq, N.
      transitivity (vscale (/ (2 * (1 + rdot a b))) (vscale (2 * (1 + rdot a b)) b)).
      * f_equal. clear - La Lb Na Nb. unfold u. revert Na Nb. un3 a a0 a1 a2. un3 b b0 b1 b2. qu. lcbv. intros Na Nb.
        assert (A : a0 * a0 = 1 - a1 * a1 - a2 * a2) by lra. assert (B : b0 * b0 = 1 - b1 * b1 - b2 * b2) by lra. cells ltac:(ring [A B]).
      * rewrite N in P. generalize dependent (2 * (1 + rdot a b)). intros. un3 b b0 b1 b2. lcbv. cells ltac:(field; lra).
Qed.
Lemma C26_from_vecs_ex : norm2 [1; 0; 0] = 1 /\ norm2 [3/5; 4/5; 0] = 1 /\ -1 + tol <= rdot [1; 0; 0] [3/5; 4/5; 0] < 1 - tol.
Proof. unfold tol. lcbv. lra. Qed.
(** nearly equal: the identity *)
Lemma C26_equal_ok : forall a b, length a = 3%nat -> length b = 3%nat -> 1 - tol <= rdot a b ->
  computes RS glm_quat_from_vecs [In (fl a); In (fl b); Out 4] VVoid [fl qone].
Proof.
  intros a b La Lb. un3 a a0 a1 a2. un3 b b0 b1 b2. unfold tol, qone. lcbv. intros H.
  assert (O1 : Rleb (1 - 1 / 100000) (a0 * b0 + a1 * b1 + a2 * b2) = true) by (apply Rleb_true; lra).
  symr; rprep; rewrite ?O1; reflexivity.
Qed.
(** nearly opposite unit vectors: half a turn about an axis orthogonal to the first, which goes to
    its opposite *)
Lemma C26_opposite_ok : forall a b, length a = 3%nat -> length b = 3%nat -> norm2 a = 1 -> rdot a b < -1 + tol ->
  exists q, length q = 4%nat /\ computes RS glm_quat_from_vecs [In (fl a); In (fl b); Out 4] VVoid [fl q] /\
  norm2 q = 1 /\ re q = 0 /\ qrot q a = neg a.
Proof.
  intros a b La Lb Na H. destruct (ortho_facts a La) as (D & Z). specialize (Z Na). assert (Lo : length (ortho a) = 3%nat) by reflexivity.
  set (u := quat (ortho a) 0).
  assert (Lu : length u = 4%nat) by reflexivity.
  assert (Nu : norm2 u = norm2 (ortho a)). { unfold u, quat. generalize dependent (ortho a). intros o. intros. un3 o x y z. lcbv. ring. }
  exists (qnormalized u). split; [apply qnormalized_len; auto|]. split; [|split; [apply qnormalized_unit; auto|]].
  - unfold u. clear - La Lb H. unfold ortho, hface. revert H. un3 a a0 a1 a2. un3 b b0 b1 b2. qu. lcbv. unfold tol. intros H.
    match goal with |- context [qnormalized [?a; ?b; ?c; ?d]] => destruct (qn4 a b c d) as (e & f & g & h & E & X & Y & Z & W) end.
    rewrite E. clear E. revert X Y Z W. cbv zeta. intros X Y Z W.
    assert (O1 : Rleb (1 - 1 / 100000) (a0 * b0 + a1 * b1 + a2 * b2) = false) by (apply Rleb_false; lra).
    assert (O3 : Rltb (a0 * b0 + a1 * b1 + a2 * b2) (- (1) + 1 / 100000) = true) by (apply Rltb_true; lra).
    symr; rprep; rewrite ?O1, ?O3; try apply qn_dom; try reflexivity; try (reqs; sq0); rewrite ?X, ?Y, ?Z, ?W; try reflexivity.
    all: try domain.
  - unfold qnormalized. destruct Req_EM_T; [congruence|]. split. { generalize (/ norm u). intros i. clear - Lo. unfold u. generalize dependent (ortho a). intros o L. un3 o x y z. qu. lcbv. ring. }
    transitivity (vscale (/ (norm u * norm u)) (qrot u a)).
    + generalize (/ norm u) (/ (norm u * norm u)) (Rinv_mult (norm u) (norm u)). intros i j Ej. rewrite Ej. clear - La Lu.
      generalize dependent u. intros. qalg.
    + rewrite norm_sq.
      transitivity (vscale (/ norm2 u) (vscale (norm2 u) (neg a))).
      * f_equal. rewrite Nu. unfold u. clear - La Lo D. revert Lo D. generalize (ortho a). intros o Lo D.
        transitivity (vsub (vscale (2 * rdot a o) o) (vscale (norm2 o) a)); [clear D; qalg|rewrite D; clear D; unfold neg; qalg].
      * generalize dependent (norm2 u). clear - La. intros. un3 a x y z. unfold neg. lcbv. cells ltac:(field; auto).
Qed.
Lemma C26_opposite_ex : norm2 [0; 1; 0] = 1 /\ rdot [0; 1; 0] [0; -1; 0] < -1 + tol.
Proof. unfold tol. lcbv. lra. Qed.
