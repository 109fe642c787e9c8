(** * Where the SIMD builds need a separate treatment (C04, C08, C21, C55) *)

From Coq Require Import String List ZArith Bool Reals Lra Lia.
From Verif Require Import MiniC RScalar Contract Cglm Sym SymCall.
From Verif.Proofs Require Import AffTac Affine.
From Verif.Spec Require Import Linear Geometry Affine Client Agree Types Builds Quaternion Gap.
From Verif.Proofs Require Import RExact SimdTac VecNorm VecRot Quat RNormSound.
From Verif.Simd Require Import sse2 avx fma neon neon32 wasm.
Import ListNotations.
Local Open Scope R_scope.
(* props: From Verif.Spec Require Import Linear Geometry Affine Client Agree Types Quaternion Gap. *)
(* props: From Verif.Simd Require Import sse2 avx fma neon neon32 wasm. *)

Lemma agree_computes : forall S f g args r o, computes S f args r o -> computes S g args r o -> agree S f g args.
Proof. intros S f g args r o H1 H2 m ps L. rewrite (H1 m ps L), (H2 m ps L). reflexivity. Qed.
Lemma computes_agree : forall S f g args r o, agree S f g args -> computes S f args r o -> computes S g args r o.
Proof. intros S f g args r o H1 H2 m ps L. rewrite <- (H1 m ps L). apply H2. auto. Qed.
Ltac ragrees := apply (ragreeb_ok [] 30%nat); vm_cast_no_check (eq_refl true).
Ltac fit := repeat (constructor; [cbn [fits cells]; eauto 10|]); constructor.

(** ** C55: the largest absolute value *)

Lemma pick_max : forall x y, (if Rltb x y then y else x) = Rmax x y.
Proof. intros. unfold Rmax. destruct (Rltb x y) eqn:E, (Rle_dec x y); auto; [apply Rltb_true in E|apply Rltb_false in E]; lra. Qed.
Definition linf (x : list R) : R := fold_right (fun a m => Rmax (Rabs a) m) 0 x.
Ltac linf_tac := intros; unlists; symr; rprep; rewrite ?pick_max; f_equal; unfold linf; cbn [fold_right];
  repeat match goal with |- context [Rabs ?a] => pose proof (Rabs_pos a); generalize dependent (Rabs a); intros end;
  unfold Rmax; repeat destruct (Rle_dec _ _); lra.
Lemma linf_scalar : forall x, length x = 4%nat -> computes RS glm_vec4_norm_inf [InA (fl x)] (VF (linf x)) [].
Proof. linf_tac. Qed.
(** every build of glm_vec4_norm_inf returns the same over the reals *)
Lemma C55_norm_inf_ok : Forall (fun g => forall x, length x = 4%nat -> agree RS glm_vec4_norm_inf g [InA (fl x)])
  [sse2_glm_vec4_norm_inf; avx_glm_vec4_norm_inf; fma_glm_vec4_norm_inf; neon_glm_vec4_norm_inf; neon32_glm_vec4_norm_inf; wasm_glm_vec4_norm_inf].
Proof. repeat constructor; intros x L; (eapply agree_computes; [apply linf_scalar; auto | revert x L; linf_tac]). Qed.

(** ** C04 *)

Ltac sqz := try match goal with E : sqrt ?x = 0 |- _ => exfalso; assert (0 < sqrt x) by (apply sqrt_lt_R0; lra); lra end.
Lemma sse_normalize : forall x, length x = 4%nat -> computes RS sse2_glm_vec4_normalize_to [InA (fl x); Out 4] VVoid [fl (normalized_sq x)].
Proof. rexec. all: unfold normalized_sq; rcells; sqz. Qed.
Lemma sse_rotate_m3 : forall x y z v, length x = 3%nat -> length y = 3%nat -> length z = 3%nat -> length v = 3%nat ->
  computes RS sse2_glm_vec3_rotate_m3 [In (fl (x ++ y ++ z)); InA (fl v); Out 3] VVoid
    [fl (mvec 3 3 (normalized_sq x ++ normalized_sq y ++ normalized_sq z) v)].
Proof. rexec. all: unfold normalized_sq; tidy. all: rcells; sqz.  Qed.
Lemma sse_rotate_m4 : forall x y z w v, length x = 4%nat -> length y = 4%nat -> length z = 4%nat -> length w = 4%nat -> length v = 3%nat ->
  computes RS sse2_glm_vec3_rotate_m4 [In (fl (x ++ y ++ z ++ w)); InA (fl v); Out 3] VVoid
    [fl (firstn 3 (mvec 3 4 (normalized_sq x ++ normalized_sq y ++ normalized_sq z) v))].
Proof. rexec. all: unfold normalized_sq; tidy. all: rcells; sqz. Qed.

Lemma fl_inj : forall (a b : list R), fl a = fl b -> a = b.
Proof. unfold fl. induction a; destruct b; simpl; intros H; try discriminate; auto. injection H. intros. f_equal; auto. Qed.

Lemma gap_same : forall x, ~ in_gap x -> normalized x = normalized_sq x.
Proof.
  intros x H. unfold normalized, normalized_sq, in_gap in *. pose proof (norm2_nonneg x) as P.
  assert (E : norm x * norm x = norm2 x) by (apply sqrt_sqrt; auto).
  assert (0 <= norm x) by apply sqrt_pos. pose proof eps_pos. assert (eps < 1) by (unfold eps; lra).
  destruct (Rlt_dec (norm x) eps), (Rlt_dec (norm2 x) eps); auto.
  - exfalso. nra.
  - exfalso. apply H. lra.
Qed.
Lemma via : forall f g ps args r o, agree_on RS (f, g, ps) -> Forall2 fits ps args -> computes RS f args r o -> computes RS g args r o.
Proof. intros f g ps args r o A F C. exact (computes_agree _ _ _ _ _ _ (A args F) C). Qed.
(** SSE2, AVX, FMA and WebAssembly builds: the squared length is compared with FLT_EPSILON *)
Lemma C04_normalize_ok :
  Forall (fun f => forall x, length x = 4%nat -> computes RS f [InA (fl x); Out 4] VVoid [fl (normalized_sq x)])
    [sse2_glm_vec4_normalize_to; avx_glm_vec4_normalize_to; fma_glm_vec4_normalize_to; wasm_glm_vec4_normalize_to] /\
  Forall (fun f => forall x, length x = 4%nat -> computes RS f [InOut (fl x)] VVoid [fl (normalized_sq x)])
    [sse2_glm_vec4_normalize; avx_glm_vec4_normalize; fma_glm_vec4_normalize; wasm_glm_vec4_normalize].
Proof.
  assert (N : forall x, length x = 4%nat -> computes RS sse2_glm_vec4_normalize [InOut (fl x)] VVoid [fl (normalized_sq x)]).
  { rexec. all: unfold normalized_sq; rcells; sqz. }
  split; repeat constructor; intros x L; try (apply sse_normalize; auto); try (apply N; auto).
  all: try (apply (via sse2_glm_vec4_normalize_to _ [Reads Flt 4; Writes 4]); [ragrees|fit|apply sse_normalize; auto]).
  all: apply (via sse2_glm_vec4_normalize _ [Updates Flt 4]); [ragrees|fit|apply N; auto].
Qed.
(** scalar and both NEON builds: the length is compared *)
Lemma C04_scalar_neon_ok :
  Forall (fun f => forall x, length x = 4%nat -> computes RS f [InA (fl x); Out 4] VVoid [fl (normalized x)])
    [glm_vec4_normalize_to; neon_glm_vec4_normalize_to; neon32_glm_vec4_normalize_to] /\
  Forall (fun f => forall x, length x = 4%nat -> computes RS f [InOut (fl x)] VVoid [fl (normalized x)])
    [glm_vec4_normalize; neon_glm_vec4_normalize; neon32_glm_vec4_normalize].
Proof.
  split; repeat constructor; intros x L; try (apply C03_normalize_to_ok; auto); try (apply C03_normalize_ok; auto).
  all: try (apply (via glm_vec4_normalize_to _ [Reads Flt 4; Writes 4]); [ragrees|fit|apply C03_normalize_to_ok; auto]).
  all: apply (via glm_vec4_normalize _ [Updates Flt 4]); [ragrees|fit|apply C03_normalize_ok; auto].
Qed.
(** the two thresholds give the same vector exactly when the length is outside the gap;
    inside it one is zero and the other a unit vector *)
Lemma C04_gap_ok : forall x, (in_gap x <-> normalized x <> normalized_sq x) /\
  (~ in_gap x <-> norm x < eps \/ eps <= norm2 x) /\
  (in_gap x -> norm (normalized x) = 1 /\ norm (normalized_sq x) = 0).
Proof.
  assert (Z : forall x, in_gap x -> norm (normalized x) = 1 /\ norm (normalized_sq x) = 0).
  { intros x [H1 H2]. split.
    - unfold normalized. destruct (Rlt_dec (norm x) eps); [lra|]. pose proof eps_pos. rewrite norm_map_div by lra. field. lra.
    - unfold normalized_sq. destruct (Rlt_dec (norm2 x) eps); [|lra]. unfold norm, norm2.
      replace (rdot (map (fun _ => 0) x) (map (fun _ => 0) x)) with 0; [apply sqrt_0|].
      unfold rdot, total. clear. destruct x as [|a x]; simpl; auto. cut (forall r, r = 0 -> 0 = fold_left Rplus (map (fun p => fst p * snd p) (combine (map (fun _ => 0) x) (map (fun _ => 0) x))) r).
      { intros H. apply H. ring. }
      induction x; simpl; intros; auto. apply IHx. subst. ring. }
  intros x. split; [split|split; [split|]].
  - intros H E. destruct (Z x H) as [Z1 Z2]. rewrite E, Z2 in Z1. lra.
  - intros H. destruct (Rle_dec eps (norm x)), (Rlt_dec (norm2 x) eps); unfold in_gap; auto; exfalso; apply H, gap_same; unfold in_gap; lra.
  - unfold in_gap. intros H. destruct (Rlt_dec (norm x) eps); auto. right. apply Rnot_lt_le. intros E. apply H. lra.
  - unfold in_gap. lra.
  - apply Z.
Qed.
(** so the builds agree off the gap ... *)
Lemma C04_agree_ok : Forall (fun p => let '(to, inp, m3, m4) := p in
    (forall x, length x = 4%nat -> ~ in_gap x ->
       agree RS glm_vec4_normalize_to to [InA (fl x); Out 4] /\ agree RS glm_vec4_normalize inp [InOut (fl x)]) /\
    (forall x y z v, length x = 3%nat -> length y = 3%nat -> length z = 3%nat -> length v = 3%nat -> ~ in_gap x -> ~ in_gap y -> ~ in_gap z ->
       agree RS glm_vec3_rotate_m3 m3 [In (fl (x ++ y ++ z)); InA (fl v); Out 3]) /\
    (forall x y z w v, length x = 4%nat -> length y = 4%nat -> length z = 4%nat -> length w = 4%nat -> length v = 3%nat -> ~ in_gap x -> ~ in_gap y -> ~ in_gap z ->
       agree RS glm_vec3_rotate_m4 m4 [In (fl (x ++ y ++ z ++ w)); InA (fl v); Out 3]))
  [(sse2_glm_vec4_normalize_to, sse2_glm_vec4_normalize, sse2_glm_vec3_rotate_m3, sse2_glm_vec3_rotate_m4);
   (avx_glm_vec4_normalize_to, avx_glm_vec4_normalize, avx_glm_vec3_rotate_m3, avx_glm_vec3_rotate_m4);
   (fma_glm_vec4_normalize_to, fma_glm_vec4_normalize, fma_glm_vec3_rotate_m3, fma_glm_vec3_rotate_m4);
   (wasm_glm_vec4_normalize_to, wasm_glm_vec4_normalize, wasm_glm_vec3_rotate_m3, wasm_glm_vec3_rotate_m4)].
Proof.
  assert (L3 : forall x, length (normalized_sq x) = length x). { intros. unfold normalized_sq. destruct (Rlt_dec _ _); apply map_length. }
  destruct C04_normalize_ok as [P1 P2].
  repeat (inversion P1 as [|? ? ?P Q]; clear P1; subst; rename Q into P1). repeat (inversion P2 as [|? ? ?P Q]; clear P2; subst; rename Q into P2).
  assert (X3 : Forall (fun m3 => forall x y z v, length x = 3%nat -> length y = 3%nat -> length z = 3%nat -> length v = 3%nat ->
     computes RS m3 [In (fl (x ++ y ++ z)); InA (fl v); Out 3] VVoid [fl (mvec 3 3 (normalized_sq x ++ normalized_sq y ++ normalized_sq z) v)])
     [sse2_glm_vec3_rotate_m3; avx_glm_vec3_rotate_m3; fma_glm_vec3_rotate_m3; wasm_glm_vec3_rotate_m3]).
  { repeat constructor; intros x y z v H1 H2 H3 H4; [apply sse_rotate_m3; auto|..];
      (apply (via sse2_glm_vec3_rotate_m3 _ [Apart Flt 9; Reads Flt 3; Writes 3]); [ragrees| |apply sse_rotate_m3; auto]);
      (constructor; [cbn [fits cells]; eexists; split; [|reflexivity]; eexists; split; [|reflexivity]; rewrite !app_length; lia|fit]). }
  assert (X4 : Forall (fun m4 => forall x y z w v, length x = 4%nat -> length y = 4%nat -> length z = 4%nat -> length w = 4%nat -> length v = 3%nat ->
     computes RS m4 [In (fl (x ++ y ++ z ++ w)); InA (fl v); Out 3] VVoid [fl (firstn 3 (mvec 3 4 (normalized_sq x ++ normalized_sq y ++ normalized_sq z) v))])
     [sse2_glm_vec3_rotate_m4; avx_glm_vec3_rotate_m4; fma_glm_vec3_rotate_m4; wasm_glm_vec3_rotate_m4]).
  { repeat constructor; intros x y z w v H1 H2 H3 H4 H5; [apply sse_rotate_m4; auto|..];
      (apply (via sse2_glm_vec3_rotate_m4 _ [Apart Flt 16; Reads Flt 3; Writes 3]); [ragrees| |apply sse_rotate_m4; auto]);
      (constructor; [cbn [fits cells]; eexists; split; [|reflexivity]; eexists; split; [|reflexivity]; rewrite !app_length; lia|fit]). }
  repeat (inversion X3 as [|? ? ?P Q]; clear X3; subst; rename Q into X3). repeat (inversion X4 as [|? ? ?P Q]; clear X4; subst; rename Q into X4).
  repeat constructor; intros.
  all: try (eapply agree_computes; [apply C03_normalize_to_ok; auto|rewrite gap_same by auto; auto]; fail).
  all: try (eapply agree_computes; [apply C03_normalize_ok; auto|rewrite gap_same by auto; auto]; fail).
  all: try (eapply agree_computes; [apply C48_rotate_m3_ok; auto|rewrite (gap_same x), (gap_same y), (gap_same z) by auto; auto]; fail).
  all: try (eapply agree_computes; [apply C48_rotate_m4_ok; auto|rewrite (gap_same x), (gap_same y), (gap_same z) by auto; auto]; fail).
Qed.
(** ... and differ on it, for instance on (1/4096, 0, 0, 0) *)
Lemma C04_agree_refuted_ok : exists x, length x = 4%nat /\ in_gap x /\
  Forall (fun f => ~ agree RS glm_vec4_normalize_to f [InA (fl x); Out 4])
    [sse2_glm_vec4_normalize_to; avx_glm_vec4_normalize_to; fma_glm_vec4_normalize_to; wasm_glm_vec4_normalize_to].
Proof.
  exists [1/4096; 0; 0; 0]. assert (G : in_gap [1/4096; 0; 0; 0]).
  { unfold in_gap, norm, norm2, eps. lcbv. replace (1 / 4096 * (1 / 4096) + 0 * 0 + 0 * 0 + 0 * 0) with ((1/4096) * (1/4096)) by ring.
    rewrite sqrt_square; lra. }
  split; [reflexivity|split; auto].
  assert (D : normalized [1/4096; 0; 0; 0] <> normalized_sq [1/4096; 0; 0; 0]) by (apply C04_gap_ok; auto).
  destruct C04_normalize_ok as [P _]. revert P. apply Forall_impl. intros f C A.
  specialize (C _ (eq_refl 4%nat : length [1/4096; 0; 0; 0] = 4%nat)).
  pose proof (computes_agree _ _ _ _ _ _ A (proj2 (proj2 C03_normalize_to_ok) [1/4096; 0; 0; 0] eq_refl)) as B.
  assert (LN : forall x, length (fl (normalized x)) = length x) by (intros; unfold normalized, fl; destruct (Rlt_dec _ _); rewrite !map_length; auto).
  assert (LS : forall x, length (fl (normalized_sq x)) = length x) by (intros; unfold normalized_sq, fl; destruct (Rlt_dec _ _); rewrite !map_length; auto).
  apply D. destruct (computes_unique _ _ _ _ _ _ _ B C) as [_ E]; [cbn [map]; rewrite LN; reflexivity|cbn [map]; rewrite LS; reflexivity|].
  injection E. apply fl_inj.
Qed.
