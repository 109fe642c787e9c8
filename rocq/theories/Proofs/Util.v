(** * Scalar helpers, comparisons, planes, colours, picking (C44, C46, C59, C61) *)

From Coq Require Import String List ZArith Bool Reals Lra Lia.
From Verif Require Import Cglm.
From Verif.Spec Require Import Linear Geometry ScalarSpec Client.
From Verif.Proofs Require Import RExact.
Import ListNotations.
Local Open Scope R_scope.

Ltac rmm := unfold clamped, sgn, Rmin, Rmax in *.
Ltac ut := intros; symr; rprep; try domain; rmm; rifs; try (exfalso; lra); simpl; cells fieldl; try lra;
  try match goal with |- context [?t] => is_var t; first [replace t with 0 by lra; ring | replace t with 1 by lra; ring] end.

(** ** C44 *)
Lemma C44_minmax_ok : forall a b,
  computes RS glm_min [Val (VF a); Val (VF b)] (VF (Rmin a b)) [] /\
  computes RS glm_max [Val (VF a); Val (VF b)] (VF (Rmax a b)) [].
Proof. split; ut. Qed.
Lemma C44_clamp_ok : forall x lo hi, lo <= hi ->
  computes RS glm_clamp [Val (VF x); Val (VF lo); Val (VF hi)] (VF (clamped lo hi x)) [] /\
  lo <= clamped lo hi x <= hi /\ (forall y, lo <= y <= hi -> Rabs (x - clamped lo hi x) <= Rabs (x - y)).
Proof.
  intros x lo hi H. split; [ut|]. unfold clamped. split; [rifs; lra|].
  intros y Hy. rifs; unfold Rabs; repeat destruct Rcase_abs; lra.
Qed.
Lemma C44_clamp_ex : 0 <= 1.
Proof. lra. Qed.
Lemma C44_clamp_zo_ok : forall x, computes RS glm_clamp_zo [Val (VF x)] (VF (clamped 0 1 x)) [].
Proof. ut. Qed.
Lemma C44_sign_ok : forall x, computes RS glm_signf [Val (VF x)] (VF (sgn x)) [].
Proof. ut. Qed.
Lemma C44_pow2_ok : forall x, computes RS glm_pow2 [Val (VF x)] (VF (x * x)) [].
Proof. ut. Qed.
(** degrees and radians *)
Lemma C44_rad_ok : forall x,
  computes RS glm_rad [Val (VF x)] (VF (x * PI / 180)) [] /\
  computes RS glm_deg [Val (VF x)] (VF (x * 180 / PI)) [] /\
  computes RS glm_make_rad [InOut (fl [x])] VVoid [fl [x * PI / 180]] /\
  computes RS glm_make_deg [InOut (fl [x])] VVoid [fl [x * 180 / PI]] /\
  (x * PI / 180) * 180 / PI = x /\ (x * 180 / PI) * PI / 180 = x.
Proof.
  intros x. assert (PI <> 0) by apply PI_neq0.
  repeat split; try (symr; rprep; try (reqs; lra); cells ltac:(field; auto)); field; auto.
Qed.
(** affine interpolation *)
Lemma C44_lerp_ok : forall a b t,
  computes RS glm_lerp [Val (VF a); Val (VF b); Val (VF t)] (VF ((1 - t) * a + t * b)) [] /\
  computes RS glm_lerpc [Val (VF a); Val (VF b); Val (VF t)] (VF ((1 - clamped 0 1 t) * a + clamped 0 1 t * b)) [].
Proof. split; ut. Qed.
Lemma C44_step_ok : forall e x, computes RS glm_step [Val (VF e); Val (VF x)] (VF (if Rlt_dec x e then 0 else 1)) [].
Proof. ut. Qed.
(** the smooth step: 0 at and below the lower edge, 1 at and above the upper edge, monotone *)
Lemma smooth01_mono : forall s t, 0 <= s -> s <= t -> t <= 1 -> smooth01 s <= smooth01 t.
Proof.
  intros s t H1 H2 H3. unfold smooth01.
  assert (0 <= (t - s) * (3 * (s + t) - 2 * (s * s + s * t + t * t))); [|nra].
  apply Rmult_le_pos; [lra|]. nra.
Qed.
Lemma C44_smoothstep_ok : forall a b x, a < b ->
  computes RS glm_smoothstep [Val (VF a); Val (VF b); Val (VF x)] (VF (smooth01 (clamped 0 1 ((x - a) / (b - a))))) [] /\
  (x <= a -> smooth01 (clamped 0 1 ((x - a) / (b - a))) = 0) /\
  (b <= x -> smooth01 (clamped 0 1 ((x - a) / (b - a))) = 1) /\
  (forall y, x <= y -> smooth01 (clamped 0 1 ((x - a) / (b - a))) <= smooth01 (clamped 0 1 ((y - a) / (b - a)))).
Proof.
  intros a b x H.
  assert (P : 0 < / (b - a)) by (apply Rinv_0_lt_compat; lra).
  assert (Q : (b - a) * / (b - a) = 1) by (apply Rinv_r; lra).
  split; [|split; [|split]].
  - unfold smooth01. symr; rprep; try (reqs; lra). set (t := (x - a) / (b - a)). clearbody t. rmm. rifs; try (exfalso; lra); cells fieldl;
      first [replace t with 0 by lra; ring | replace t with 1 by lra; ring].
  - intros Hx. assert ((x - a) / (b - a) <= 0) by (unfold Rdiv; nra).
    unfold clamped, smooth01. rifs; try lra; replace ((x - a) / (b - a)) with 0 by lra; lra.
  - intros Hx. assert (1 <= (x - a) / (b - a)) by (unfold Rdiv; nra).
    unfold clamped, smooth01. rifs; try lra; replace ((x - a) / (b - a)) with 1 by lra; lra.
  - intros y Hy. assert ((x - a) / (b - a) <= (y - a) / (b - a)) by (unfold Rdiv; nra).
    apply smooth01_mono; unfold clamped; rifs; lra.
Qed.
Lemma C44_smoothstep_ex : 1 < 3 /\ smooth01 (clamped 0 1 ((2 - 1) / (3 - 1))) = 1 / 2.
Proof. split; [lra|]. unfold clamped, smooth01. rifs; lra. Qed.
(** an empty range: division by zero *)
Lemma C44_smoothstep_empty_ok : forall a x, aborts RS glm_smoothstep [Val (VF a); Val (VF a); Val (VF x)] XFloatDomain.
Proof. rabort. Qed.
Lemma C44_smooth_ok : forall a b t,
  computes RS glm_smooth [Val (VF t)] (VF (smooth01 t)) [] /\
  computes RS glm_smoothinterp [Val (VF a); Val (VF b); Val (VF t)] (VF (a + smooth01 t * (b - a))) [] /\
  computes RS glm_smoothinterpc [Val (VF a); Val (VF b); Val (VF t)] (VF (a + smooth01 (clamped 0 1 t) * (b - a))) [].
Proof. unfold smooth01. repeat split; ut. Qed.
(** position in a range; 1 for an empty range *)
Lemma C44_percent_ok : forall a b x,
  computes RS glm_percent [Val (VF a); Val (VF b); Val (VF x)] (VF (if Req_EM_T a b then 1 else (x - a) / (b - a))) [] /\
  computes RS glm_percentc [Val (VF a); Val (VF b); Val (VF x)] (VF (if Req_EM_T a b then 1 else clamped 0 1 ((x - a) / (b - a)))) [].
Proof.
  split; intros; symr; rprep; try (rifs; simpl; auto; lra); destruct (Req_EM_T a b); rmm; set (t := (x - a) / (b - a)) in *; clearbody t; rifs; try (exfalso; lra); auto; f_equal; lra.
Qed.
Lemma C44_swapf_ok : forall (S : Scalar) (a b : T S), computes S glm_swapf [InOut (fl [a]); InOut (fl [b])] VVoid [fl [b]; fl [a]].
Proof. intros. sym_with 20%nat; repeat split. Qed.

(** ** C46 (real part) *)
Lemma C46_eq_ok : forall a b, computes RS glm_eq [Val (VF a); Val (VF b)] (VB (close a b)) [].
Proof. unfold close, tol. ut. Qed.
(** reflexive and symmetric, but not transitive *)
Lemma C46_not_transitive_refuted_ok : exists a b c,
  computes RS glm_eq [Val (VF a); Val (VF b)] (VB true) [] /\
  computes RS glm_eq [Val (VF b); Val (VF c)] (VB true) [] /\
  computes RS glm_eq [Val (VF a); Val (VF c)] (VB false) [].
Proof.
  exists 0, (1 / 100000), (2 / 100000).
  assert (H : forall a b r, close a b = r -> computes RS glm_eq [Val (VF a); Val (VF b)] (VB r) []).
  { intros a b r <-. apply C46_eq_ok. }
  repeat split; apply H; unfold close, tol; match goal with |- context [Rle_dec ?x ?y] => destruct (Rle_dec x y) as [D|D] end; auto;
    exfalso; revert D; unfold Rabs; repeat destruct Rcase_abs; lra.
Qed.
Lemma close_refl : forall a, close a a = true.
Proof. intros a. unfold close, tol. rewrite Rminus_diag_eq, Rabs_R0 by auto. destruct Rle_dec; auto; lra. Qed.
Lemma close_sym : forall a b, close a b = close b a.
Proof. intros. unfold close. rewrite Rabs_minus_sym. auto. Qed.
Lemma C46_refl_sym_ok : forall a b,
  computes RS glm_eq [Val (VF a); Val (VF a)] (VB true) [] /\
  (forall r, computes RS glm_eq [Val (VF a); Val (VF b)] (VB r) [] -> computes RS glm_eq [Val (VF b); Val (VF a)] (VB r) []).
Proof.
  intros a b. split.
  - rewrite <- (close_refl a). apply C46_eq_ok.
  - intros r H. pose proof (C46_eq_ok a b) as E. other_outcome H E. inversion Er; subst.
    rewrite close_sym. apply C46_eq_ok.
Qed.
(** the vector forms compare all components; exact comparison decides equality *)
Lemma C46_eqv_ok :
  (forall a b, length a = 2%nat -> length b = 2%nat -> exists r, computes RS glm_vec2_eqv [In (fl a); In (fl b)] (VB r) [] /\ (r = true <-> a = b)) /\
  (forall a b, length a = 3%nat -> length b = 3%nat -> exists r, computes RS glm_vec3_eqv [In (fl a); In (fl b)] (VB r) [] /\ (r = true <-> a = b)) /\
  (forall a b, length a = 4%nat -> length b = 4%nat -> exists r, computes RS glm_vec4_eqv [In (fl a); In (fl b)] (VB r) [] /\ (r = true <-> a = b)).
Proof.
  repeat split; intros a b La Lb; unlists; (eexists; split; [symr; rprep; try domain; try reflexivity|]);
  rifs; split; intros H; try discriminate; try reflexivity; try (injection H; intros; subst; lra); subst; reflexivity.
Qed.
Ltac closes := repeat split; intros; unlists; symr; rprep; try domain; cbv [forallb map combine fst snd close tol repeat];
  rifs; try reflexivity; exfalso; first [contradiction | lra].
Lemma C46_eqv_eps_ok :
  (forall a b, length a = 2%nat -> length b = 2%nat -> computes RS glm_vec2_eqv_eps [In (fl a); In (fl b)] (VB (all_close a b)) []) /\
  (forall a b, length a = 3%nat -> length b = 3%nat -> computes RS glm_vec3_eqv_eps [In (fl a); In (fl b)] (VB (all_close a b)) []) /\
  (forall a b, length a = 4%nat -> length b = 4%nat -> computes RS glm_vec4_eqv_eps [In (fl a); In (fl b)] (VB (all_close a b)) []) /\
  (forall a t, length a = 2%nat -> computes RS glm_vec2_eq_eps [In (fl a); Val (VF t)] (VB (all_close a (repeat t 2))) []) /\
  (forall a t, length a = 3%nat -> computes RS glm_vec3_eq_eps [In (fl a); Val (VF t)] (VB (all_close a (repeat t 3))) []) /\
  (forall a t, length a = 4%nat -> computes RS glm_vec4_eq_eps [In (fl a); Val (VF t)] (VB (all_close a (repeat t 4))) []) /\
  (forall a, length a = 2%nat -> computes RS glm_vec2_eq_all [In (fl a)] (VB (all_close a (repeat (at_ a 0) 2))) []) /\
  (forall a, length a = 3%nat -> computes RS glm_vec3_eq_all [In (fl a)] (VB (all_close a (repeat (at_ a 0) 3))) []) /\
  (forall a, length a = 4%nat -> computes RS glm_vec4_eq_all [In (fl a)] (VB (all_close a (repeat (at_ a 0) 4))) []).
Proof. unfold all_close. closes. Qed.
Lemma C46_close_ok : forall a b, all_close a a = true /\ all_close a b = all_close b a.
Proof.
  intros a b. unfold all_close. split.
  - induction a; simpl; auto. rewrite close_refl. auto.
  - revert b. induction a; destruct b; simpl; auto. rewrite close_sym, IHa. auto.
Qed.
Lemma C46_eq_value_ok :
  (forall a t, length a = 2%nat -> exists r, computes RS glm_vec2_eq [In (fl a); Val (VF t)] (VB r) [] /\ (r = true <-> a = repeat t 2)) /\
  (forall a t, length a = 3%nat -> exists r, computes RS glm_vec3_eq [In (fl a); Val (VF t)] (VB r) [] /\ (r = true <-> a = repeat t 3)) /\
  (forall a t, length a = 4%nat -> exists r, computes RS glm_vec4_eq [In (fl a); Val (VF t)] (VB r) [] /\ (r = true <-> a = repeat t 4)).
Proof.
  repeat split; intros a b La; unlists; (eexists; split; [symr; rprep; try domain; try reflexivity|]);
  rifs; split; intros H; try discriminate; try reflexivity; try (injection H; intros; subst; lra); subst; simpl; repeat f_equal; lra.
Qed.

(** ** C59 *)
(** a plane with a non-degenerate normal: same half-spaces, unit normal *)
Lemma C59_plane_normalize_ok : forall p, length p = 4%nat -> eps <= norm (firstn 3 p) ->
  computes RS glm_plane_normalize [InOut (fl p)] VVoid [fl (vscale (/ norm (firstn 3 p)) p)].
Proof. intros p L. un4 p a b c d. lcbv. intros H. symr; rprep; try domain; rcells. Qed.
Lemma C59_degenerate_ok : forall p, length p = 4%nat -> norm (firstn 3 p) < eps ->
  computes RS glm_plane_normalize [InOut (fl p)] VVoid [fl [0; 0; 0; 0]].
Proof. intros p L. un4 p a b c d. lcbv. intros H. symr; rprep; try domain; rcells. Qed.
Lemma C59_half_space_ok : forall p x, length p = 4%nat -> length x = 3%nat -> eps <= norm (firstn 3 p) ->
  let q := vscale (/ norm (firstn 3 p)) p in
  norm2 (firstn 3 q) = 1 /\
  (0 <= rdot (firstn 3 p) x + at_ p 3 <-> 0 <= rdot (firstn 3 q) x + at_ q 3) /\
  rdot (firstn 3 p) x + at_ p 3 = norm (firstn 3 p) * (rdot (firstn 3 q) x + at_ q 3).
Proof.
  intros p x Lp Lx H. pose proof (norm_sq (firstn 3 p)) as Q. pose proof eps_pos as EP.
  set (n := norm (firstn 3 p)) in *. assert (P : 0 < n) by lra.
  assert (E : rdot (firstn 3 p) x + at_ p 3 = n * (rdot (firstn 3 (vscale (/ n) p)) x + at_ (vscale (/ n) p) 3)).
  { clearbody n. un4 p a b c d. un3 x x0 x1 x2. lcbv. field. lra. }
  split; [|split; auto].
  - clearbody n. un4 p a b c d. revert Q. lcbv. intros Q.
    transitivity ((a * a + b * b + c * c) * (/ n * / n)). ring. rewrite <- Q. field. lra.
  - rewrite E. split; intros K.
    + apply Rmult_le_reg_l with n; auto. lra.
    + apply Rmult_le_pos; lra.
Qed.
Lemma C59_ex : eps <= norm (firstn 3 [0; 3; 4; 7]) /\ norm (firstn 3 [0; 0; 0; 7]) < eps.
Proof.
  split; unfold norm.
  - replace (norm2 (firstn 3 [0; 3; 4; 7])) with (5 * 5) by (lcbv; ring). rewrite sqrt_square by lra. unfold eps. lra.
  - replace (norm2 (firstn 3 [0; 0; 0; 7])) with 0 by (lcbv; ring). rewrite sqrt_0. apply eps_pos.
Qed.

(** ** C61 *)
Lemma C61_luminance_ok : forall c, length c = 3%nat ->
  computes RS glm_luminance [In (fl c)] (VF (212671 / 1000000 * at_ c 0 + 71516 / 100000 * at_ c 1 + 72169 / 1000000 * at_ c 2)) [] /\
  212671 / 1000000 + 71516 / 100000 + 72169 / 1000000 = 1.
Proof. intros c L. split; [|lra]. un3 c r g b. symr; rprep. cells ltac:(try field). Qed.
(** a region without area: nothing is written *)
Lemma C61_pickmatrix_empty_ok : forall x y vp, length x = 2%nat -> length y = 2%nat -> length vp = 4%nat ->
  forall d, length d = 16%nat -> at_ y 0 <= 0 \/ at_ y 1 <= 0 ->
  computes RS glm_pickmatrix [In (fl x); In (fl y); In (fl vp); InOut (fl d)] VVoid [fl d].
Proof.
  intros x y vp Lx Ly Lv d Ld. un2 x x0 x1. un2 y y0 y1. un4 vp v0 v1 v2 v3. lcbv. intros H.
  unlists. symr; rprep; try domain; rcells.
Qed.
(** otherwise: the affine map taking the picked region (window coordinates mapped to clip
    coordinates by the viewport) onto [-1,1]^2, leaving depth alone *)
Lemma C61_pickmatrix_ok : forall c s vp, length c = 2%nat -> length s = 2%nat -> length vp = 4%nat ->
  0 < at_ s 0 -> 0 < at_ s 1 -> 0 < at_ vp 2 -> 0 < at_ vp 3 ->
  exists m, length m = 16%nat /\ computes RS glm_pickmatrix [In (fl c); In (fl s); In (fl vp); Out 16] VVoid [fl m] /\
  forall u v z, let ndc w o n := 2 * (w - o) / n - 1 in
  mvec 4 4 m [ndc (at_ c 0 + u * at_ s 0 / 2) (at_ vp 0) (at_ vp 2); ndc (at_ c 1 + v * at_ s 1 / 2) (at_ vp 1) (at_ vp 3); z; 1] = [u; v; z; 1].
Proof.
  intros x y vp Lx Ly Lv. un2 x x0 x1. un2 y y0 y1. un4 vp v0 v1 v2 v3. lcbv. intros H0 H1 H2 H3.
  eexists [_;_;_;_;_;_;_;_;_;_;_;_;_;_;_;_]. split; [reflexivity|]. split.
  - symr; rprep; try domain; rcells.
  - intros. cbv beta zeta. cells ltac:(try (field; lra)).
Qed.
