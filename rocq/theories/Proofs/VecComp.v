(** * Component-wise vector functions (C01) *)

From Coq Require Import List ZArith Bool Reals Lra Lia.
From Verif Require Import MiniC Contract Cglm RScalar.
From Verif.Spec Require Import Vec.
From Verif Require Import Sym SymSound SymCall SymTac Tac.
Import ListNotations.
Local Open Scope bool_scope.

Ltac comp_fin :=
  useeqs;
  cbv [map map2 map3 combine forallb existsb hd tl repeat fl fold_left sum maxl minl dot clamp01 clampf minf maxf stepf signf fractf lerpf smoothf smoothstepf
       add sub mul div neg absf sqrtf floorf fmodf lt gt eq lit div_ok fmod_ok sqrt_ok any1 any2 fst snd andb orb b2z negb] in *;
  try match goal with H : forall i, (i < ?n)%nat -> _ |- _ =>
    pose proof (fun d => H 0%nat ltac:(auto with arith) d);
    pose proof (fun d => H 1%nat ltac:(auto with arith) d);
    try pose proof (fun d => H 2%nat ltac:(auto with arith) d);
    try pose proof (fun d => H 3%nat ltac:(auto with arith) d); clear H end;
  cbv [nth] in *;
  gsplit; auto;
  repeat match goal with |- context [if ?b then _ else _] =>
    lazymatch b with context [if _ then _ else _] => fail | _ => destruct b; auto end end;
  repeat match goal with |- context [s_cmp ?S ?c ?x ?y] => destruct (s_cmp S c x y); auto | |- context [s_test ?S ?c ?x] => destruct (s_test S c x); auto end.
Ltac comp := intros; unlists; unforall; sym_with 100%nat; comp_fin.

Lemma binary_ok : forall S : Scalar,
  binary S 2 glm_vec2_add (any2 S) (add S) /\
  binary S 3 glm_vec3_add (any2 S) (add S) /\
  binary S 4 glm_vec4_add (any2 S) (add S) /\
  binary S 2 glm_vec2_sub (any2 S) (sub S) /\
  binary S 3 glm_vec3_sub (any2 S) (sub S) /\
  binary S 4 glm_vec4_sub (any2 S) (sub S) /\
  binary S 2 glm_vec2_mul (any2 S) (mul S) /\
  binary S 3 glm_vec3_mul (any2 S) (mul S) /\
  binary S 4 glm_vec4_mul (any2 S) (mul S) /\
  binary S 2 glm_vec2_div (div_ok S) (div S) /\
  binary S 3 glm_vec3_div (div_ok S) (div S) /\
  binary S 4 glm_vec4_div (div_ok S) (div S) /\
  binary S 2 glm_vec2_minv (any2 S) (minf S) /\
  binary S 3 glm_vec3_minv (any2 S) (minf S) /\
  binary S 4 glm_vec4_minv (any2 S) (minf S) /\
  binary S 2 glm_vec2_maxv (any2 S) (maxf S) /\
  binary S 3 glm_vec3_maxv (any2 S) (maxf S) /\
  binary S 4 glm_vec4_maxv (any2 S) (maxf S) /\
  binary S 2 glm_vec2_step (any2 S) (stepf S) /\
  binary S 3 glm_vec3_step (any2 S) (stepf S) /\
  binary S 4 glm_vec4_step (any2 S) (stepf S) /\
  binary S 2 glm_vec2_center (any2 S) (fun a b => mul S (add S a b) (s_lit S 1 2)) /\
  binary S 3 glm_vec3_center (any2 S) (fun a b => mul S (add S a b) (s_lit S 1 2)).
Proof.
  intros S; repeat match goal with |- _ /\ _ => split end; unfold unary, inplace, binary, vector_scalar, scalar_vector, accumulate, accumulate_scalar, interpolate, returns, returns2; comp.
Qed.

Lemma vector_scalar_ok : forall S : Scalar,
  vector_scalar S 2 glm_vec2_adds (any2 S) (add S) /\
  vector_scalar S 3 glm_vec3_adds (any2 S) (add S) /\
  vector_scalar S 4 glm_vec4_adds (any2 S) (add S) /\
  vector_scalar S 2 glm_vec2_subs (any2 S) (sub S) /\
  vector_scalar S 3 glm_vec3_subs (any2 S) (sub S) /\
  vector_scalar S 4 glm_vec4_subs (any2 S) (sub S) /\
  vector_scalar S 2 glm_vec2_scale (any2 S) (mul S) /\
  vector_scalar S 3 glm_vec3_scale (any2 S) (mul S) /\
  vector_scalar S 4 glm_vec4_scale (any2 S) (mul S) /\
  vector_scalar S 2 glm_vec2_mods (fmod_ok S) (fmodf S) /\
  vector_scalar S 3 glm_vec3_mods (fmod_ok S) (fmodf S) /\
  vector_scalar S 4 glm_vec4_mods (fmod_ok S) (fmodf S) /\
  vector_scalar S 2 glm_vec2_divs (div_ok S) (div S) /\
  vector_scalar S 3 glm_vec3_divs (div_ok S) (div S) /\
  vector_scalar S 2 glm_vec2_stepr (any2 S) (stepf S) /\
  vector_scalar S 3 glm_vec3_stepr (any2 S) (stepf S) /\
  vector_scalar S 4 glm_vec4_stepr (any2 S) (stepf S) /\
  vector_scalar S 4 glm_vec4_divs (fun _ s => div_ok S (lit S 1) s) (fun a s => mul S a (div S (lit S 1) s)).
Proof.
  intros S; repeat match goal with |- _ /\ _ => split end; unfold unary, inplace, binary, vector_scalar, scalar_vector, accumulate, accumulate_scalar, interpolate, returns, returns2; comp.
Qed.

Lemma scalar_vector_ok : forall S : Scalar,
  scalar_vector S 2 glm_vec2_steps (stepf S) /\
  scalar_vector S 3 glm_vec3_steps (stepf S) /\
  scalar_vector S 4 glm_vec4_steps (stepf S).
Proof.
  intros S; repeat match goal with |- _ /\ _ => split end; unfold unary, inplace, binary, vector_scalar, scalar_vector, accumulate, accumulate_scalar, interpolate, returns, returns2; comp.
Qed.

Lemma unary_ok : forall S : Scalar,
  unary S 2 glm_vec2_copy (any1 S) (fun a => a) /\
  unary S 3 glm_vec3_copy (any1 S) (fun a => a) /\
  unary S 4 glm_vec4_copy (any1 S) (fun a => a) /\
  unary S 2 glm_vec2_negate_to (any1 S) (neg S) /\
  unary S 3 glm_vec3_negate_to (any1 S) (neg S) /\
  unary S 4 glm_vec4_negate_to (any1 S) (neg S) /\
  unary S 2 glm_vec2_abs (any1 S) (absf S) /\
  unary S 3 glm_vec3_abs (any1 S) (absf S) /\
  unary S 4 glm_vec4_abs (any1 S) (absf S) /\
  unary S 2 glm_vec2_floor (any1 S) (floorf S) /\
  unary S 3 glm_vec3_floor (any1 S) (floorf S) /\
  unary S 4 glm_vec4_floor (any1 S) (floorf S) /\
  unary S 2 glm_vec2_fract (any1 S) (fractf S) /\
  unary S 3 glm_vec3_fract (any1 S) (fractf S) /\
  unary S 4 glm_vec4_fract (any1 S) (fractf S) /\
  unary S 2 glm_vec2_sign (any1 S) (signf S) /\
  unary S 3 glm_vec3_sign (any1 S) (signf S) /\
  unary S 4 glm_vec4_sign (any1 S) (signf S) /\
  unary S 2 glm_vec2_sqrt (sqrt_ok S) (sqrtf S) /\
  unary S 3 glm_vec3_sqrt (sqrt_ok S) (sqrtf S) /\
  unary S 4 glm_vec4_sqrt (sqrt_ok S) (sqrtf S) /\
  unary S 4 glm_vec4_ucopy (any1 S) (fun a => a).
Proof.
  intros S; repeat match goal with |- _ /\ _ => split end; unfold unary, inplace, binary, vector_scalar, scalar_vector, accumulate, accumulate_scalar, interpolate, returns, returns2; comp.
Qed.

Lemma inplace_ok : forall S : Scalar,
  inplace S 2 glm_vec2_negate (neg S) /\
  inplace S 3 glm_vec3_negate (neg S) /\
  inplace S 4 glm_vec4_negate (neg S) /\
  inplace S 2 glm_vec2_zero (fun _ => lit S 0) /\
  inplace S 3 glm_vec3_zero (fun _ => lit S 0) /\
  inplace S 4 glm_vec4_zero (fun _ => lit S 0) /\
  inplace S 2 glm_vec2_one (fun _ => lit S 1) /\
  inplace S 3 glm_vec3_one (fun _ => lit S 1) /\
  inplace S 4 glm_vec4_one (fun _ => lit S 1).
Proof.
  intros S; repeat match goal with |- _ /\ _ => split end; unfold unary, inplace, binary, vector_scalar, scalar_vector, accumulate, accumulate_scalar, interpolate, returns, returns2; comp.
Qed.

Lemma accumulate_ok : forall S : Scalar,
  accumulate S 2 glm_vec2_addadd (fun a b c => add S c (add S a b)) /\
  accumulate S 3 glm_vec3_addadd (fun a b c => add S c (add S a b)) /\
  accumulate S 4 glm_vec4_addadd (fun a b c => add S c (add S a b)) /\
  accumulate S 2 glm_vec2_subadd (fun a b c => add S c (sub S a b)) /\
  accumulate S 3 glm_vec3_subadd (fun a b c => add S c (sub S a b)) /\
  accumulate S 4 glm_vec4_subadd (fun a b c => add S c (sub S a b)) /\
  accumulate S 2 glm_vec2_muladd (fun a b c => add S c (mul S a b)) /\
  accumulate S 3 glm_vec3_muladd (fun a b c => add S c (mul S a b)) /\
  accumulate S 4 glm_vec4_muladd (fun a b c => add S c (mul S a b)) /\
  accumulate S 2 glm_vec2_maxadd (fun a b c => add S c (maxf S a b)) /\
  accumulate S 3 glm_vec3_maxadd (fun a b c => add S c (maxf S a b)) /\
  accumulate S 4 glm_vec4_maxadd (fun a b c => add S c (maxf S a b)) /\
  accumulate S 2 glm_vec2_minadd (fun a b c => add S c (minf S a b)) /\
  accumulate S 3 glm_vec3_minadd (fun a b c => add S c (minf S a b)) /\
  accumulate S 4 glm_vec4_minadd (fun a b c => add S c (minf S a b)) /\
  accumulate S 2 glm_vec2_subsub (fun a b c => sub S c (sub S a b)) /\
  accumulate S 3 glm_vec3_subsub (fun a b c => sub S c (sub S a b)) /\
  accumulate S 4 glm_vec4_subsub (fun a b c => sub S c (sub S a b)) /\
  accumulate S 2 glm_vec2_addsub (fun a b c => sub S c (add S a b)) /\
  accumulate S 3 glm_vec3_addsub (fun a b c => sub S c (add S a b)) /\
  accumulate S 4 glm_vec4_addsub (fun a b c => sub S c (add S a b)) /\
  accumulate S 2 glm_vec2_mulsub (fun a b c => sub S c (mul S a b)) /\
  accumulate S 3 glm_vec3_mulsub (fun a b c => sub S c (mul S a b)) /\
  accumulate S 4 glm_vec4_mulsub (fun a b c => sub S c (mul S a b)) /\
  accumulate S 2 glm_vec2_maxsub (fun a b c => sub S c (maxf S a b)) /\
  accumulate S 3 glm_vec3_maxsub (fun a b c => sub S c (maxf S a b)) /\
  accumulate S 4 glm_vec4_maxsub (fun a b c => sub S c (maxf S a b)) /\
  accumulate S 2 glm_vec2_minsub (fun a b c => sub S c (minf S a b)) /\
  accumulate S 3 glm_vec3_minsub (fun a b c => sub S c (minf S a b)) /\
  accumulate S 4 glm_vec4_minsub (fun a b c => sub S c (minf S a b)).
Proof.
  intros S; repeat match goal with |- _ /\ _ => split end; unfold unary, inplace, binary, vector_scalar, scalar_vector, accumulate, accumulate_scalar, interpolate, returns, returns2; comp.
Qed.

Lemma accumulate_scalar_ok : forall S : Scalar,
  accumulate_scalar S 2 glm_vec2_muladds (fun a s c => add S c (mul S a s)) /\
  accumulate_scalar S 3 glm_vec3_muladds (fun a s c => add S c (mul S a s)) /\
  accumulate_scalar S 4 glm_vec4_muladds (fun a s c => add S c (mul S a s)) /\
  accumulate_scalar S 2 glm_vec2_mulsubs (fun a s c => sub S c (mul S a s)) /\
  accumulate_scalar S 3 glm_vec3_mulsubs (fun a s c => sub S c (mul S a s)) /\
  accumulate_scalar S 4 glm_vec4_mulsubs (fun a s c => sub S c (mul S a s)).
Proof.
  intros S; repeat match goal with |- _ /\ _ => split end; unfold unary, inplace, binary, vector_scalar, scalar_vector, accumulate, accumulate_scalar, interpolate, returns, returns2; comp.
Qed.

Lemma interpolate_ok : forall S : Scalar,
  interpolate S 2 glm_vec2_lerp (fun a b t => lerpf S a b (clamp01 S t)) /\
  interpolate S 3 glm_vec3_lerp (fun a b t => lerpf S a b t) /\
  interpolate S 4 glm_vec4_lerp (fun a b t => lerpf S a b t) /\
  interpolate S 3 glm_vec3_mix (fun a b t => lerpf S a b t) /\
  interpolate S 4 glm_vec4_mix (fun a b t => lerpf S a b t) /\
  interpolate S 3 glm_vec3_lerpc (fun a b t => lerpf S a b (clamp01 S t)) /\
  interpolate S 4 glm_vec4_lerpc (fun a b t => lerpf S a b (clamp01 S t)) /\
  interpolate S 3 glm_vec3_mixc (fun a b t => lerpf S a b (clamp01 S t)) /\
  interpolate S 4 glm_vec4_mixc (fun a b t => lerpf S a b (clamp01 S t)) /\
  interpolate S 3 glm_vec3_smoothinterp (fun a b t => lerpf S a b (smoothf S t)) /\
  interpolate S 4 glm_vec4_smoothinterp (fun a b t => lerpf S a b (smoothf S t)) /\
  interpolate S 3 glm_vec3_smoothinterpc (fun a b t => lerpf S a b (smoothf S (clamp01 S t))) /\
  interpolate S 4 glm_vec4_smoothinterpc (fun a b t => lerpf S a b (smoothf S (clamp01 S t))).
Proof.
  intros S; repeat match goal with |- _ /\ _ => split end; unfold unary, inplace, binary, vector_scalar, scalar_vector, accumulate, accumulate_scalar, interpolate, returns, returns2; comp.
Qed.

Lemma returns_ok : forall S : Scalar,
  returns S 2 glm_vec2_norm2 (fun x => dot S x x) /\
  returns S 3 glm_vec3_norm2 (fun x => dot S x x) /\
  returns S 4 glm_vec4_norm2 (fun x => dot S x x) /\
  returns S 3 glm_vec3_hadd (sum S) /\
  returns S 4 glm_vec4_hadd (sum S) /\
  returns S 3 glm_vec3_max (maxl S) /\
  returns S 4 glm_vec4_max (maxl S) /\
  returns S 3 glm_vec3_min (minl S) /\
  returns S 4 glm_vec4_min (minl S) /\
  returns S 2 glm_vec2_max (fun x => maxf S (nth 0 x (lit S 0)) (nth 1 x (lit S 0))) /\
  returns S 2 glm_vec2_min (fun x => minf S (nth 0 x (lit S 0)) (nth 1 x (lit S 0))) /\
  returns S 3 glm_vec3_norm_one (fun x => sum S (map (absf S) x)) /\
  returns S 4 glm_vec4_norm_one (fun x => sum S (map (absf S) x)) /\
  returns S 3 glm_vec3_norm_inf (fun x => maxl S (map (absf S) x)) /\
  returns S 4 glm_vec4_norm_inf (fun x => maxl S (map (absf S) x)).
Proof.
  intros S; repeat match goal with |- _ /\ _ => split end; unfold unary, inplace, binary, vector_scalar, scalar_vector, accumulate, accumulate_scalar, interpolate, returns, returns2; comp.
Qed.

Lemma returns2_ok : forall S : Scalar,
  returns2 S 2 glm_vec2_dot (dot S) /\
  returns2 S 3 glm_vec3_dot (dot S) /\
  returns2 S 4 glm_vec4_dot (dot S) /\
  returns2 S 2 glm_vec2_distance2 (fun x y => sum S (map2 (fun a b => mul S (sub S b a) (sub S b a)) x y)) /\
  returns2 S 3 glm_vec3_distance2 (fun x y => sum S (map2 (fun a b => mul S (sub S a b) (sub S a b)) x y)) /\
  returns2 S 4 glm_vec4_distance2 (fun x y => sum S (map2 (fun a b => mul S (sub S a b) (sub S a b)) x y)).
Proof.
  intros S; repeat match goal with |- _ /\ _ => split end; unfold unary, inplace, binary, vector_scalar, scalar_vector, accumulate, accumulate_scalar, interpolate, returns, returns2; comp.
Qed.

Lemma fill_ok : forall S : Scalar,
  (forall v, computes S glm_vec2_fill [Out 2; Val (VF v)] VVoid [fl (repeat v 2)]) /\
  (forall v, computes S glm_vec3_fill [Out 3; Val (VF v)] VVoid [fl (repeat v 3)]) /\
  (forall v, computes S glm_vec4_fill [Out 4; Val (VF v)] VVoid [fl (repeat v 4)]) /\
  (forall v, computes S glm_vec3_broadcast [Val (VF v); Out 3] VVoid [fl (repeat v 3)]) /\
  (forall v, computes S glm_vec4_broadcast [Val (VF v); Out 4] VVoid [fl (repeat v 4)]).
Proof.
  intros S; repeat match goal with |- _ /\ _ => split end; unfold unary, inplace, binary, vector_scalar, scalar_vector, accumulate, accumulate_scalar, interpolate, returns, returns2; comp.
Qed.

Lemma clamp_ok : forall S : Scalar,
  (forall x lo hi, length x = 2%nat -> computes S glm_vec2_clamp [InOut (fl x); Val (VF lo); Val (VF hi)] VVoid [fl (map (fun a => clampf S a lo hi) x)]) /\
  (forall x lo hi, length x = 3%nat -> computes S glm_vec3_clamp [InOut (fl x); Val (VF lo); Val (VF hi)] VVoid [fl (map (fun a => clampf S a lo hi) x)]) /\
  (forall x lo hi, length x = 4%nat -> computes S glm_vec4_clamp [InOut (fl x); Val (VF lo); Val (VF hi)] VVoid [fl (map (fun a => clampf S a lo hi) x)]).
Proof.
  intros S; repeat match goal with |- _ /\ _ => split end; unfold unary, inplace, binary, vector_scalar, scalar_vector, accumulate, accumulate_scalar, interpolate, returns, returns2; comp.
Qed.

Lemma smoothstep_ok : forall S : Scalar,
  (forall e0 e1 x, length x = 3%nat -> Forall (fun a => div_ok S (sub S a e0) (sub S e1 e0)) x -> computes S glm_vec3_smoothstep_uni [Val (VF e0); Val (VF e1); InA (fl x); Out 3] VVoid [fl (map (smoothstepf S e0 e1) x)]) /\
  (forall e0 e1 x, length x = 4%nat -> Forall (fun a => div_ok S (sub S a e0) (sub S e1 e0)) x -> computes S glm_vec4_smoothstep_uni [Val (VF e0); Val (VF e1); InA (fl x); Out 4] VVoid [fl (map (smoothstepf S e0 e1) x)]) /\
  (forall e0 e1 x, length e0 = 3%nat -> length e1 = 3%nat -> length x = 3%nat -> (forall i, (i < 3)%nat -> forall d, div_ok S (sub S (nth i x d) (nth i e0 d)) (sub S (nth i e1 d) (nth i e0 d))) -> computes S glm_vec3_smoothstep [InA (fl e0); InA (fl e1); InA (fl x); Out 3] VVoid [fl (map3 (smoothstepf S) e0 e1 x)]) /\
  (forall e0 e1 x, length e0 = 4%nat -> length e1 = 4%nat -> length x = 4%nat -> (forall i, (i < 4)%nat -> forall d, div_ok S (sub S (nth i x d) (nth i e0 d)) (sub S (nth i e1 d) (nth i e0 d))) -> computes S glm_vec4_smoothstep [InA (fl e0); InA (fl e1); InA (fl x); Out 4] VVoid [fl (map3 (smoothstepf S) e0 e1 x)]).
Proof.
  intros S; repeat match goal with |- _ /\ _ => split end; unfold unary, inplace, binary, vector_scalar, scalar_vector, accumulate, accumulate_scalar, interpolate, returns, returns2; comp.
Qed.

Lemma convert_ok : forall S : Scalar,
  (forall x y z, computes S glm_vec2 [In (fl [x; y; z]); Out 2] VVoid [fl [x; y]]) /\
  (forall x y z w, computes S glm_vec3 [In (fl [x; y; z; w]); Out 3] VVoid [fl [x; y; z]]) /\
  (forall x y z w, computes S glm_vec4 [In (fl [x; y; z]); Val (VF w); Out 4] VVoid [fl [x; y; z; w]]) /\
  (forall x y z w, computes S glm_vec4_copy3 [In (fl [x; y; z; w]); Out 3] VVoid [fl [x; y; z]]) /\
  (forall s, computes S glm_vec4_cubic [Val (VF s); Out 4] VVoid [fl [mul S (mul S s s) s; mul S s s; s; lit S 1]]) /\
  (forall x, length x = 2%nat -> computes S glm_vec2_make [InA (fl x); Out 2] VVoid [fl x]) /\
  (forall x, length x = 3%nat -> computes S glm_vec3_make [InA (fl x); Out 3] VVoid [fl x]) /\
  (forall x, length x = 4%nat -> computes S glm_vec4_make [InA (fl x); Out 4] VVoid [fl x]).
Proof.
  intros S; repeat match goal with |- _ /\ _ => split end; unfold unary, inplace, binary, vector_scalar, scalar_vector, accumulate, accumulate_scalar, interpolate, returns, returns2; comp.
Qed.

Lemma tests_ok : forall S : Scalar,
  (forall x v, length x = 2%nat -> computes S glm_vec2_eq [In (fl x); Val (VF v)] (VB (eq S (hd v x) v && forallb (eq S (hd v x)) (tl x))) []) /\
  (forall x v, length x = 3%nat -> computes S glm_vec3_eq [In (fl x); Val (VF v)] (VB (eq S (hd v x) v && forallb (eq S (hd v x)) (tl x))) []) /\
  (forall x v, length x = 4%nat -> computes S glm_vec4_eq [In (fl x); Val (VF v)] (VB (eq S (hd v x) v && forallb (eq S (hd v x)) (tl x))) []) /\
  (forall x y, length x = 2%nat -> length y = 2%nat -> computes S glm_vec2_eqv [In (fl x); In (fl y)] (VB (forallb (fun p => eq S (fst p) (snd p)) (combine x y))) []) /\
  (forall x y, length x = 3%nat -> length y = 3%nat -> computes S glm_vec3_eqv [In (fl x); In (fl y)] (VB (forallb (fun p => eq S (fst p) (snd p)) (combine x y))) []) /\
  (forall x y, length x = 4%nat -> length y = 4%nat -> computes S glm_vec4_eqv [In (fl x); In (fl y)] (VB (forallb (fun p => eq S (fst p) (snd p)) (combine x y))) []) /\
  (forall x, length x = 2%nat -> computes S glm_vec2_isnan [In (fl x)] (VB (existsb (s_test S TNan) x)) []) /\
  (forall x, length x = 3%nat -> computes S glm_vec3_isnan [In (fl x)] (VB (existsb (s_test S TNan) x)) []) /\
  (forall x, length x = 4%nat -> computes S glm_vec4_isnan [In (fl x)] (VB (existsb (s_test S TNan) x)) []) /\
  (forall x, length x = 2%nat -> computes S glm_vec2_isinf [In (fl x)] (VB (existsb (s_test S TInf) x)) []) /\
  (forall x, length x = 3%nat -> computes S glm_vec3_isinf [In (fl x)] (VB (existsb (s_test S TInf) x)) []) /\
  (forall x, length x = 4%nat -> computes S glm_vec4_isinf [In (fl x)] (VB (existsb (s_test S TInf) x)) []) /\
  (forall x, length x = 2%nat -> computes S glm_vec2_isvalid [In (fl x)] (VB (forallb (fun a => negb (s_test S TNan a) && negb (s_test S TInf a)) x)) []) /\
  (forall x, length x = 3%nat -> computes S glm_vec3_isvalid [In (fl x)] (VB (forallb (fun a => negb (s_test S TNan a) && negb (s_test S TInf a)) x)) []) /\
  (forall x, length x = 4%nat -> computes S glm_vec4_isvalid [In (fl x)] (VB (forallb (fun a => negb (s_test S TNan a) && negb (s_test S TInf a)) x)) []).
Proof.
  intros S; repeat match goal with |- _ /\ _ => split end; unfold unary, inplace, binary, vector_scalar, scalar_vector, accumulate, accumulate_scalar, interpolate, returns, returns2; comp.
Qed.


Lemma div_example : Forall2 (div_ok RS) [1; 2; 3]%R [4; -5; 6]%R.
Proof.
  repeat constructor; cbv [div_ok RS s_ok2 R_ok2]; apply negb_true_iff, Reqb_false; lra.
Qed.
Lemma smoothstep_example : forall i, (i < 3)%nat -> forall d,
  div_ok RS (sub RS (nth i [0; 1; 2]%R d) (nth i [1; 2; 3]%R d)) (sub RS (nth i [4; 5; 7]%R d) (nth i [1; 2; 3]%R d)).
Proof.
  intros i Hi d. cbv [div_ok sub RS s_ok2 R_ok2 s_op2 R_op2 T].
  destruct i as [|[|[|i]]]; try lia; simpl; apply negb_true_iff, Reqb_false; lra.
Qed.
