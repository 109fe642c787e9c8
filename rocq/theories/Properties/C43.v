(** C43: Integer vectors: exact results and exactly when behaviour is undefined.

    For ivec2/3/4 the arithmetic functions return the exact mathematical result whenever it and
    every intermediate result fit in int, and in every other case (overflow, division by zero,
    INT_MIN/-1, abs(INT_MIN), glm_sign(INT_MIN)) the call is undefined behaviour; min, max,
    clamp and comparisons are defined for all inputs. *)

From Coq Require Import String List ZArith Bool Reals.
From Verif Require Import MiniC Contract RScalar Cglm.
From Verif.Spec Require Import Vec IntVec.
From Verif.Proofs Require IntVec.
Import ListNotations.
Local Open Scope list_scope.
Local Open Scope Z_scope.

Theorem C43_binary : forall S : Scalar,
  int_binary S 2 glm_ivec2_add p_add /\ int_binary S 3 glm_ivec3_add p_add /\ int_binary S 4 glm_ivec4_add p_add /\
  int_binary S 2 glm_ivec2_sub p_sub /\ int_binary S 3 glm_ivec3_sub p_sub /\ int_binary S 4 glm_ivec4_sub p_sub /\
  int_binary S 2 glm_ivec2_mul p_mul /\ int_binary S 3 glm_ivec3_mul p_mul /\ int_binary S 4 glm_ivec4_mul p_mul.
Proof. exact IntVec.C43_binary_ok. Qed.
Print Assumptions C43_binary.

Theorem C43_div : forall S : Scalar,
  int_binary S 2 glm_ivec2_div p_div /\ int_binary S 3 glm_ivec3_div p_div /\
  int_binary S 2 glm_ivec2_mod p_mod /\ int_binary S 3 glm_ivec3_mod p_mod.
Proof. exact IntVec.C43_div_ok. Qed.
Print Assumptions C43_div.

Theorem C43_minmax : forall S : Scalar,
  int_binary S 2 glm_ivec2_minv p_min /\ int_binary S 3 glm_ivec3_minv p_min /\ int_binary S 4 glm_ivec4_minv p_min /\
  int_binary S 2 glm_ivec2_maxv p_max /\ int_binary S 3 glm_ivec3_maxv p_max /\ int_binary S 4 glm_ivec4_maxv p_max.
Proof. exact IntVec.C43_minmax_ok. Qed.
Print Assumptions C43_minmax.

Theorem C43_scalar : forall S : Scalar,
  int_scalar S 2 glm_ivec2_adds p_add /\ int_scalar S 3 glm_ivec3_adds p_add /\ int_scalar S 4 glm_ivec4_adds p_add /\
  int_scalar S 2 glm_ivec2_subs p_sub /\ int_scalar S 3 glm_ivec3_subs p_sub /\ int_scalar S 4 glm_ivec4_subs p_sub /\
  int_scalar S 2 glm_ivec2_scale p_mul /\ int_scalar S 3 glm_ivec3_scale p_mul /\ int_scalar S 4 glm_ivec4_scale p_mul.
Proof. exact IntVec.C43_scalar_ok. Qed.
Print Assumptions C43_scalar.

Theorem C43_divs : forall S : Scalar,
  int_scalar S 2 glm_ivec2_divs p_div /\ int_scalar S 3 glm_ivec3_divs p_div.
Proof. exact IntVec.C43_divs_ok. Qed.
Print Assumptions C43_divs.

Theorem C43_accumulate : forall S : Scalar,
  int_accumulate S 2 glm_ivec2_addadd p_add p_add /\ int_accumulate S 3 glm_ivec3_addadd p_add p_add /\ int_accumulate S 4 glm_ivec4_addadd p_add p_add /\
  int_accumulate S 2 glm_ivec2_subadd p_sub p_add /\ int_accumulate S 3 glm_ivec3_subadd p_sub p_add /\ int_accumulate S 4 glm_ivec4_subadd p_sub p_add /\
  int_accumulate S 2 glm_ivec2_muladd p_mul p_add /\ int_accumulate S 3 glm_ivec3_muladd p_mul p_add /\ int_accumulate S 4 glm_ivec4_muladd p_mul p_add /\
  int_accumulate S 2 glm_ivec2_maxadd p_max p_add /\ int_accumulate S 3 glm_ivec3_maxadd p_max p_add /\ int_accumulate S 4 glm_ivec4_maxadd p_max p_add /\
  int_accumulate S 2 glm_ivec2_minadd p_min p_add /\ int_accumulate S 3 glm_ivec3_minadd p_min p_add /\ int_accumulate S 4 glm_ivec4_minadd p_min p_add.
Proof. exact IntVec.C43_accumulate_ok. Qed.
Print Assumptions C43_accumulate.

Theorem C43_accumulate_sub : forall S : Scalar,
  int_accumulate S 2 glm_ivec2_subsub p_sub p_sub /\ int_accumulate S 3 glm_ivec3_subsub p_sub p_sub /\ int_accumulate S 4 glm_ivec4_subsub p_sub p_sub /\
  int_accumulate S 2 glm_ivec2_addsub p_add p_sub /\ int_accumulate S 3 glm_ivec3_addsub p_add p_sub /\ int_accumulate S 4 glm_ivec4_addsub p_add p_sub /\
  int_accumulate S 2 glm_ivec2_mulsub p_mul p_sub /\ int_accumulate S 3 glm_ivec3_mulsub p_mul p_sub /\ int_accumulate S 4 glm_ivec4_mulsub p_mul p_sub /\
  int_accumulate S 2 glm_ivec2_maxsub p_max p_sub /\ int_accumulate S 3 glm_ivec3_maxsub p_max p_sub /\ int_accumulate S 4 glm_ivec4_maxsub p_max p_sub /\
  int_accumulate S 2 glm_ivec2_minsub p_min p_sub /\ int_accumulate S 3 glm_ivec3_minsub p_min p_sub /\ int_accumulate S 4 glm_ivec4_minsub p_min p_sub.
Proof. exact IntVec.C43_accumulate_sub_ok. Qed.
Print Assumptions C43_accumulate_sub.

Theorem C43_accumulate_scalar : forall S : Scalar,
  int_accumulate_scalar S 2 glm_ivec2_addadds p_add p_add /\ int_accumulate_scalar S 3 glm_ivec3_addadds p_add p_add /\ int_accumulate_scalar S 4 glm_ivec4_addadds p_add p_add /\
  int_accumulate_scalar S 2 glm_ivec2_subadds p_sub p_add /\ int_accumulate_scalar S 3 glm_ivec3_subadds p_sub p_add /\ int_accumulate_scalar S 4 glm_ivec4_subadds p_sub p_add /\
  int_accumulate_scalar S 2 glm_ivec2_muladds p_mul p_add /\ int_accumulate_scalar S 3 glm_ivec3_muladds p_mul p_add /\ int_accumulate_scalar S 4 glm_ivec4_muladds p_mul p_add /\
  int_accumulate_scalar S 2 glm_ivec2_subsubs p_sub p_sub /\ int_accumulate_scalar S 3 glm_ivec3_subsubs p_sub p_sub /\ int_accumulate_scalar S 4 glm_ivec4_subsubs p_sub p_sub /\
  int_accumulate_scalar S 2 glm_ivec2_addsubs p_add p_sub /\ int_accumulate_scalar S 3 glm_ivec3_addsubs p_add p_sub /\ int_accumulate_scalar S 4 glm_ivec4_addsubs p_add p_sub /\
  int_accumulate_scalar S 2 glm_ivec2_mulsubs p_mul p_sub /\ int_accumulate_scalar S 3 glm_ivec3_mulsubs p_mul p_sub /\ int_accumulate_scalar S 4 glm_ivec4_mulsubs p_mul p_sub.
Proof. exact IntVec.C43_accumulate_scalar_ok. Qed.
Print Assumptions C43_accumulate_scalar.

Theorem C43_total : forall S : Scalar,
  iunary S 2 glm_ivec2_copy (fun a => a) /\ iunary S 3 glm_ivec3_copy (fun a => a) /\ iunary S 4 glm_ivec4_copy (fun a => a) /\
  iinplace S 2 glm_ivec2_zero (fun _ => 0) /\ iinplace S 3 glm_ivec3_zero (fun _ => 0) /\ iinplace S 4 glm_ivec4_zero (fun _ => 0) /\
  iinplace S 2 glm_ivec2_one (fun _ => 1) /\ iinplace S 3 glm_ivec3_one (fun _ => 1) /\ iinplace S 4 glm_ivec4_one (fun _ => 1) /\
  ifilled S 2 glm_ivec2_fill /\ ifilled S 3 glm_ivec3_fill /\
  iclamp S 2 glm_ivec2_clamp /\ iclamp S 3 glm_ivec3_clamp /\ iclamp S 4 glm_ivec4_clamp.
Proof. exact IntVec.C43_total_ok. Qed.
Print Assumptions C43_total.

Theorem C43_abs : forall S : Scalar, iabs S 2 glm_ivec2_abs /\ iabs S 3 glm_ivec3_abs /\ iabs S 4 glm_ivec4_abs.
Proof. exact IntVec.C43_abs_ok. Qed.
Print Assumptions C43_abs.

Theorem C43_dot : forall S : Scalar,
  idot S 2 glm_ivec2_dot /\ idot S 3 glm_ivec3_dot /\ inorm2 S 3 glm_ivec3_norm2 /\
  idistance2 S 2 glm_ivec2_distance2 /\ idistance2 S 3 glm_ivec3_distance2 /\ idistance2 S 4 glm_ivec4_distance2.
Proof. exact IntVec.C43_dot_ok. Qed.
Print Assumptions C43_dot.

Theorem C43_cross : forall S x y, length x = 2%nat -> length y = 2%nat ->
  let p := nth 0 x 0 * nth 1 y 0 in let q := nth 1 x 0 * nth 0 y 0 in
  exactly_if S (fits p /\ fits q /\ fits (p - q)) glm_ivec2_cross [In (il x); In (il y)] (VI (p - q)) [].
Proof. exact IntVec.C43_cross_ok. Qed.
Print Assumptions C43_cross.

(** comparisons: defined for all values *)
Theorem C43_eq : forall S : Scalar,
  ieqv S 2 glm_ivec2_eqv /\ ieqv S 3 glm_ivec3_eqv /\ ieq S 2 glm_ivec2_eq /\ ieq S 3 glm_ivec3_eq.
Proof. exact IntVec.C43_eq_ok. Qed.
Print Assumptions C43_eq.

(** conversions between dimensions *)
Theorem C43_convert : forall (S : Scalar) a b c d,
  computes S glm_ivec2 [InA (il [a; b]); Out 2] VVoid [il [a; b]] /\
  computes S glm_ivec3 [In (il [a; b; c; d]); Out 3] VVoid [il [a; b; c]] /\
  computes S glm_ivec4 [In (il [a; b; c]); Val (VI d); Out 4] VVoid [il [a; b; c; d]].
Proof. exact IntVec.C43_convert_ok. Qed.
Print Assumptions C43_convert.

(** the distance is the real square root of the squared distance *)
Theorem C43_distance : idistance 2 glm_ivec2_distance /\ idistance 3 glm_ivec3_distance /\ idistance 4 glm_ivec4_distance.
Proof. exact IntVec.C43_distance_ok. Qed.
Print Assumptions C43_distance.

Theorem C43_sign : forall (S : Scalar) v, fits v ->
  exactly_if S (v <> - 2 ^ 31) glm_sign [Val (VI v)] (VI (Z.sgn v)) [].
Proof. exact IntVec.C43_sign_ok. Qed.
Print Assumptions C43_sign.

Theorem C43_minmax1 : forall (S : Scalar) a b,
  computes S glm_imin [Val (VI a); Val (VI b)] (VI (Z.min a b)) [] /\ computes S glm_imax [Val (VI a); Val (VI b)] (VI (Z.max a b)) [].
Proof. exact IntVec.C43_minmax1_ok. Qed.
Print Assumptions C43_minmax1.

(** undefined although the mathematical value fits: an intermediate result does not *)
Theorem C43_dot_refuted : exists x y, length x = 2%nat /\ length y = 2%nat /\ isum (map2 Z.mul x y) = 0 /\
  forall S : Scalar, exists e, arith_ub e /\ aborts S glm_ivec2_dot [In (il x); In (il y)] e.
Proof. exact IntVec.C43_dot_refuted_ok. Qed.
Print Assumptions C43_dot_refuted.

Example C43_div_example : all2 (i_ok p_div) [7; -7; 1] [2; 2; -1] /\ map2 (i_val p_div) [7; -7; 1] [2; 2; -1] = [3; -3; -1] /\
  ~ all2 (i_ok p_div) [1; - 2 ^ 31; 1] [2; -1; -1] /\ ~ all2 (i_ok p_mod) [1; 1; 1] [2; 0; -1].
Proof. exact IntVec.C43_div_ex. Qed.

Example C43_abs_example : ~ fits (Z.abs (- 2 ^ 31)) /\ fits (- 2 ^ 31).
Proof. exact IntVec.C43_abs_ex. Qed.

(** the Euclidean norm, rounded towards zero *)
Theorem C43_norm : forall x, length x = 3%nat ->
  exactly_if RS (isum_ok 0 (map2 Z.mul x x)) glm_ivec3_norm [In (il x)] (VI (Z.sqrt (isum (map2 Z.mul x x)))) [].
Proof. exact IntVec.C43_norm_ok. Qed.
Print Assumptions C43_norm.

Example C43_norm_example : isum_ok 0 (map2 Z.mul [2; 3; 6] [2; 3; 6]) /\ Z.sqrt (isum (map2 Z.mul [2; 3; 6] [2; 3; 6])) = 7.
Proof. exact IntVec.C43_norm_ex. Qed.
