(** C69: Calls without rounding error.

    In IEEE binary32, for 504 functions (array, struct and SIMD forms) that copy, compare,
    select, negate or round down, all number arguments, and for 728 more functions (sums, dot
    and cross products, matrix and quaternion products, determinants, scalings) all integer
    arguments up to a bound given with each function: the call succeeds, does not overflow,
    takes the same branches as in exact real arithmetic, and what it returns and writes are
    numbers equal to the exact results. So single-precision 4x4 matrix products of integer
    matrices with entries up to 22 associate; with entries up to 4097 they need not. *)

From Coq Require Import String List ZArith Bool Reals.
From Verif Require Import MiniC Contract RScalar Cglm.
From Coq Require Import Reals Floats.SpecFloat.
From Verif Require Import B32.
From Verif.Spec Require Import Linear Float32 Types Exact ExactLists.
From Verif.Spec Require Import Float32 Types Linear Arrays Exact ExactLists.
From Verif.Spec Require Import Linear Float32 Types Exact ExactLists.
From Verif.Proofs Require ExactAll.
Import ListNotations.
Local Open Scope list_scope.
Local Open Scope R_scope.

Theorem C69_select : Forall (exact number) exact_always.
Proof. exact ExactAll.C69_select_ok. Qed.
Print Assumptions C69_select.

Theorem C69_integers : Forall (fun p => Forall (exact (integer (fst p))) (snd p)) exact_integers.
Proof. exact ExactAll.C69_integers_ok. Qed.
Print Assumptions C69_integers.

Theorem C69_select_values : Forall (exact_values number) (map kept_apart exact_always).
Proof. exact ExactAll.C69_select_values_ok. Qed.
Print Assumptions C69_select_values.

Theorem C69_integers_values : Forall (fun p => Forall (exact_values (integer (fst p))) (map kept_apart (snd p))) exact_integers.
Proof. exact ExactAll.C69_integers_values_ok. Qed.
Print Assumptions C69_integers_values.

Theorem C69_assoc : forall l A B C, length A = 16%nat -> length B = 16%nat -> length C = 16%nat ->
  Forall (integer 22) A -> Forall (integer 22) B -> Forall (integer 22) C ->
  exists AB BC P Q,
    computes (B32 l) glm_mat4_mul [In (fl A); In (fl B); Out 16] VVoid [fl AB] /\
    computes (B32 l) glm_mat4_mul [In (fl B); In (fl C); Out 16] VVoid [fl BC] /\
    computes (B32 l) glm_mat4_mul [In (fl AB); In (fl C); Out 16] VVoid [fl P] /\
    computes (B32 l) glm_mat4_mul [In (fl A); In (fl BC); Out 16] VVoid [fl Q] /\
    Forall number P /\ Forall number Q /\
    map rval P = map rval Q /\ map rval P = mmul 4 (map rval A) (mmul 4 (map rval B) (map rval C)).
Proof. exact ExactAll.C69_assoc_ok. Qed.
Print Assumptions C69_assoc.

(** without the bound products need not associate: here the first entries are 4097, 4097 and 3 *)
Theorem C69_assoc_refuted : exists A B C AB BC P Q, forall l,
  length A = 16%nat /\ length B = 16%nat /\ length C = 16%nat /\ Forall (integer 4097) (A ++ B ++ C) /\
  computes (B32 l) glm_mat4_mul [In (fl A); In (fl B); Out 16] VVoid [fl AB] /\
  computes (B32 l) glm_mat4_mul [In (fl B); In (fl C); Out 16] VVoid [fl BC] /\
  computes (B32 l) glm_mat4_mul [In (fl AB); In (fl C); Out 16] VVoid [fl P] /\
  computes (B32 l) glm_mat4_mul [In (fl A); In (fl BC); Out 16] VVoid [fl Q] /\
  map rval P <> map rval Q.
Proof. exact ExactAll.C69_assoc_refuted_ok. Qed.
Print Assumptions C69_assoc_refuted.

(** beyond the bound a sum is rounded: 8388609 + 8388608 *)
Theorem C69_bound_refuted : exists n d, n = 8388609%Z /\ d = (glm_vec2_add, [Apart Flt 2; Apart Flt 2; Writes 2]) /\
  ~ exact_values (integer n) d /\ ~ exact_values number d /\ exact_values (integer 8388607) d.
Proof. exact ExactAll.C69_bound_refuted_ok. Qed.
Print Assumptions C69_bound_refuted.

Example C69_assoc_example : Forall (integer 22) (map bz [2; -3; 5; 0; 7; 22; -22; 1; 0; 4; 6; -8; 9; 10; 3; 1]%Z).
Proof. exact ExactAll.C69_assoc_ex. Qed.

(** calls that meet the hypotheses *)
Example C69_select_example : length exact_always = 504%nat /\
  nth_error exact_always 311 = Some (glm_vec3_maxv, [Reads Flt 3; Reads Flt 3; Writes 3]) /\
  Forall number [bz 3; S754_finite true 1 (-149); S754_finite false 16777215 104].
Proof. exact ExactAll.C69_select_ex. Qed.
