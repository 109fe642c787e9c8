(** C73: Error bounds of functions against exact arithmetic.

    For 721 functions without elementary functions and 109 with sine and cosine (matrix,
    vector, quaternion, transform, projection, curve, easing, Euler, geometry functions of the
    scalar, struct and SIMD interfaces), a call in IEEE binary32 returns without overflow and
    every float that it returns or writes is within a listed bound of what the same call gives
    in exact real arithmetic: for floats up to 1, for floats up to 1000, and for floats within
    2^-20 of the real numbers up to 1 that the exact call gets (so errors of the arguments are
    propagated). Sine and cosine are assumed within 2^-24. Both groupings of a product of three
    matrices with entries up to 1 agree within 2050 * 2^-25. *)

From Coq Require Import String List ZArith Bool Reals.
From Verif Require Import MiniC Contract RScalar Cglm.
From Coq Require Import Reals Floats.SpecFloat.
From Verif Require Import B32.
From Verif.Spec Require Import Linear Float32 Types Exact Approx ApproxLists.
From Verif.Spec Require Import Float32 Types Linear Arrays Exact Approx ApproxLists.
From Verif.Spec Require Import Linear Float32 Types Exact Approx ApproxLists.
From Verif.Proofs Require ApproxEx.
Import ListNotations.
Local Open Scope list_scope.
Local Open Scope R_scope.

Example C73_accurate_example : exists l, accurate l.
Proof. exact ApproxEx.C73_accurate_ex. Qed.

(** the dot product of the floats nearest to 0.1, 1/3, 1/7 and 1, -1/5, 2/3 *)
Example C73_bounds_example : List.In ((glm_vec3_dot, [Reads Flt 3; Reads Flt 3]), (11, 9437184, Some 207)%Z) error_bounds /\
  exists args rargs m rm pl, Forall2 fits [Reads Flt 3; Reads Flt 3] args /\ Forall2 (arg_near (powerRZ 2 (-20))) args rargs /\ Forall (arg_upto 1) rargs /\
    layout m args pl /\ layout rm rargs pl /\
    rargs = [InA (fl [1 / 10; 1 / 3; 1 / 7]); InA (fl [1; - 1 / 5; 2 / 3])].
Proof. exact ApproxEx.C73_bounds_ex. Qed.

(** with numbers up to 1 both groupings of A B C are within 1025 units of 2^-25 of the exact product, so within
    2050 units of each other *)
Theorem C73_grouping : forall l A B C, length A = 16%nat -> length B = 16%nat -> length C = 16%nat ->
  Forall (fun x => number x /\ Rabs (rval x) <= 1) A -> Forall (fun x => number x /\ Rabs (rval x) <= 1) B -> Forall (fun x => number x /\ Rabs (rval x) <= 1) C ->
  exists AB BC P Q,
    computes (B32 l) glm_mat4_mul [In (fl A); In (fl B); Out 16] VVoid [fl AB] /\
    computes (B32 l) glm_mat4_mul [In (fl B); In (fl C); Out 16] VVoid [fl BC] /\
    computes (B32 l) glm_mat4_mul [In (fl AB); In (fl C); Out 16] VVoid [fl P] /\
    computes (B32 l) glm_mat4_mul [In (fl A); In (fl BC); Out 16] VVoid [fl Q] /\
    Forall2 (within (1025 * powerRZ 2 (-25))) P (mmul 4 (map rval A) (mmul 4 (map rval B) (map rval C))) /\
    Forall2 (within (1025 * powerRZ 2 (-25))) Q (mmul 4 (map rval A) (mmul 4 (map rval B) (map rval C))) /\
    Forall2 (fun p q => Rabs (rval p - rval q) <= 2050 * powerRZ 2 (-25)) P Q.
Proof. exact ApproxEx.C73_grouping_ok. Qed.
Print Assumptions C73_grouping.

Example C73_grouping_example : Forall (fun x => number x /\ Rabs (rval x) <= 1) (map (fun k => b_lit k 16) [1; 2; 3; -4; 5; 6; -7; 8; 9; 10; 11; 12; -13; 14; 15; 16]%Z).
Proof. exact ApproxEx.C73_grouping_ex. Qed.
