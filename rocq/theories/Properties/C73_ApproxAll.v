(** C73: Error bounds of functions against exact arithmetic.

    For 721 functions without elementary functions and 109 with sine and cosine (matrix,
    vector, quaternion, transform, projection, curve, easing, Euler, geometry functions of the
    scalar, struct and SIMD interfaces), a call in IEEE binary32 returns without overflow and
    every float that it returns or writes is within a listed bound of what the same call gives
    in exact real arithmetic: for floats up to 1, for floats up to 1000, and for floats within
    2^-20 of the real numbers up to 1 that the exact call gets (so errors of the arguments are
    propagated). Sine and cosine are assumed within 2^-24. Both groupings of a product of three
    matrices with entries up to 1 agree within 2050 * 2^-25. *)

From Coq Require Import String List ZArith Bool Reals.
From Verif Require Import MiniC Contract RScalar Cglm.
From Coq Require Import Reals Floats.SpecFloat.
From Verif Require Import B32.
From Verif.Spec Require Import Linear Float32 Types Exact Approx ApproxLists.
From Verif.Spec Require Import Float32 Types Linear Arrays Exact Approx ApproxLists.
From Verif.Spec Require Import Linear Float32 Types Exact Approx ApproxLists.
From Verif.Proofs Require ApproxAll.
Import ListNotations.
Local Open Scope list_scope.
Local Open Scope R_scope.

Theorem C73_bounds : Forall (fun q => let '(D, (x, y, z)) := q in
    approximates any_libm 1 0 (IZR x * powerRZ 2 (-25)) D /\ approximates any_libm 1000 0 (IZR y * powerRZ 2 (-25)) D /\
    match z with Some w => approximates any_libm 1 (powerRZ 2 (-20)) (IZR w * powerRZ 2 (-25)) D | None => True end) error_bounds.
Proof. exact ApproxAll.C73_bounds_ok. Qed.
Print Assumptions C73_bounds.

Theorem C73_trig_bounds : Forall (fun q => let '(D, (x, y, z)) := q in
    approximates accurate 1 0 (IZR x * powerRZ 2 (-25)) D /\ approximates accurate 1000 0 (IZR y * powerRZ 2 (-25)) D /\
    match z with Some w => approximates accurate 1 (powerRZ 2 (-20)) (IZR w * powerRZ 2 (-25)) D | None => True end) trig_error_bounds.
Proof. exact ApproxAll.C73_trig_bounds_ok. Qed.
Print Assumptions C73_trig_bounds.

Theorem C73_values : Forall (fun q => let '(D, (x, y, z)) := q in
    approximates_values any_libm 1 0 (IZR x * powerRZ 2 (-25)) (kept_apart D) /\
    approximates_values any_libm 1000 0 (IZR y * powerRZ 2 (-25)) (kept_apart D) /\
    match z with Some w => approximates_values any_libm 1 (powerRZ 2 (-20)) (IZR w * powerRZ 2 (-25)) (kept_apart D) | None => True end) error_bounds.
Proof. exact ApproxAll.C73_values_ok. Qed.
Print Assumptions C73_values.

Theorem C73_trig_values : Forall (fun q => let '(D, (x, y, z)) := q in
    approximates_values accurate 1 0 (IZR x * powerRZ 2 (-25)) (kept_apart D) /\
    approximates_values accurate 1000 0 (IZR y * powerRZ 2 (-25)) (kept_apart D) /\
    match z with Some w => approximates_values accurate 1 (powerRZ 2 (-20)) (IZR w * powerRZ 2 (-25)) (kept_apart D) | None => True end) trig_error_bounds.
Proof. exact ApproxAll.C73_trig_values_ok. Qed.
Print Assumptions C73_trig_values.
