(** C74: Long products of rotations drift slowly.

    In IEEE binary32, glm_mat4_mulN and glms_mat4_mulN of n matrices whose entries are within d
    of those of orthogonal 4x4 matrices return a matrix whose entries are within n(5d + 2^-19)
    of the exact product of the orthogonal matrices (itself orthogonal), as long as that is at
    most 1/4: the error grows linearly, not exponentially, in n. In particular the product of
    up to 49000 matrices that glm_euler_by_order makes of angles up to 1000 is within 169n
    units of 2^-25 of the exact rotation, if sine and cosine are accurate to 2^-24. *)

From Coq Require Import String List ZArith Bool Reals.
From Verif Require Import MiniC Contract RScalar Cglm.
From Coq Require Import ZArith Reals Floats.SpecFloat.
From Verif Require Import B32.
From Verif.Gen Require Import struct_mat4.
From Verif.Spec Require Import Linear Arrays Float32 Affine Euler Exact Approx Drift.
From Verif.Spec Require Import Float32 Types Linear Arrays Affine Euler Exact Approx Drift.
From Verif.Spec Require Import Linear Arrays Float32 Affine Euler Exact Approx Drift.
From Verif.Proofs Require Drift.
Import ListNotations.
Local Open Scope list_scope.
Local Open Scope R_scope.

(** glm_mat4_mulN of [n] matrices within [d] of orthogonal ones is within n(5d + 2^-19) of the
    product of the orthogonal ones, as long as this is at most 1/4 *)
Theorem C74_mulN : forall l (m : mem b32) pa ps Ms dest As d, (2 <= length ps)%nat -> holds m pa (pointers ps) -> matrices m ps Ms -> valid m dest 16 ->
  apart dest 16 pa (length ps) -> (forall i p, nth_error ps i = Some p -> apart dest 16 p 16 \/ (i < 2)%nat /\ p = dest) ->
  Forall orthogonal As -> Forall2 (Forall2 (within d)) Ms As -> 0 <= d -> INR (length ps) * (5 * d + powerRZ 2 (-19)) <= 1 / 4 ->
  exists Q, call (B32 l) glm_mat4_mulN [VP (fst pa) (snd pa); VI (Z.of_nat (length ps)); VP (fst dest) (snd dest)] m = Ok (VVoid, upd m dest (fl Q)) /\
    Forall2 (within (INR (length ps) * (5 * d + powerRZ 2 (-19)))) Q (chain As) /\ orthogonal (chain As).
Proof. exact Drift.C74_mulN_ok. Qed.
Print Assumptions C74_mulN.

(** glms_mat4_mulN starts from the unit matrix *)
Theorem C74_struct_mulN : forall l (m : mem b32) pa ps Ms As d, holds m pa (pointers ps) -> matrices m ps Ms ->
  Forall orthogonal As -> Forall2 (Forall2 (within d)) Ms As -> 0 <= d -> d <= 1 / 4 -> INR (length ps) * (5 * d + powerRZ 2 (-19)) <= 1 / 4 ->
  exists Q, call (B32 l) glms_mat4_mulN [VP (fst pa) (snd pa); VI (Z.of_nat (length ps))] m = Ok (VA (fl Q), m) /\
    Forall2 (within (INR (length ps) * (5 * d + powerRZ 2 (-19)))) Q (chain As) /\ orthogonal (chain As).
Proof. exact Drift.C74_struct_mulN_ok. Qed.
Print Assumptions C74_struct_mulN.

(** rotations by any angles up to 1000 in any orders: the product of [n] matrices from
    glm_euler_by_order is within 169n units of 2^-25 of the exact rotation, up to 49000 matrices *)
Theorem C74_euler : forall l, accurate l -> forall rs, (2 <= length rs)%nat -> (Z.of_nat (length rs) <= 49000)%Z ->
  Forall (fun '(o, a) => List.In o axis_orders /\ length a = 3%nat /\ Forall (fun x => number x /\ Rabs (rval x) <= 1000) a) rs ->
  exists Ms, Forall2 (fun '(o, a) M => computes (B32 l) glm_euler_by_order [In (fl a); Val (VI (order_code o)); Out 16] VVoid [fl M]) rs Ms /\
    forall m pa ps dest, holds m pa (pointers ps) -> matrices m ps Ms -> valid m dest 16 -> apart dest 16 pa (length ps) ->
      (forall i p, nth_error ps i = Some p -> apart dest 16 p 16 \/ (i < 2)%nat /\ p = dest) ->
      exists Q, call (B32 l) glm_mat4_mulN [VP (fst pa) (snd pa); VI (Z.of_nat (length ps)); VP (fst dest) (snd dest)] m = Ok (VVoid, upd m dest (fl Q)) /\
        Forall2 (within (INR (length rs) * (169 * powerRZ 2 (-25)))) Q (chain (map (fun '(o, a) => euler4 o (map rval a)) rs)).
Proof. exact Drift.C74_euler_ok. Qed.
Print Assumptions C74_euler.

(** three rotations by the angle whose cosine is 3/5; the destination is the first matrix *)
Example C74_mulN_example : exists (m : mem b32) pa ps Ms dest As, (2 <= length ps)%nat /\ holds m pa (pointers ps) /\ matrices m ps Ms /\ valid m dest 16 /\
  apart dest 16 pa (length ps) /\ (forall i p, nth_error ps i = Some p -> apart dest 16 p 16 \/ (i < 2)%nat /\ p = dest) /\
  Forall orthogonal As /\ Forall2 (Forall2 (within (powerRZ 2 (-20)))) Ms As /\ INR (length ps) * (5 * powerRZ 2 (-20) + powerRZ 2 (-19)) <= 1 / 4 /\
  length ps = 3%nat /\ nth 0 (chain As) 0 = - 117 / 125.
Proof. exact Drift.C74_mulN_ex. Qed.

(** an accurate sine and cosine exist (C73_accurate); angles 1/2, -3, 999 and 0, 1/10, -1 in two orders *)
Example C74_euler_example : let rs := [((0, 1, 2)%nat, [b_lit 1 2; b_lit (-3) 1; b_lit 999 1]); ((2, 0, 1)%nat, [b_lit 0 1; b_lit 1 10; b_lit (-1) 1])] in
  (2 <= length rs)%nat /\ (Z.of_nat (length rs) <= 49000)%Z /\
  Forall (fun '(o, a) => List.In o axis_orders /\ length a = 3%nat /\ Forall (fun x => number x /\ Rabs (rval x) <= 1000) a) rs.
Proof. exact Drift.C74_euler_ex. Qed.
