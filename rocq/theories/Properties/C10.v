(** C10: Chained matrix product.

    For every number of matrices len >= 2, glm_mat4_mulN writes the left-to-right product of
    the matrices pointed to, provided the destination is not one of the matrices from the third
    on; with len < 2 the assertion fails before anything is written. *)

From Coq Require Import String List ZArith Bool Reals.
From Verif Require Import MiniC Contract RScalar Cglm.
From Verif.Gen Require Import struct_mat4.
From Verif.Spec Require Import Linear Arrays.
From Verif.Proofs Require Chain.
Import ListNotations.
Local Open Scope list_scope.
Local Open Scope string_scope.
Local Open Scope Z_scope.
Local Open Scope list_scope.

(** For every number of matrices from two on, glm_mat4_mulN writes their left-to-right
    product into [dest], which must be apart from the array of pointers and from the third
    and later matrices; it may be one of the first two. *)
Theorem C10_mulN : forall (m : mem R) pa ps Ms dest, (2 <= length ps)%nat -> holds m pa (pointers ps) -> matrices m ps Ms -> valid m dest 16 ->
  apart dest 16 pa (length ps) -> (forall i p, nth_error ps i = Some p -> apart dest 16 p 16 \/ (i < 2)%nat /\ p = dest) ->
  call RS glm_mat4_mulN [VP (fst pa) (snd pa); VI (Z.of_nat (length ps)); VP (fst dest) (snd dest)] m = Ok (VVoid, upd m dest (fl (chain Ms))).
Proof. exact Chain.C10_mulN_ok. Qed.
Print Assumptions C10_mulN.

(** With fewer than two matrices the assertion fails. *)
Theorem C10_mulN_short : forall S len m pa dest, (0 <= len < 2) ->
  call S glm_mat4_mulN [VP (fst pa) (snd pa); VI len; VP (fst dest) (snd dest)] m = Err XAssert.
Proof. exact Chain.C10_mulN_short_ok. Qed.
Print Assumptions C10_mulN_short.

(** glms_mat4_mulN returns the left-to-right product for every number of matrices: the
    matrix itself for one, the identity for none; it writes nothing. *)
Theorem C10_struct_mulN : forall (m : mem R) pa ps Ms, holds m pa (pointers ps) -> matrices m ps Ms ->
  call RS glms_mat4_mulN [VP (fst pa) (snd pa); VI (Z.of_nat (length ps))] m = Ok (VA (fl (chain Ms)), m).
Proof. exact Chain.C10_struct_mulN_ok. Qed.
Print Assumptions C10_struct_mulN.

Example C10_mulN_example : exists (m : mem R) pa ps Ms dest, (2 <= length ps)%nat /\ holds m pa (pointers ps) /\ matrices m ps Ms /\ valid m dest 16 /\
  apart dest 16 pa (length ps) /\ (forall i p, nth_error ps i = Some p -> apart dest 16 p 16 \/ (i < 2)%nat /\ p = dest) /\
  nth_error ps 0 = Some dest /\ length Ms = 3%nat /\ hd 0%R (chain Ms) = 12%R.
Proof. exact Chain.C10_mulN_ex. Qed.

(** when the destination is the third matrix the product is wrong *)
Theorem C10_mulN_third_refuted : exists (m : mem R) pa ps Ms dest, (2 <= length ps)%nat /\ holds m pa (pointers ps) /\ matrices m ps Ms /\ valid m dest 16 /\
  apart dest 16 pa (length ps) /\ (forall i p, nth_error ps i = Some p -> apart dest 16 p 16 \/ i = 2%nat /\ p = dest) /\
  call RS glm_mat4_mulN [VP (fst pa) (snd pa); VI (Z.of_nat (length ps)); VP (fst dest) (snd dest)] m <> Ok (VVoid, upd m dest (fl (chain Ms))).
Proof. exact Chain.C10_mulN_third_refuted_ok. Qed.
Print Assumptions C10_mulN_third_refuted.
