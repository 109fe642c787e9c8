(** C56: Struct API forwards faithfully.

    Every glms_ function of the struct API returns exactly the value the corresponding array
    function writes when applied to the same operands, for every float arithmetic, and never
    modifies the caller's memory except through its pointer parameters; the exceptions are
    glms_frustum_corners_at, which always reads past the end of a local array, and
    glms_mat4_mulN, which multiplies the identity by the matrices from the left to the right
    (the same product over the reals). *)

From Coq Require Import String List ZArith Bool Reals.
From Verif Require Import MiniC Contract RScalar Cglm.
From Verif.Gen Require Import struct_mat4.
From Verif.Spec Require Import Linear Arrays.
From Verif.Proofs Require Chain.
Import ListNotations.
Local Open Scope list_scope.
Local Open Scope string_scope.
Local Open Scope Z_scope.
Local Open Scope list_scope.

(** In every arithmetic both functions multiply from the left, glm_mat4_mulN starting from the
    first matrix and glms_mat4_mulN from the unit matrix. *)
Theorem C56_mulN : forall (S : Scalar) (m : mem (T S)) pa ps M0 Ms dest, (2 <= length ps)%nat -> holds m pa (pointers ps) -> matrices m ps (M0 :: Ms) -> valid m dest 16 ->
  apart dest 16 pa (length ps) -> (forall i p, nth_error ps i = Some p -> apart dest 16 p 16 \/ (i < 2)%nat /\ p = dest) ->
  call S glm_mat4_mulN [VP (fst pa) (snd pa); VI (Z.of_nat (length ps)); VP (fst dest) (snd dest)] m
    = Ok (VVoid, upd m dest (fl (fold_left (fmul4 S) Ms M0))) /\
  call S glms_mat4_mulN [VP (fst pa) (snd pa); VI (Z.of_nat (length ps))] m
    = Ok (VA (fl (fold_left (fmul4 S) (M0 :: Ms) (unit_matrix S 4))), m).
Proof. exact Chain.C56_mulN_ok. Qed.
Print Assumptions C56_mulN.
