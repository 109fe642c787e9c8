(** C11: Row and column exchange, rotations of a matrix product.

    glm_matN_swap_row and glm_matN_swap_col exchange the two named rows/columns (also when the
    two indices are equal) and leave all other cells unchanged for every index in range, and an
    out-of-range index is an out-of-bounds access; glm_matN_rmc returns r*M*c. *)

From Coq Require Import String List ZArith Bool Reals.
From Verif Require Import MiniC Contract RScalar Cglm.
From Verif.Spec Require Import Exchange.
From Verif.Proofs Require OutOfBounds.
Import ListNotations.
Local Open Scope list_scope.
Local Open Scope Z_scope.

(** an index out of range accesses memory outside the matrix: shown where the matrix is alone in memory *)
Theorem C11_outside : forall (S : Scalar) n A i j, (2 <= n <= 4)%nat -> length A = (n * n)%nat ->
  ~ (0 <= i < Z.of_nat n /\ 0 <= j < Z.of_nat n) -> forall cols, exists m ps,
  layout m [InOut (fl A); Val (VI i); Val (VI j)] ps /\
  call S (exchange n cols) (actuals [InOut (fl A); Val (VI i); Val (VI j)] ps) m = Err XBounds.
Proof. exact OutOfBounds.C11_outside_ok. Qed.
Print Assumptions C11_outside.

Example C11_outside_example : forall S : Scalar, let A := map (fun n => s_lit S (Z.of_nat n) 1) (seq 0 9) in
  call S glm_mat3_swap_row [VP 0 0; VI 1; VI 3] [fl A] = Err XBounds.
Proof. exact OutOfBounds.C11_outside_ex. Qed.
