(** C11: Row and column exchange, rotations of a matrix product.

    glm_matN_swap_row and glm_matN_swap_col exchange the two named rows/columns (also when the
    two indices are equal) and leave all other cells unchanged for every index in range, and an
    out-of-range index is an out-of-bounds access; glm_matN_rmc returns r*M*c. *)

From Coq Require Import String List ZArith Bool Reals.
From Verif Require Import MiniC Contract RScalar Cglm.
From Verif.Spec Require Import Linear Client.
From Verif.Proofs Require MatMisc.
Import ListNotations.
Local Open Scope list_scope.
Local Open Scope R_scope.

(** for every float arithmetic, any indices in range, also equal ones *)
Theorem C11_swap : forall (S : Scalar) (d : T S),
  (forall A i j, length A = 4%nat -> (0 <= i < 2)%Z -> (0 <= j < 2)%Z ->
     computes S glm_mat2_swap_col [InOut (fl A); Val (VI i); Val (VI j)] VVoid [fl (swap_cols d 2 A (Z.to_nat i) (Z.to_nat j))] /\
     computes S glm_mat2_swap_row [InOut (fl A); Val (VI i); Val (VI j)] VVoid [fl (swap_rows d 2 A (Z.to_nat i) (Z.to_nat j))]) /\
  (forall A i j, length A = 9%nat -> (0 <= i < 3)%Z -> (0 <= j < 3)%Z ->
     computes S glm_mat3_swap_col [InOut (fl A); Val (VI i); Val (VI j)] VVoid [fl (swap_cols d 3 A (Z.to_nat i) (Z.to_nat j))] /\
     computes S glm_mat3_swap_row [InOut (fl A); Val (VI i); Val (VI j)] VVoid [fl (swap_rows d 3 A (Z.to_nat i) (Z.to_nat j))]) /\
  (forall A i j, length A = 16%nat -> (0 <= i < 4)%Z -> (0 <= j < 4)%Z ->
     computes S glm_mat4_swap_col [InOut (fl A); Val (VI i); Val (VI j)] VVoid [fl (swap_cols d 4 A (Z.to_nat i) (Z.to_nat j))] /\
     computes S glm_mat4_swap_row [InOut (fl A); Val (VI i); Val (VI j)] VVoid [fl (swap_rows d 4 A (Z.to_nat i) (Z.to_nat j))]).
Proof. exact MatMisc.C11_swap_ok. Qed.
Print Assumptions C11_swap.

Theorem C11_rmc :
  (forall r M c, length r = 2%nat -> length M = 4%nat -> length c = 2%nat ->
     computes RS glm_mat2_rmc [In (fl r); In (fl M); In (fl c)] (VF (rdot r (mvec 2 2 M c))) []) /\
  (forall r M c, length r = 3%nat -> length M = 9%nat -> length c = 3%nat ->
     computes RS glm_mat3_rmc [In (fl r); In (fl M); In (fl c)] (VF (rdot r (mvec 3 3 M c))) []) /\
  (forall r M c, length r = 4%nat -> length M = 16%nat -> length c = 4%nat ->
     computes RS glm_mat4_rmc [In (fl r); In (fl M); In (fl c)] (VF (rdot r (mvec 4 4 M c))) []).
Proof. exact MatMisc.C11_rmc_ok. Qed.
Print Assumptions C11_rmc.
