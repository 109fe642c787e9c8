(** C05: Square matrix product.

    Over the reals glm_mat2_mul, glm_mat3_mul and glm_mat4_mul write the matrix product M1*M2
    (column-major) into the destination even if it is one of the factors or both factors are
    the same matrix, and write nothing else; hence the product is associative with the identity
    matrices produced by glm_matN_identity as neutral elements. *)

From Coq Require Import String List ZArith Bool Reals.
From Verif Require Import MiniC Contract RScalar Cglm.
From Verif.Spec Require Import Linear Client.
From Verif.Proofs Require Matrix.
Import ListNotations.
Local Open Scope list_scope.
Local Open Scope R_scope.

(** the destination may be either factor, or both factors may be one matrix *)
Theorem C05_mat2_mul : forall A B, length A = 4%nat -> length B = 4%nat ->
  computes RS glm_mat2_mul [InA (fl A); InA (fl B); Out 4] VVoid [fl (mmul 2 A B)].
Proof. exact Matrix.C05_mat2_mul_ok. Qed.
Print Assumptions C05_mat2_mul.

Theorem C05_mat3_mul : forall A B, length A = 9%nat -> length B = 9%nat ->
  computes RS glm_mat3_mul [InA (fl A); InA (fl B); Out 9] VVoid [fl (mmul 3 A B)].
Proof. exact Matrix.C05_mat3_mul_ok. Qed.
Print Assumptions C05_mat3_mul.

Theorem C05_mat4_mul : forall A B, length A = 16%nat -> length B = 16%nat ->
  computes RS glm_mat4_mul [InA (fl A); InA (fl B); Out 16] VVoid [fl (mmul 4 A B)].
Proof. exact Matrix.C05_mat4_mul_ok. Qed.
Print Assumptions C05_mat4_mul.

(** identity and zero matrices *)
Theorem C05_identity :
  computes RS glm_mat2_identity [Out 4] VVoid [fl (mid 2)] /\
  computes RS glm_mat3_identity [Out 9] VVoid [fl (mid 3)] /\
  computes RS glm_mat4_identity [Out 16] VVoid [fl (mid 4)] /\
  computes RS glm_mat2_zero [Out 4] VVoid [fl (repeat 0 4)] /\
  computes RS glm_mat3_zero [Out 9] VVoid [fl (repeat 0 9)] /\
  computes RS glm_mat4_zero [Out 16] VVoid [fl (repeat 0 16)].
Proof. exact Matrix.C05_identity_ok. Qed.
Print Assumptions C05_identity.

(** hence associativity and neutral elements *)
Theorem C05_monoid : forall n, (n = 2 \/ n = 3 \/ n = 4)%nat ->
  forall A B C, length A = (n * n)%nat -> length B = (n * n)%nat -> length C = (n * n)%nat ->
  mmul n (mmul n A B) C = mmul n A (mmul n B C) /\
  mmul n (mid n) A = A /\ mmul n A (mid n) = A /\ length (mmul n A B) = (n * n)%nat.
Proof. exact Matrix.C05_monoid_ok. Qed.
Print Assumptions C05_monoid.

(** both factors and the destination the same object *)
Example C05_in_place_example : exists m ps, layout m [InA (fl (mid 4)); InA (fl (mid 4)); Out (length (@fl R (mid 4)))] ps /\ nth_error ps 0 = nth_error ps 2.
Proof. exact Matrix.C05_in_place_ex. Qed.
