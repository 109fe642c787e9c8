(** C08: Transposition, and its aliasing trap.

    glm_matN_transpose transposes in place for every float arithmetic, and
    glm_matN_transpose_to writes the transpose when source and destination do not overlap; but
    in the scalar build glm_mat2_transpose_to, glm_mat3_transpose_to and glm_mat4_transpose_to
    called with source == destination do not produce the transpose (the lower half is lost),
    although the SIMD builds of glm_mat4_transpose_to do. *)

From Coq Require Import String List ZArith Bool Reals.
From Verif Require Import MiniC Contract RScalar Cglm.
From Verif.Spec Require Import Linear Client.
From Verif.Proofs Require MatMisc.
Import ListNotations.
Local Open Scope list_scope.
Local Open Scope R_scope.

(** in place, for every float arithmetic *)
Theorem C08_transpose : forall (S : Scalar) (d : T S),
  (forall A, length A = 4%nat -> computes S glm_mat2_transpose [InOut (fl A)] VVoid [fl (transpose d 2 2 A)]) /\
  (forall A, length A = 9%nat -> computes S glm_mat3_transpose [InOut (fl A)] VVoid [fl (transpose d 3 3 A)]) /\
  (forall A, length A = 16%nat -> computes S glm_mat4_transpose [InOut (fl A)] VVoid [fl (transpose d 4 4 A)]).
Proof. exact MatMisc.C08_transpose_ok. Qed.
Print Assumptions C08_transpose.

(** source and destination apart, for every float arithmetic *)
Theorem C08_transpose_to : forall (S : Scalar) (d : T S),
  (forall A, length A = 4%nat -> computes S glm_mat2_transpose_to [In (fl A); Out 4] VVoid [fl (transpose d 2 2 A)]) /\
  (forall A, length A = 9%nat -> computes S glm_mat3_transpose_to [In (fl A); Out 9] VVoid [fl (transpose d 3 3 A)]) /\
  (forall A, length A = 16%nat -> computes S glm_mat4_transpose_to [In (fl A); Out 16] VVoid [fl (transpose d 4 4 A)]).
Proof. exact MatMisc.C08_transpose_to_ok. Qed.
Print Assumptions C08_transpose_to.

(** source == destination: the lower triangle is lost, so the result is the transpose
    exactly when the matrix is already symmetric *)
Theorem C08_transpose_to_in_place : forall (S : Scalar) (d : T S),
  (forall A, length A = 4%nat -> (computes S (call_xx glm_mat2_transpose_to) [InOut (fl A)] VVoid [fl (transpose d 2 2 A)] <-> A = transpose d 2 2 A)) /\
  (forall A, length A = 9%nat -> (computes S (call_xx glm_mat3_transpose_to) [InOut (fl A)] VVoid [fl (transpose d 3 3 A)] <-> A = transpose d 3 3 A)) /\
  (forall A, length A = 16%nat -> (computes S (call_xx glm_mat4_transpose_to) [InOut (fl A)] VVoid [fl (transpose d 4 4 A)] <-> A = transpose d 4 4 A)).
Proof. exact MatMisc.C08_transpose_to_in_place_ok. Qed.
Print Assumptions C08_transpose_to_in_place.

Theorem C08_transpose_to_in_place_refuted : exists A, length A = 16%nat /\
  ~ computes RS (call_xx glm_mat4_transpose_to) [InOut (fl A)] VVoid [fl (transpose 0 4 4 A)].
Proof. exact MatMisc.C08_transpose_to_in_place_refuted_ok. Qed.
Print Assumptions C08_transpose_to_in_place_refuted.
