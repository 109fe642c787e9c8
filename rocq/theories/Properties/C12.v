(** C12: Non-square matrices.

    Over the reals the non-square products glm_mat2x3_mul ... glm_mat4x3_mul, the vector
    products *_mulv and the *_transpose functions compute the mathematical product/transpose of
    the stated shapes, and write exactly the cells of the destination. *)

From Coq Require Import String List ZArith Bool Reals.
From Verif Require Import MiniC Contract RScalar Cglm.
From Verif.Spec Require Import Linear.
From Verif.Proofs Require MatShapes.
Import ListNotations.
Local Open Scope list_scope.
Local Open Scope R_scope.

(** matNxM has N columns and M rows; the product of matNxM and matMxN is a square matrix of M columns *)
Theorem C12_mul :
  (forall A B, length A = 6%nat -> length B = 6%nat ->
     computes RS glm_mat2x3_mul [In (fl A); In (fl B); Out 9] VVoid [fl (mulg 3 2 3 A B)]) /\
  (forall A B, length A = 8%nat -> length B = 8%nat ->
     computes RS glm_mat2x4_mul [In (fl A); In (fl B); Out 16] VVoid [fl (mulg 4 2 4 A B)]) /\
  (forall A B, length A = 6%nat -> length B = 6%nat ->
     computes RS glm_mat3x2_mul [In (fl A); In (fl B); Out 4] VVoid [fl (mulg 2 3 2 A B)]) /\
  (forall A B, length A = 12%nat -> length B = 12%nat ->
     computes RS glm_mat3x4_mul [In (fl A); In (fl B); Out 16] VVoid [fl (mulg 4 3 4 A B)]) /\
  (forall A B, length A = 8%nat -> length B = 8%nat ->
     computes RS glm_mat4x2_mul [In (fl A); In (fl B); Out 4] VVoid [fl (mulg 2 4 2 A B)]) /\
  (forall A B, length A = 12%nat -> length B = 12%nat ->
     computes RS glm_mat4x3_mul [In (fl A); In (fl B); Out 9] VVoid [fl (mulg 3 4 3 A B)]).
Proof. exact MatShapes.C12_mul_ok. Qed.
Print Assumptions C12_mul.

Theorem C12_mulv :
  (forall M v, length M = 6%nat -> length v = 2%nat ->
     computes RS glm_mat2x3_mulv [In (fl M); In (fl v); Out 3] VVoid [fl (mvec 2 3 M v)]) /\
  (forall M v, length M = 8%nat -> length v = 2%nat ->
     computes RS glm_mat2x4_mulv [In (fl M); In (fl v); Out 4] VVoid [fl (mvec 2 4 M v)]) /\
  (forall M v, length M = 6%nat -> length v = 3%nat ->
     computes RS glm_mat3x2_mulv [In (fl M); In (fl v); Out 2] VVoid [fl (mvec 3 2 M v)]) /\
  (forall M v, length M = 12%nat -> length v = 3%nat ->
     computes RS glm_mat3x4_mulv [In (fl M); In (fl v); Out 4] VVoid [fl (mvec 3 4 M v)]) /\
  (forall M v, length M = 8%nat -> length v = 4%nat ->
     computes RS glm_mat4x2_mulv [In (fl M); In (fl v); Out 2] VVoid [fl (mvec 4 2 M v)]) /\
  (forall M v, length M = 12%nat -> length v = 4%nat ->
     computes RS glm_mat4x3_mulv [In (fl M); In (fl v); Out 3] VVoid [fl (mvec 4 3 M v)]).
Proof. exact MatShapes.C12_mulv_ok. Qed.
Print Assumptions C12_mulv.

(** for every float arithmetic *)
Theorem C12_transpose : forall (S : Scalar) (d : T S),
  (forall M, length M = 6%nat ->
     computes S glm_mat2x3_transpose [In (fl M); Out 6] VVoid [fl (transpose d 2 3 M)]) /\
  (forall M, length M = 8%nat ->
     computes S glm_mat2x4_transpose [In (fl M); Out 8] VVoid [fl (transpose d 2 4 M)]) /\
  (forall M, length M = 6%nat ->
     computes S glm_mat3x2_transpose [In (fl M); Out 6] VVoid [fl (transpose d 3 2 M)]) /\
  (forall M, length M = 12%nat ->
     computes S glm_mat3x4_transpose [In (fl M); Out 12] VVoid [fl (transpose d 3 4 M)]) /\
  (forall M, length M = 8%nat ->
     computes S glm_mat4x2_transpose [In (fl M); Out 8] VVoid [fl (transpose d 4 2 M)]) /\
  (forall M, length M = 12%nat ->
     computes S glm_mat4x3_transpose [In (fl M); Out 12] VVoid [fl (transpose d 4 3 M)]).
Proof. exact MatShapes.C12_transpose_ok. Qed.
Print Assumptions C12_transpose.

Theorem C12_data : forall S : Scalar,
  (forall M s, length M = 6%nat ->
     computes S glm_mat2x3_copy [InA (fl M); Out 6] VVoid [fl M] /\
     computes S glm_mat2x3_make [InA (fl M); Out 6] VVoid [fl M] /\
     computes S glm_mat2x3_zero [Out 6] VVoid [fl (repeat (s_lit S 0 1) 6)] /\
     computes S glm_mat2x3_scale [InOut (fl M); Val (VF s)] VVoid [fl (map (fun x => s_op2 S OMul x s) M)]) /\
  (forall M s, length M = 8%nat ->
     computes S glm_mat2x4_copy [InA (fl M); Out 8] VVoid [fl M] /\
     computes S glm_mat2x4_make [InA (fl M); Out 8] VVoid [fl M] /\
     computes S glm_mat2x4_zero [Out 8] VVoid [fl (repeat (s_lit S 0 1) 8)] /\
     computes S glm_mat2x4_scale [InOut (fl M); Val (VF s)] VVoid [fl (map (fun x => s_op2 S OMul x s) M)]) /\
  (forall M s, length M = 6%nat ->
     computes S glm_mat3x2_copy [InA (fl M); Out 6] VVoid [fl M] /\
     computes S glm_mat3x2_make [InA (fl M); Out 6] VVoid [fl M] /\
     computes S glm_mat3x2_zero [Out 6] VVoid [fl (repeat (s_lit S 0 1) 6)] /\
     computes S glm_mat3x2_scale [InOut (fl M); Val (VF s)] VVoid [fl (map (fun x => s_op2 S OMul x s) M)]) /\
  (forall M s, length M = 12%nat ->
     computes S glm_mat3x4_copy [InA (fl M); Out 12] VVoid [fl M] /\
     computes S glm_mat3x4_make [InA (fl M); Out 12] VVoid [fl M] /\
     computes S glm_mat3x4_zero [Out 12] VVoid [fl (repeat (s_lit S 0 1) 12)] /\
     computes S glm_mat3x4_scale [InOut (fl M); Val (VF s)] VVoid [fl (map (fun x => s_op2 S OMul x s) M)]) /\
  (forall M s, length M = 8%nat ->
     computes S glm_mat4x2_copy [InA (fl M); Out 8] VVoid [fl M] /\
     computes S glm_mat4x2_make [InA (fl M); Out 8] VVoid [fl M] /\
     computes S glm_mat4x2_zero [Out 8] VVoid [fl (repeat (s_lit S 0 1) 8)] /\
     computes S glm_mat4x2_scale [InOut (fl M); Val (VF s)] VVoid [fl (map (fun x => s_op2 S OMul x s) M)]) /\
  (forall M s, length M = 12%nat ->
     computes S glm_mat4x3_copy [InA (fl M); Out 12] VVoid [fl M] /\
     computes S glm_mat4x3_make [InA (fl M); Out 12] VVoid [fl M] /\
     computes S glm_mat4x3_zero [Out 12] VVoid [fl (repeat (s_lit S 0 1) 12)] /\
     computes S glm_mat4x3_scale [InOut (fl M); Val (VF s)] VVoid [fl (map (fun x => s_op2 S OMul x s) M)]).
Proof. exact MatShapes.C12_data_ok. Qed.
Print Assumptions C12_data.

(** shapes compose as expected: (A B) v = A (B v), and the transpose of a product is the product of the transposes in reverse order *)
Theorem C12_laws :
  (forall A B v, length A = 6%nat -> length B = 6%nat -> length v = 3%nat ->
     mvec 3 3 (mulg 3 2 3 A B) v = mvec 2 3 A (mvec 3 2 B v) /\
     transp 3 3 (mulg 3 2 3 A B) = mulg 3 2 3 (transp 3 2 B) (transp 2 3 A)) /\
  (forall A B v, length A = 8%nat -> length B = 8%nat -> length v = 4%nat ->
     mvec 4 4 (mulg 4 2 4 A B) v = mvec 2 4 A (mvec 4 2 B v) /\
     transp 4 4 (mulg 4 2 4 A B) = mulg 4 2 4 (transp 4 2 B) (transp 2 4 A)) /\
  (forall A B v, length A = 6%nat -> length B = 6%nat -> length v = 2%nat ->
     mvec 2 2 (mulg 2 3 2 A B) v = mvec 3 2 A (mvec 2 3 B v) /\
     transp 2 2 (mulg 2 3 2 A B) = mulg 2 3 2 (transp 2 3 B) (transp 3 2 A)) /\
  (forall A B v, length A = 12%nat -> length B = 12%nat -> length v = 4%nat ->
     mvec 4 4 (mulg 4 3 4 A B) v = mvec 3 4 A (mvec 4 3 B v) /\
     transp 4 4 (mulg 4 3 4 A B) = mulg 4 3 4 (transp 4 3 B) (transp 3 4 A)) /\
  (forall A B v, length A = 8%nat -> length B = 8%nat -> length v = 2%nat ->
     mvec 2 2 (mulg 2 4 2 A B) v = mvec 4 2 A (mvec 2 4 B v) /\
     transp 2 2 (mulg 2 4 2 A B) = mulg 2 4 2 (transp 2 4 B) (transp 4 2 A)) /\
  (forall A B v, length A = 12%nat -> length B = 12%nat -> length v = 3%nat ->
     mvec 3 3 (mulg 3 4 3 A B) v = mvec 4 3 A (mvec 3 4 B v) /\
     transp 3 3 (mulg 3 4 3 A B) = mulg 3 4 3 (transp 3 4 B) (transp 4 3 A)).
Proof. exact MatShapes.C12_laws_ok. Qed.
Print Assumptions C12_laws.
