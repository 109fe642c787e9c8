(** * Non-square matrices (C12) and plain data movement on matrices *)

From Coq Require Import String List ZArith Bool Reals Lra Lia.
From Verif Require Import Cglm.
From Verif.Spec Require Import Linear.
From Verif.Proofs Require Import RTac Layout.
Import ListNotations.
Local Open Scope R_scope.

(** matNxM has N columns and M rows; the product of matNxM and matMxN is a square matrix of M columns *)
Lemma C12_mul_ok :
  (forall A B, length A = 6%nat -> length B = 6%nat ->
     computes RS glm_mat2x3_mul [In (fl A); In (fl B); Out 9] VVoid [fl (mulg 3 2 3 A B)]) /\
  (forall A B, length A = 8%nat -> length B = 8%nat ->
     computes RS glm_mat2x4_mul [In (fl A); In (fl B); Out 16] VVoid [fl (mulg 4 2 4 A B)]) /\
  (forall A B, length A = 6%nat -> length B = 6%nat ->
     computes RS glm_mat3x2_mul [In (fl A); In (fl B); Out 4] VVoid [fl (mulg 2 3 2 A B)]) /\
  (forall A B, length A = 12%nat -> length B = 12%nat ->
     computes RS glm_mat3x4_mul [In (fl A); In (fl B); Out 16] VVoid [fl (mulg 4 3 4 A B)]) /\
  (forall A B, length A = 8%nat -> length B = 8%nat ->
     computes RS glm_mat4x2_mul [In (fl A); In (fl B); Out 4] VVoid [fl (mulg 2 4 2 A B)]) /\
  (forall A B, length A = 12%nat -> length B = 12%nat ->
     computes RS glm_mat4x3_mul [In (fl A); In (fl B); Out 9] VVoid [fl (mulg 3 4 3 A B)]).
Proof. repeat split; go. Qed.

Lemma C12_mulv_ok :
  (forall M v, length M = 6%nat -> length v = 2%nat ->
     computes RS glm_mat2x3_mulv [In (fl M); In (fl v); Out 3] VVoid [fl (mvec 2 3 M v)]) /\
  (forall M v, length M = 8%nat -> length v = 2%nat ->
     computes RS glm_mat2x4_mulv [In (fl M); In (fl v); Out 4] VVoid [fl (mvec 2 4 M v)]) /\
  (forall M v, length M = 6%nat -> length v = 3%nat ->
     computes RS glm_mat3x2_mulv [In (fl M); In (fl v); Out 2] VVoid [fl (mvec 3 2 M v)]) /\
  (forall M v, length M = 12%nat -> length v = 3%nat ->
     computes RS glm_mat3x4_mulv [In (fl M); In (fl v); Out 4] VVoid [fl (mvec 3 4 M v)]) /\
  (forall M v, length M = 8%nat -> length v = 4%nat ->
     computes RS glm_mat4x2_mulv [In (fl M); In (fl v); Out 2] VVoid [fl (mvec 4 2 M v)]) /\
  (forall M v, length M = 12%nat -> length v = 4%nat ->
     computes RS glm_mat4x3_mulv [In (fl M); In (fl v); Out 3] VVoid [fl (mvec 4 3 M v)]).
Proof. repeat split; go. Qed.

(** for every float arithmetic *)
Lemma C12_transpose_ok : forall (S : Scalar) (d : T S),
  (forall M, length M = 6%nat ->
     computes S glm_mat2x3_transpose [In (fl M); Out 6] VVoid [fl (transpose d 2 3 M)]) /\
  (forall M, length M = 8%nat ->
     computes S glm_mat2x4_transpose [In (fl M); Out 8] VVoid [fl (transpose d 2 4 M)]) /\
  (forall M, length M = 6%nat ->
     computes S glm_mat3x2_transpose [In (fl M); Out 6] VVoid [fl (transpose d 3 2 M)]) /\
  (forall M, length M = 12%nat ->
     computes S glm_mat3x4_transpose [In (fl M); Out 12] VVoid [fl (transpose d 3 4 M)]) /\
  (forall M, length M = 8%nat ->
     computes S glm_mat4x2_transpose [In (fl M); Out 8] VVoid [fl (transpose d 4 2 M)]) /\
  (forall M, length M = 12%nat ->
     computes S glm_mat4x3_transpose [In (fl M); Out 12] VVoid [fl (transpose d 4 3 M)]).
Proof. intros S d. repeat split; go. Qed.

Lemma C12_data_ok : forall S : Scalar,
  (forall M s, length M = 6%nat ->
     computes S glm_mat2x3_copy [InA (fl M); Out 6] VVoid [fl M] /\
     computes S glm_mat2x3_make [InA (fl M); Out 6] VVoid [fl M] /\
     computes S glm_mat2x3_zero [Out 6] VVoid [fl (repeat (s_lit S 0 1) 6)] /\
     computes S glm_mat2x3_scale [InOut (fl M); Val (VF s)] VVoid [fl (map (fun x => s_op2 S OMul x s) M)]) /\
  (forall M s, length M = 8%nat ->
     computes S glm_mat2x4_copy [InA (fl M); Out 8] VVoid [fl M] /\
     computes S glm_mat2x4_make [InA (fl M); Out 8] VVoid [fl M] /\
     computes S glm_mat2x4_zero [Out 8] VVoid [fl (repeat (s_lit S 0 1) 8)] /\
     computes S glm_mat2x4_scale [InOut (fl M); Val (VF s)] VVoid [fl (map (fun x => s_op2 S OMul x s) M)]) /\
  (forall M s, length M = 6%nat ->
     computes S glm_mat3x2_copy [InA (fl M); Out 6] VVoid [fl M] /\
     computes S glm_mat3x2_make [InA (fl M); Out 6] VVoid [fl M] /\
     computes S glm_mat3x2_zero [Out 6] VVoid [fl (repeat (s_lit S 0 1) 6)] /\
     computes S glm_mat3x2_scale [InOut (fl M); Val (VF s)] VVoid [fl (map (fun x => s_op2 S OMul x s) M)]) /\
  (forall M s, length M = 12%nat ->
     computes S glm_mat3x4_copy [InA (fl M); Out 12] VVoid [fl M] /\
     computes S glm_mat3x4_make [InA (fl M); Out 12] VVoid [fl M] /\
     computes S glm_mat3x4_zero [Out 12] VVoid [fl (repeat (s_lit S 0 1) 12)] /\
     computes S glm_mat3x4_scale [InOut (fl M); Val (VF s)] VVoid [fl (map (fun x => s_op2 S OMul x s) M)]) /\
  (forall M s, length M = 8%nat ->
     computes S glm_mat4x2_copy [InA (fl M); Out 8] VVoid [fl M] /\
     computes S glm_mat4x2_make [InA (fl M); Out 8] VVoid [fl M] /\
     computes S glm_mat4x2_zero [Out 8] VVoid [fl (repeat (s_lit S 0 1) 8)] /\
     computes S glm_mat4x2_scale [InOut (fl M); Val (VF s)] VVoid [fl (map (fun x => s_op2 S OMul x s) M)]) /\
  (forall M s, length M = 12%nat ->
     computes S glm_mat4x3_copy [InA (fl M); Out 12] VVoid [fl M] /\
     computes S glm_mat4x3_make [InA (fl M); Out 12] VVoid [fl M] /\
     computes S glm_mat4x3_zero [Out 12] VVoid [fl (repeat (s_lit S 0 1) 12)] /\
     computes S glm_mat4x3_scale [InOut (fl M); Val (VF s)] VVoid [fl (map (fun x => s_op2 S OMul x s) M)]).
Proof. intros S. repeat split; go. Qed.

(** shapes compose as expected: (A B) v = A (B v), and the transpose of a product is the product of the transposes in reverse order *)
Lemma C12_laws_ok :
  (forall A B v, length A = 6%nat -> length B = 6%nat -> length v = 3%nat ->
     mvec 3 3 (mulg 3 2 3 A B) v = mvec 2 3 A (mvec 3 2 B v) /\
     transp 3 3 (mulg 3 2 3 A B) = mulg 3 2 3 (transp 3 2 B) (transp 2 3 A)) /\
  (forall A B v, length A = 8%nat -> length B = 8%nat -> length v = 4%nat ->
     mvec 4 4 (mulg 4 2 4 A B) v = mvec 2 4 A (mvec 4 2 B v) /\
     transp 4 4 (mulg 4 2 4 A B) = mulg 4 2 4 (transp 4 2 B) (transp 2 4 A)) /\
  (forall A B v, length A = 6%nat -> length B = 6%nat -> length v = 2%nat ->
     mvec 2 2 (mulg 2 3 2 A B) v = mvec 3 2 A (mvec 2 3 B v) /\
     transp 2 2 (mulg 2 3 2 A B) = mulg 2 3 2 (transp 2 3 B) (transp 3 2 A)) /\
  (forall A B v, length A = 12%nat -> length B = 12%nat -> length v = 4%nat ->
     mvec 4 4 (mulg 4 3 4 A B) v = mvec 3 4 A (mvec 4 3 B v) /\
     transp 4 4 (mulg 4 3 4 A B) = mulg 4 3 4 (transp 4 3 B) (transp 3 4 A)) /\
  (forall A B v, length A = 8%nat -> length B = 8%nat -> length v = 2%nat ->
     mvec 2 2 (mulg 2 4 2 A B) v = mvec 4 2 A (mvec 2 4 B v) /\
     transp 2 2 (mulg 2 4 2 A B) = mulg 2 4 2 (transp 2 4 B) (transp 4 2 A)) /\
  (forall A B v, length A = 12%nat -> length B = 12%nat -> length v = 3%nat ->
     mvec 3 3 (mulg 3 4 3 A B) v = mvec 4 3 A (mvec 3 4 B v) /\
     transp 3 3 (mulg 3 4 3 A B) = mulg 3 4 3 (transp 3 4 B) (transp 4 3 A)).
Proof. repeat split; intros; unlists; lcbv; repeat (f_equal; try ring). Qed.

(** the same for square matrices *)
Lemma C05_data_ok : forall S : Scalar,
  (forall M s, length M = 4%nat ->
     computes S glm_mat2_copy [InA (fl M); Out 4] VVoid [fl M] /\
     computes S glm_mat2_make [InA (fl M); Out 4] VVoid [fl M] /\
     computes S glm_mat2_scale [InOut (fl M); Val (VF s)] VVoid [fl (map (fun x => s_op2 S OMul x s) M)]) /\
  (forall M s, length M = 9%nat ->
     computes S glm_mat3_copy [InA (fl M); Out 9] VVoid [fl M] /\
     computes S glm_mat3_make [InA (fl M); Out 9] VVoid [fl M] /\
     computes S glm_mat3_scale [InOut (fl M); Val (VF s)] VVoid [fl (map (fun x => s_op2 S OMul x s) M)]) /\
  (forall M s, length M = 16%nat ->
     computes S glm_mat4_copy [InA (fl M); Out 16] VVoid [fl M] /\
     computes S glm_mat4_make [InA (fl M); Out 16] VVoid [fl M] /\
     computes S glm_mat4_scale [InOut (fl M); Val (VF s)] VVoid [fl (map (fun x => s_op2 S OMul x s) M)]) /\
  (forall M s, length M = 16%nat -> computes S glm_mat4_ucopy [InA (fl M); Out 16] VVoid [fl M] /\ computes S glm_mat4_scale_p [InOut (fl M); Val (VF s)] VVoid [fl (map (fun x => s_op2 S OMul x s) M)]).
Proof. intros S. repeat split; go. Qed.

(** upper-left blocks *)
Lemma C05_blocks_ok : forall (S : Scalar) (d : T S),
  (forall M, length M = 16%nat ->
     computes S glm_mat4_pick3 [In (fl M); Out 9] VVoid [fl (build 3 3 (fun c r => entry d 4 M c r))] /\
     computes S glm_mat4_pick3t [In (fl M); Out 9] VVoid [fl (build 3 3 (fun c r => entry d 4 M r c))]) /\
  (forall A M, length A = 9%nat -> length M = 16%nat ->
     computes S glm_mat4_ins3 [In (fl A); InOut (fl M)] VVoid
       [fl (build 4 4 (fun c r => if (Nat.ltb c 3 && Nat.ltb r 3)%bool then entry d 3 A c r else entry d 4 M c r))]).
Proof. intros S d. repeat split; intros; unlists; symr; rring. Qed.
