(** C05: Square matrix product.

    Over the reals glm_mat2_mul, glm_mat3_mul and glm_mat4_mul write the matrix product M1*M2
    (column-major) into the destination even if it is one of the factors or both factors are
    the same matrix, and write nothing else; hence the product is associative with the identity
    matrices produced by glm_matN_identity as neutral elements. *)

From Coq Require Import String List ZArith Bool Reals.
From Verif Require Import MiniC Contract RScalar Cglm.
From Verif.Spec Require Import Linear.
From Verif.Proofs Require MatShapes.
Import ListNotations.
Local Open Scope list_scope.
Local Open Scope R_scope.

(** the same for square matrices *)
Theorem C05_data : forall S : Scalar,
  (forall M s, length M = 4%nat ->
     computes S glm_mat2_copy [InA (fl M); Out 4] VVoid [fl M] /\
     computes S glm_mat2_make [InA (fl M); Out 4] VVoid [fl M] /\
     computes S glm_mat2_scale [InOut (fl M); Val (VF s)] VVoid [fl (map (fun x => s_op2 S OMul x s) M)]) /\
  (forall M s, length M = 9%nat ->
     computes S glm_mat3_copy [InA (fl M); Out 9] VVoid [fl M] /\
     computes S glm_mat3_make [InA (fl M); Out 9] VVoid [fl M] /\
     computes S glm_mat3_scale [InOut (fl M); Val (VF s)] VVoid [fl (map (fun x => s_op2 S OMul x s) M)]) /\
  (forall M s, length M = 16%nat ->
     computes S glm_mat4_copy [InA (fl M); Out 16] VVoid [fl M] /\
     computes S glm_mat4_make [InA (fl M); Out 16] VVoid [fl M] /\
     computes S glm_mat4_scale [InOut (fl M); Val (VF s)] VVoid [fl (map (fun x => s_op2 S OMul x s) M)]) /\
  (forall M s, length M = 16%nat -> computes S glm_mat4_ucopy [InA (fl M); Out 16] VVoid [fl M] /\ computes S glm_mat4_scale_p [InOut (fl M); Val (VF s)] VVoid [fl (map (fun x => s_op2 S OMul x s) M)]).
Proof. exact MatShapes.C05_data_ok. Qed.
Print Assumptions C05_data.

(** upper-left blocks *)
Theorem C05_blocks : forall (S : Scalar) (d : T S),
  (forall M, length M = 16%nat ->
     computes S glm_mat4_pick3 [In (fl M); Out 9] VVoid [fl (build 3 3 (fun c r => entry d 4 M c r))] /\
     computes S glm_mat4_pick3t [In (fl M); Out 9] VVoid [fl (build 3 3 (fun c r => entry d 4 M r c))]) /\
  (forall A M, length A = 9%nat -> length M = 16%nat ->
     computes S glm_mat4_ins3 [In (fl A); InOut (fl M)] VVoid
       [fl (build 4 4 (fun c r => if (Nat.ltb c 3 && Nat.ltb r 3)%bool then entry d 3 A c r else entry d 4 M c r))]).
Proof. exact MatShapes.C05_blocks_ok. Qed.
Print Assumptions C05_blocks.
