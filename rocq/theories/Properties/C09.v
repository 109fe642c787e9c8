(** C09: Matrix times vector.

    Over the reals glm_mat3_mulv, glm_mat4_mulv and glm_mat4_mulv3 write the product of matrix
    and column vector, including when the destination is the vector; glm_mat2_mulv does so when
    the destination is not the vector and gives a wrong second component when it is. *)

From Coq Require Import String List ZArith Bool Reals.
From Verif Require Import MiniC Contract RScalar Cglm.
From Verif.Spec Require Import Linear Client.
From Verif.Proofs Require MatMisc.
Import ListNotations.
Local Open Scope list_scope.
Local Open Scope R_scope.

(** the destination may be the vector *)
Theorem C09_mulv :
  (forall M v, length M = 9%nat -> length v = 3%nat ->
     computes RS glm_mat3_mulv [In (fl M); InA (fl v); Out 3] VVoid [fl (mvec 3 3 M v)]) /\
  (forall M v, length M = 16%nat -> length v = 4%nat ->
     computes RS glm_mat4_mulv [In (fl M); InA (fl v); Out 4] VVoid [fl (mvec 4 4 M v)]) /\
  (forall M v w, length M = 16%nat -> length v = 3%nat ->
     computes RS glm_mat4_mulv3 [In (fl M); InA (fl v); Val (VF w); Out 3] VVoid [fl (firstn 3 (mvec 4 4 M (v ++ [w])))]).
Proof. exact MatMisc.C09_mulv_ok. Qed.
Print Assumptions C09_mulv.

(** glm_mat2_mulv only when the destination is not the vector ... *)
Theorem C09_mat2_mulv : forall M v, length M = 4%nat -> length v = 2%nat ->
  computes RS glm_mat2_mulv [In (fl M); In (fl v); Out 2] VVoid [fl (mvec 2 2 M v)].
Proof. exact MatMisc.C09_mat2_mulv_ok. Qed.
Print Assumptions C09_mat2_mulv.

(** ... when it is, the second component uses the overwritten first one *)
Theorem C09_mat2_mulv_in_place : forall M x y, length M = 4%nat ->
  computes RS (call_xyy glm_mat2_mulv) [In (fl M); InOut (fl [x; y])] VVoid
    [fl [at_ (mvec 2 2 M [x; y]) 0; at_ (mvec 2 2 M [at_ (mvec 2 2 M [x; y]) 0; y]) 1]].
Proof. exact MatMisc.C09_mat2_mulv_in_place_ok. Qed.
Print Assumptions C09_mat2_mulv_in_place.

Theorem C09_mat2_mulv_in_place_refuted : exists M v, length M = 4%nat /\ length v = 2%nat /\
  ~ computes RS (call_xyy glm_mat2_mulv) [In (fl M); InOut (fl v)] VVoid [fl (mvec 2 2 M v)].
Proof. exact MatMisc.C09_mat2_mulv_in_place_refuted_ok. Qed.
Print Assumptions C09_mat2_mulv_in_place_refuted.

(** it is the usual action: linear, identity acts trivially, product acts as composition *)
Theorem C09_action : forall n, (n = 2 \/ n = 3 \/ n = 4)%nat -> forall A B v,
  length A = (n * n)%nat -> length B = (n * n)%nat -> length v = n ->
  mvec n n (mmul n A B) v = mvec n n A (mvec n n B v) /\ mvec n n (mid n) v = v.
Proof. exact MatMisc.C09_action_ok. Qed.
Print Assumptions C09_action.
