(** C05: Square matrix product.

    Over the reals glm_mat2_mul, glm_mat3_mul and glm_mat4_mul write the matrix product M1*M2
    (column-major) into the destination even if it is one of the factors or both factors are
    the same matrix, and write nothing else; hence the product is associative with the identity
    matrices produced by glm_matN_identity as neutral elements. *)

From Coq Require Import String List ZArith Bool Reals.
From Verif Require Import MiniC Contract RScalar Cglm.
From Verif.Gen Require Import struct_vec2 struct_vec3 struct_vec4 struct_ivec2 struct_ivec3 struct_ivec4 struct_mat2 struct_mat3 struct_mat4 struct_quat.
From Verif.Spec Require Import Linear Arrays.
From Verif.Proofs Require ArrayApi.
Import ListNotations.
Local Open Scope list_scope.
Local Open Scope string_scope.
Local Open Scope nat_scope.
Local Open Scope list_scope.

(** The identity arrays over the reals. *)
Theorem C05_identity_array : fills RS glm_mat2_identity_array (mid 2) /\ fills RS glm_mat3_identity_array (mid 3) /\ fills RS glm_mat4_identity_array (mid 4).
Proof. exact ArrayApi.C05_identity_array_ok. Qed.
Print Assumptions C05_identity_array.
