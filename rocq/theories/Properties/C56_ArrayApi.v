(** C56: Struct API forwards faithfully.

    Every glms_ function of the struct API returns exactly the value the corresponding array
    function writes when applied to the same operands, for every float arithmetic, and never
    modifies the caller's memory except through its pointer parameters; the exceptions are
    glms_frustum_corners_at, which always reads past the end of a local array, and
    glms_mat4_mulN, which multiplies the identity by the matrices from the left to the right
    (the same product over the reals). *)

From Coq Require Import String List ZArith Bool Reals.
From Verif Require Import MiniC Contract RScalar Cglm.
From Verif.Gen Require Import struct_vec2 struct_vec3 struct_vec4 struct_ivec2 struct_ivec3 struct_ivec4 struct_mat2 struct_mat3 struct_mat4 struct_quat.
From Verif.Spec Require Import Linear Arrays.
From Verif.Proofs Require ArrayApi.
Import ListNotations.
Local Open Scope list_scope.
Local Open Scope string_scope.
Local Open Scope nat_scope.
Local Open Scope list_scope.

(** Packing and unpacking copy arrays of every length. *)
Theorem C56_pack :
  copies_floats glms_vec2_pack 2 /\ copies_floats glms_vec3_pack 3 /\ copies_floats glms_vec4_pack 4 /\
  copies_floats glms_vec2_unpack 2 /\ copies_floats glms_vec3_unpack 3 /\ copies_floats glms_vec4_unpack 4 /\
  copies_ints glms_ivec2_pack 2 /\ copies_ints glms_ivec3_pack 3 /\ copies_ints glms_ivec4_pack 4 /\
  copies_ints glms_ivec2_unpack 2 /\ copies_ints glms_ivec3_unpack 3 /\ copies_ints glms_ivec4_unpack 4.
Proof. exact ArrayApi.C56_pack_ok. Qed.
Print Assumptions C56_pack.

(** The identity arrays of the struct API are those of the array API, for every length. *)
Theorem C56_identity_array : forall S : Scalar,
  fills S glm_mat2_identity_array (unit_matrix S 2) /\ fills S glms_mat2_identity_array (unit_matrix S 2) /\
  fills S glm_mat3_identity_array (unit_matrix S 3) /\ fills S glms_mat3_identity_array (unit_matrix S 3) /\
  fills S glm_mat4_identity_array (unit_matrix S 4) /\ fills S glms_mat4_identity_array (unit_matrix S 4) /\
  fills S glm_quat_identity_array (unit_quat S) /\ fills S glms_quat_identity_array (unit_quat S).
Proof. exact ArrayApi.C56_identity_array_ok. Qed.
Print Assumptions C56_identity_array.

(** three structs packed in place *)
Example C56_pack_example : exists m ps, layout m [Out (length (@fl R [1;2;3;4;5;6]%R)); InA (fl [1;2;3;4;5;6]%R); Val (VI 3)] ps /\ nth_error ps 0 = nth_error ps 1.
Proof. exact ArrayApi.C56_pack_ex. Qed.

Example C56_identity_array_example : exists m : mem R,
  call RS glms_mat2_identity_array [VP 0 0; VI 3] m = Ok (VVoid, [fl (mid 2 ++ mid 2 ++ mid 2) ++ [CI 7%Z]]) /\ nth_error m 0 = Some (repeat CU 12 ++ [CI 7%Z]).
Proof. exact ArrayApi.C56_identity_array_ex. Qed.
